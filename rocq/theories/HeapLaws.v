(** Sharing over whole histories. *)
From Coq Require Import Lia.
From Verif Require Import PyBase PyBaseFacts NumpyModel AxisModel NdModel NdFacts FieldModel HeapModel HeapSpec HeapFacts.
Local Open Scope nat_scope.

Lemma upd_len {A} (l : list A) k x : length (upd l k x) = length l.
Proof. apply upd_length. Qed.
Lemma upd_at {A} (l : list A) k x y : nth_error l k = Some y -> nth_error (upd l k x) k = Some x.
Proof. intro H. rewrite nth_error_upd, Nat.eqb_refl. assert (L : k < length l) by (apply nth_error_Some; congruence). apply Nat.ltb_lt in L. now rewrite L. Qed.
Lemma upd_away {A} (l : list A) k x j : j <> k -> nth_error (upd l k x) j = nth_error l j.
Proof. intro N. rewrite nth_error_upd. destruct (Nat.eqb_spec j k); [congruence|reflexivity]. Qed.
Lemma effect_ok c w w' r : all_ok w -> effect c w w' r -> all_ok w'.
Proof.
  intros A E. destruct E as [-> _ _|o _ C _ _ _ _|x o b _ _ Ho ->|x o l _ _ Ho ->|x o l _ _ Ho ->|x o l _ _ Ho ->|x o b v _ _ Ho G Ob Lb X1 X2 X3 _]; [exact A|exact (creates_ok _ _ _ A C)| | | | |]; intros z oz Hz.
  1-4: destruct (A z oz Hz) as (H1 & H2 & H3 & H4); unfold ok_obj; cbn; rewrite ?upd_len; auto.
  rewrite Ob in Hz. destruct (Nat.eq_dec z x) as [->|N].
  - rewrite (upd_at _ _ _ _ Ho) in Hz. injection Hz as <-. destruct (A x o Ho) as (H1 & H2 & H3 & H4). unfold ok_obj. cbn. rewrite X1, X2, X3. auto.
  - rewrite upd_away in Hz by exact N. destruct (A z oz Hz) as (H1 & H2 & H3 & H4). unfold ok_obj. rewrite X1, X2, X3. destruct G as ((l & ->) & _). rewrite app_length. lia.
Qed.
Lemma kin_mono src h1 h2 x y : (forall p, In p h1 -> In p h2) -> kin src h1 x y -> kin src h2 x y.
Proof. intros I K. induction K; [apply kin_refl|apply (kin_step _ _ c); auto|now apply kin_sym|now apply (kin_trans _ _ _ y)]. Qed.
(** the invariant: whoever shares is related *)
Record inv (h : list (cmd * res nat)) (w : world) : Prop := {
  i_ok : all_ok w;
  i_block : forall x y ox oy, nth_error (w_objs w) x = Some ox -> nth_error (w_objs w) y = Some oy -> o_block ox = o_block oy -> kin data_source h x y;
  i_lists : forall x y ox oy, nth_error (w_objs w) x = Some ox -> nth_error (w_objs w) y = Some oy -> o_ats ox = o_ats oy \/ o_tao ox = o_tao oy -> kin list_source h x y;
  i_axes : forall x y ox oy, nth_error (w_objs w) x = Some ox -> nth_error (w_objs w) y = Some oy -> o_axes ox = o_axes oy -> x = y
}.
Lemma inv_empty : inv [] empty_world.
Proof. split; intros x; try (intros y ox oy H; destruct x; discriminate). intros o H. destruct x; discriminate. Qed.
Lemma inv_mono h1 h2 w : (forall p, In p h1 -> In p h2) -> inv h1 w -> inv h2 w.
Proof. intros I [A B L X]. split; auto; intros; eapply kin_mono; eauto. Qed.
Lemma inv_step h c w w' r : inv h w -> effect c w w' r -> inv (h ++ [(c, Ok r)]) w'.
Proof.
  intros I E. assert (A' := effect_ok c w w' r (i_ok h w I) E). assert (M : forall p, In p h -> In p (h ++ [(c, Ok r)])) by (intros; apply in_or_app; now left). assert (New : In (c, Ok r) (h ++ [(c, Ok r)])) by (apply in_or_app; right; now left).
  destruct E as [-> _ _|o _ (Co & Cg & Ck) -> Fx Fl Fb|x o b _ _ Ho ->|x o l _ _ Ho ->|x o l _ _ Ho ->|x o l _ _ Ho ->|x o b v _ -> Ho G Ob Lb X1 X2 X3 D]; [exact (inv_mono _ _ _ M I)| | | | | |].
  2-5: destruct (inv_mono _ _ _ M I); split; auto.
  - set (n := length (w_objs w)) in *.
    assert (Cases : forall z oz, nth_error (w_objs w') z = Some oz -> (nth_error (w_objs w) z = Some oz /\ ok_obj w oz) \/ (z = n /\ oz = o)).
    { intros z oz Hz. rewrite Co in Hz. destruct (Nat.lt_ge_cases z n) as [L|L]; [rewrite nth_error_app1 in Hz by exact L; left; split; [exact Hz|exact (i_ok h w I z oz Hz)]|]. rewrite nth_error_app2 in Hz by exact L. destruct (z - length (w_objs w)) as [|[|]] eqn:Ez; try discriminate. injection Hz as <-. right. split; [unfold n in *; lia|reflexivity]. }
    assert (Ub : forall z oz, nth_error (w_objs w) z = Some oz -> o_block o = o_block oz -> kin data_source (h ++ [(c, Ok n)]) n z).
    { intros z oz Hz Eb. destruct Fb as [F|(s & Sc & os & Hs & Es)]; [unfold fresh_block in F; destruct (i_ok h w I z oz Hz) as (K & _); lia|]. apply (kin_trans _ _ _ s); [exact (kin_step _ _ c n s New Sc)|]. apply (kin_mono _ h); [exact M|]. apply (i_block h w I s z os oz Hs Hz). congruence. }
    assert (Ul : forall z oz, nth_error (w_objs w) z = Some oz -> o_ats o = o_ats oz \/ o_tao o = o_tao oz -> kin list_source (h ++ [(c, Ok n)]) n z).
    { intros z oz Hz Eb. destruct Fl as [(F1 & F2)|(s & Sc & os & Hs & Es1 & Es2)]; [destruct (i_ok h w I z oz Hz) as (_ & _ & K1 & K2); destruct Eb; lia|]. apply (kin_trans _ _ _ s); [exact (kin_step _ _ c n s New Sc)|]. apply (kin_mono _ h); [exact M|]. apply (i_lists h w I s z os oz Hs Hz). destruct Eb; [left|right]; congruence. }
    split; [exact A'| | |]; intros x y ox oy Hx Hy Eq; destruct (Cases x ox Hx) as [[Hx' Kx]|[-> ->]], (Cases y oy Hy) as [[Hy' Ky]|[-> ->]].
    + apply (kin_mono _ h); [exact M|]. exact (i_block h w I x y ox oy Hx' Hy' Eq).
    + apply kin_sym. apply (Ub x ox Hx'). congruence.
    + now apply (Ub y oy Hy').
    + apply kin_refl.
    + apply (kin_mono _ h); [exact M|]. exact (i_lists h w I x y ox oy Hx' Hy' Eq).
    + apply kin_sym. apply (Ul x ox Hx'). destruct Eq; [left|right]; congruence.
    + now apply (Ul y oy Hy').
    + apply kin_refl.
    + exact (i_axes h w I x y ox oy Hx' Hy' Eq).
    + unfold fresh_axes in Fx. destruct Kx as (_ & K & _). lia.
    + unfold fresh_axes in Fx. destruct Ky as (_ & K & _). lia.
    + reflexivity.
  - set (o' := mkobj b v (o_axes o) (o_ats o) (o_tao o) (o_name o) (o_unit o)) in *.
    assert (Cases : forall z oz, nth_error (w_objs w') z = Some oz -> exists oz0, nth_error (w_objs w) z = Some oz0 /\ o_axes oz = o_axes oz0 /\ o_ats oz = o_ats oz0 /\ o_tao oz = o_tao oz0 /\ ((z = x /\ o_block oz = b) \/ (z <> x /\ oz = oz0))).
    { intros z oz Hz. rewrite Ob in Hz. destruct (Nat.eq_dec z x) as [->|N]; [rewrite (upd_at _ _ _ _ Ho) in Hz; injection Hz as <-; exists o; repeat split; auto|]. rewrite upd_away in Hz by exact N. exists oz. repeat split; auto. }
    assert (Ub : forall z oz, nth_error (w_objs w) z = Some oz -> b = o_block oz -> kin data_source (h ++ [(c, Ok x)]) x z).
    { intros z oz Hz Eb. destruct D as [(F & _)|(s & Sc & os & Hs & Es)]; [destruct (i_ok h w I z oz Hz) as (K & _); lia|]. apply (kin_trans _ _ _ s); [exact (kin_step _ _ c x s New Sc)|]. apply (kin_mono _ h); [exact M|]. apply (i_block h w I s z os oz Hs Hz). congruence. }
    split; [exact A'| | |]; intros y z oy oz Hy Hz Eq; destruct (Cases y oy Hy) as (oy0 & Hy0 & Y1 & Y2 & Y3 & Y4), (Cases z oz Hz) as (oz0 & Hz0 & Z1 & Z2 & Z3 & Z4).
    + destruct Y4 as [[-> Yb]|[Ny ->]], Z4 as [[-> Zb]|[Nz ->]].
      * apply kin_refl.
      * apply (Ub z oz0 Hz0). congruence.
      * apply kin_sym, (Ub y oy0 Hy0). congruence.
      * apply (kin_mono _ h); [exact M|]. exact (i_block h w I y z oy0 oz0 Hy0 Hz0 Eq).
    + apply (kin_mono _ h); [exact M|]. apply (i_lists h w I y z oy0 oz0 Hy0 Hz0). destruct Eq; [left|right]; congruence.
    + apply (i_axes h w I y z oy0 oz0 Hy0 Hz0). congruence.
Qed.
Lemma exec_inv spl : forall cs h w w' rs, inv h w -> exec spl cs w = (w', rs) -> length rs = length cs /\ inv (h ++ combine cs rs) w'.
Proof.
  induction cs as [|c cs IH]; intros h w w' rs I E; cbn [exec] in E; [injection E as <- <-; split; [reflexivity|]; cbn; now rewrite app_nil_r|].
  destruct (run spl c w) as [[w1 r]|e] eqn:Er.
  - destruct (exec spl cs w1) as [w2 l] eqn:E2. injection E as <- <-. assert (I1 := inv_step h c w w1 r I (run_effect spl c w w1 r (i_ok h w I) Er)). destruct (IH _ _ _ _ I1 E2) as [L I2]. cbn [length combine]. split; [now rewrite L|]. now rewrite <- app_assoc in I2.
  - destruct (exec spl cs w) as [w2 l] eqn:E2. injection E as <- <-. assert (I1 : inv (h ++ [(c, Err e)]) w) by (apply (inv_mono h); [intros; apply in_or_app; now left|exact I]). destruct (IH _ _ _ _ I1 E2) as [L I2]. cbn [length combine]. split; [now rewrite L|]. now rewrite <- app_assoc in I2.
Qed.
Lemma combine_split {A B} (l : list (A * B)) : combine (map fst l) (map snd l) = l.
Proof. induction l as [|[a b] l IH]; [reflexivity|]. cbn. now rewrite IH. Qed.
Lemma reachable_inv spl h w : reachable spl h w -> inv h w.
Proof. intro E. destruct (exec_inv spl _ [] _ _ _ inv_empty E) as [_ I]. cbn in I. now rewrite combine_split in I. Qed.

(** * Modifications *)
Lemma value_parts w x o : nth_error (w_objs w) x = Some o -> ok_obj w o -> exists b axes ats tao, nth_error (w_blocks w) (o_block o) = Some b /\ nth_error (w_axes w) (o_axes o) = Some axes /\ nth_error (w_ats w) (o_ats o) = Some ats /\ nth_error (w_tao w) (o_tao o) = Some tao /\
  value w x = Ok (mkField (read_view b (o_view o)) (mkLayer axes ats tao (o_name o) (o_unit o)) []).
Proof.
  intros Ho (H1 & H2 & H3 & H4). rewrite (value_unfold _ _ _ Ho). unfold matrix_of, layer_of. destruct (get_ok _ _ H1) as (b & -> & Nb), (get_ok _ _ H2) as (ax & -> & Nx), (get_ok _ _ H3) as (s & -> & Ns), (get_ok _ _ H4) as (t & -> & Nt).
  exists b, ax, s, t. auto.
Qed.
Lemma value_given w x o b axes ats tao : nth_error (w_objs w) x = Some o -> nth_error (w_blocks w) (o_block o) = Some b -> nth_error (w_axes w) (o_axes o) = Some axes -> nth_error (w_ats w) (o_ats o) = Some ats -> nth_error (w_tao w) (o_tao o) = Some tao ->
  value w x = Ok (mkField (read_view b (o_view o)) (mkLayer axes ats tao (o_name o) (o_unit o)) []).
Proof. intros Ho H1 H2 H3 H4. rewrite (value_unfold _ _ _ Ho). unfold matrix_of, layer_of. now rewrite (some_get _ _ _ H1), (some_get _ _ _ H2), (some_get _ _ _ H3), (some_get _ _ _ H4). Qed.
Lemma grown w w' : grows w w' -> (forall k b, nth_error (w_blocks w) k = Some b -> nth_error (w_blocks w') k = Some b) /\ (forall k b, nth_error (w_axes w) k = Some b -> nth_error (w_axes w') k = Some b) /\
  (forall k b, nth_error (w_ats w) k = Some b -> nth_error (w_ats w') k = Some b) /\ (forall k b, nth_error (w_tao w) k = Some b -> nth_error (w_tao w') k = Some b).
Proof. intros ((l1 & ->) & (l2 & ->) & (l3 & ->) & (l4 & ->)). repeat split; intros; rewrite nth_error_app1; auto; apply nth_error_Some; congruence. Qed.
(** what is not modified through a shared part stays *)
Lemma keeps_all w w' y : value w' y = value w y -> (exists f, value w y = Ok f) -> forall P Q S, keeps w w' y P Q S.
Proof. intros E (f & Ef) P Q S. exists f, f. rewrite E. repeat (split; [auto|]). auto. Qed.
Lemma effect_keeps c w w' r y : all_ok w -> effect c w w' r -> exists_in w y ->
  keeps w w' y (forall x ox oy, target c = Some x -> nth_error (w_objs w) x = Some ox -> nth_error (w_objs w) y = Some oy -> x <> y /\ o_block ox <> o_block oy)
    (forall x ox oy, target c = Some x -> nth_error (w_objs w) x = Some ox -> nth_error (w_objs w) y = Some oy -> o_axes ox <> o_axes oy)
    (forall x ox oy, target c = Some x -> nth_error (w_objs w) x = Some ox -> nth_error (w_objs w) y = Some oy -> o_ats ox <> o_ats oy /\ o_tao ox <> o_tao oy).
Proof.
  intros A E Ly. destruct (get_ok (w_objs w) y Ly) as (oy & _ & Hy). destruct (value_parts w y oy Hy (A y oy Hy)) as (b & axes & ats & tao & N1 & N2 & N3 & N4 & V).
  destruct E as [-> _ _|o _ (Co & Cg & Ck) -> Fx Fl Fb|x o b' T _ Ho ->|x o l T _ Ho ->|x o l T _ Ho ->|x o l T _ Ho ->|x o b' v T -> Ho G Ob Lb X1 X2 X3 D].
  - apply keeps_all; [reflexivity|eauto].
  - apply keeps_all; [|eauto]. destruct (grown w w' Cg) as (G1 & G2 & G3 & G4). rewrite V. assert (Hy' : nth_error (w_objs w') y = Some oy) by (rewrite Co, nth_error_app1 by exact Ly; exact Hy).
    apply (value_given _ _ _ _ _ _ _ Hy'); auto.
  - eexists. assert (Hb : exists b2, nth_error (upd (w_blocks w) (o_block o) b') (o_block oy) = Some b2 /\ (o_block o <> o_block oy -> b2 = b)).
    { destruct (Nat.eq_dec (o_block oy) (o_block o)) as [Eb|Nb]; [exists b'; split; [rewrite Eb; rewrite Eb in N1; exact (upd_at _ _ _ _ N1)|congruence]|]. exists b. split; [now rewrite upd_away|auto]. }
    destruct Hb as (b2 & Hb & Eb). eexists. split; [exact V|]. split; [eapply (value_given (with_blocks w (upd (w_blocks w) (o_block o) b')) y oy); eauto|]. cbn. split; [reflexivity|]. split; [reflexivity|]. split; [intro D; rewrite Eb; [reflexivity|]; exact (proj2 (D x o oy T Ho Hy))|]. auto.
  - assert (Hb : exists b2, nth_error (upd (w_axes w) (o_axes o) l) (o_axes oy) = Some b2 /\ (o_axes o <> o_axes oy -> b2 = axes)).
    { destruct (Nat.eq_dec (o_axes oy) (o_axes o)) as [Eb|Nb]; [exists l; split; [rewrite Eb; rewrite Eb in N2; exact (upd_at _ _ _ _ N2)|congruence]|]. exists axes. split; [now rewrite upd_away|auto]. }
    destruct Hb as (b2 & Hb & Eb). eexists. eexists. split; [exact V|]. split; [eapply (value_given (mkworld _ _ (upd (w_axes w) (o_axes o) l) _ _) y oy); eauto|]. cbn. split; [reflexivity|]. split; [reflexivity|]. split; [reflexivity|]. split; [intro D; apply Eb; exact (D x o oy T Ho Hy)|]. auto.
  - assert (Hb : exists b2, nth_error (upd (w_ats w) (o_ats o) l) (o_ats oy) = Some b2 /\ (o_ats o <> o_ats oy -> b2 = ats)).
    { destruct (Nat.eq_dec (o_ats oy) (o_ats o)) as [Eb|Nb]; [exists l; split; [rewrite Eb; rewrite Eb in N3; exact (upd_at _ _ _ _ N3)|congruence]|]. exists ats. split; [now rewrite upd_away|auto]. }
    destruct Hb as (b2 & Hb & Eb). eexists. eexists. split; [exact V|]. split; [eapply (value_given (mkworld _ _ _ (upd (w_ats w) (o_ats o) l) _) y oy); eauto|]. cbn. split; [reflexivity|]. split; [reflexivity|]. split; [reflexivity|]. split; [reflexivity|]. intro D. split; [|reflexivity]. apply Eb. exact (proj1 (D x o oy T Ho Hy)).
  - assert (Hb : exists b2, nth_error (upd (w_tao w) (o_tao o) l) (o_tao oy) = Some b2 /\ (o_tao o <> o_tao oy -> b2 = tao)).
    { destruct (Nat.eq_dec (o_tao oy) (o_tao o)) as [Eb|Nb]; [exists l; split; [rewrite Eb; rewrite Eb in N4; exact (upd_at _ _ _ _ N4)|congruence]|]. exists tao. split; [now rewrite upd_away|auto]. }
    destruct Hb as (b2 & Hb & Eb). eexists. eexists. split; [exact V|]. split; [eapply (value_given (mkworld _ _ _ _ (upd (w_tao w) (o_tao o) l)) y oy); eauto|]. cbn. split; [reflexivity|]. split; [reflexivity|]. split; [reflexivity|]. split; [reflexivity|]. intro D. split; [reflexivity|]. apply Eb. exact (proj2 (D x o oy T Ho Hy)).
  - destruct (grown w w' G) as (G1 & G2 & G3 & G4). destruct (Nat.eq_dec y x) as [->|N].
    + rewrite Ho in Hy. injection Hy as <-. assert (Hb : exists b2, nth_error (w_blocks w') b' = Some b2) by (destruct (nth_error (w_blocks w') b') eqn:Z; [eauto|apply nth_error_None in Z; lia]). destruct Hb as (b2 & Hb).
      eexists. eexists. split; [exact V|]. split; [eapply (value_given w' x (mkobj b' v (o_axes o) (o_ats o) (o_tao o) (o_name o) (o_unit o))); [rewrite Ob; exact (upd_at _ _ _ _ Ho)|exact Hb|apply G2; exact N2|apply G3; exact N3|apply G4; exact N4]|]. cbn. split; [reflexivity|]. split; [reflexivity|]. split; [intro D'; destruct (D' x o o T Ho Ho) as [Z _]; congruence|]. auto.
    + apply keeps_all; [|eauto]. rewrite V. apply (value_given w' y oy); auto. now rewrite Ob, upd_away.
Qed.
(** * The theorem about histories *)
Lemma history spl h w m w' r y : reachable spl h w -> run spl m w = Ok (w', r) -> exists_in w y ->
  keeps w w' y (forall x, target m = Some x -> ~ kin data_source h x y) (forall x, target m = Some x -> x <> y) (forall x, target m = Some x -> ~ kin list_source h x y).
Proof.
  intros R E Ly. assert (I := reachable_inv spl h w R). assert (Ef := run_effect spl m w w' r (i_ok h w I) E). destruct (effect_keeps m w w' r y (i_ok h w I) Ef Ly) as (f & f' & V & V' & Nm & Un & D & X & L).
  exists f, f'. split; [exact V|]. split; [exact V'|]. split; [exact Nm|]. split; [exact Un|]. split; [|split].
  - intro K. apply D. intros x ox oy T Hx Hy. split; [intros ->; apply (K y T), kin_refl|]. intro Eb. exact (K x T (i_block h w I x y ox oy Hx Hy Eb)).
  - intro K. apply X. intros x ox oy T Hx Hy Eb. exact (K x T (i_axes h w I x y ox oy Hx Hy Eb)).
  - intro K. apply L. intros x ox oy T Hx Hy. split; intro Eb; apply (K x T), (i_lists h w I x y ox oy Hx Hy); auto.
Qed.
Lemma derivation_keeps spl h w c w' r y : reachable spl h w -> run spl c w = Ok (w', r) -> target c = None -> exists_in w y -> value w' y = value w y.
Proof.
  intros R E T Ly. destruct (history spl h w c w' r y R E Ly) as (f & f' & V & V' & Nm & Un & D & X & L). rewrite V, V'. rewrite T in *. assert (D' := D ltac:(discriminate)). assert (X' := X ltac:(discriminate)). destruct (L ltac:(discriminate)) as [L1 L2].
  f_equal. unfold value in V, V'. apply bind_ok in V as (o & _ & V). apply bind_ok in V as (a & _ & V). apply bind_ok in V as (l & _ & V). injection V as <-. apply bind_ok in V' as (o' & _ & V'). apply bind_ok in V' as (a' & _ & V'). apply bind_ok in V' as (l' & _ & V'). injection V' as <-.
  unfold f_axes, f_ats, f_tao in *. cbn [f_data f_top] in *. subst a'. destruct l, l'. cbn in *. congruence.
Qed.
