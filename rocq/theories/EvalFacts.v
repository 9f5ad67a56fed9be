(** Lemmas on Field.evaluate. *)
From Coq Require Import Lia.
From Verif Require Import PyBase PyBaseFacts NumpyModel NumpyFacts NdModel NdFacts AxisModel FieldModel FieldSpec FieldOpFacts UfuncModel UfuncSpec UfuncFacts EvalModel EvalSpec.

(** * Shapes *)
Lemma repeats_trans s t u : repeats_to s t -> repeats_to t u -> repeats_to s u.
Proof.
  intros [L1 H1] [L2 H2]. split; [lia|]. intros j a c Ha Hc. destruct (from_end_some t j) as [b Hb]; [apply from_end_lt in Ha; lia|].
  destruct (H1 j a b Ha Hb) as [->|]; [|auto]. now apply (H2 j).
Qed.
Lemma joint_repeats s r x : bshape s r = Ok x -> repeats_to s x /\ repeats_to r x.
Proof.
  intro H. pose proof (bshape_ok_fits _ _ _ H) as B. destruct (bshape_fits s r B) as (y & E & J). rewrite H in E. injection E as <-.
  assert (L : (length s <= length x)%nat /\ (length r <= length x)%nat).
  { split.
    - destruct (Nat.le_gt_cases (length s) (length x)) as [|G]; [assumption|]. exfalso. specialize (J (length x)). rewrite from_end_none in J by lia. destruct (from_end_some s (length x) G) as [a Ha]. rewrite Ha in J. destruct (from_end r (length x)); discriminate.
    - destruct (Nat.le_gt_cases (length r) (length x)) as [|G]; [assumption|]. exfalso. specialize (J (length x)). rewrite from_end_none in J by lia. destruct (from_end_some r (length x) G) as [a Ha]. rewrite Ha in J. destruct (from_end s (length x)); discriminate. }
  split; split; try apply L; intros j a c Ha Hc; specialize (J j); rewrite Ha, Hc in J.
  - destruct (from_end r j) as [b|] eqn:Hb; cbn in J; [|left; congruence]. injection J as J. destruct (Z.eqb_spec a 1); [auto|left; congruence].
  - destruct (from_end s j) as [b|] eqn:Hb; cbn in J; [|left; congruence]. injection J as J. destruct (B j b a Hb Ha) as [Q|[Q|Q]]; [| |now right]; left; subst b; [destruct (a =? 1)%Z; congruence|symmetry; exact J].
Qed.
Lemma join_repeats l sh : join_shapes l = Ok sh -> Forall (fun s => repeats_to s sh) l.
Proof.
  revert sh. induction l as [|s l IH]; intros sh H; [constructor|]. cbn in H. apply bind_ok in H as (r & Hr & H). apply joint_repeats in H as [A B]. constructor; [exact A|]. eapply Forall_impl; [|exact (IH r Hr)]. intros t T. now apply repeats_trans with r.
Qed.
Lemma joint_into s r t : repeats_to s t -> repeats_to r t -> exists x, bshape s r = Ok x /\ repeats_to x t.
Proof.
  intros [L1 H1] [L2 H2]. assert (B : broadcastable s r).
  { intros j a b Ha Hb. destruct (from_end_some t j) as [c Hc]; [apply from_end_lt in Ha; lia|]. destruct (H1 j a c Ha Hc); destruct (H2 j b c Hb Hc); subst; auto. }
  destruct (bshape_fits s r B) as (x & E & J). exists x. split; [exact E|]. split.
  - destruct (Nat.le_gt_cases (length x) (length t)) as [|G]; [assumption|]. exfalso. destruct (from_end_some x (length t) G) as [a Ha]. rewrite J, !from_end_none in Ha by lia. discriminate.
  - intros j a c Ha Hc. rewrite J in Ha. destruct (from_end s j) as [u|] eqn:Hu; destruct (from_end r j) as [v|] eqn:Hv; cbn in Ha; try discriminate; injection Ha as <-.
    + destruct (Z.eqb_spec u 1); [exact (H2 j v c Hv Hc)|exact (H1 j u c Hu Hc)].
    + exact (H1 j u c Hu Hc).
    + exact (H2 j v c Hv Hc).
Qed.
Lemma repeats_antisym s t : repeats_to s t -> repeats_to t s -> s = t.
Proof.
  intros [L1 H1] [L2 H2]. apply from_end_ext. intro j. destruct (Nat.lt_ge_cases j (length s)) as [G|G].
  - destruct (from_end_some s j G) as [a Ha]. destruct (from_end_some t j) as [b Hb]; [lia|]. rewrite Ha, Hb. destruct (H1 j a b Ha Hb); destruct (H2 j b a Hb Ha); congruence.
  - rewrite !from_end_none by lia. reflexivity.
Qed.
Lemma join_into l t : Forall (fun s => repeats_to s t) l -> exists r, join_shapes l = Ok r /\ repeats_to r t.
Proof.
  induction l as [|s l IH]; intro F.
  - exists []. split; [reflexivity|]. split; [cbn; lia|]. intros j a b Ha. exfalso. apply from_end_lt in Ha. cbn in Ha. lia.
  - inversion F as [|? ? A B]; subst. destruct (IH B) as (r & E & R). destruct (joint_into s r t A R) as (x & X & T). exists x. split; [cbn; now rewrite E|exact T].
Qed.
Lemma join_full l t : Forall (fun s => repeats_to s t) l -> In t l -> join_shapes l = Ok t.
Proof.
  intros F I. destruct (join_into l t F) as (r & E & R). rewrite E. f_equal. apply repeats_antisym; [exact R|]. pose proof (join_repeats l r E) as G. rewrite Forall_forall in G. now apply G.
Qed.
Lemma join_error l e : join_shapes l = Err e -> e = ValueError.
Proof.
  revert e. induction l as [|s l IH]; intros e H; [discriminate|]. cbn in H. destruct (join_shapes l) as [r|x] eqn:E; [exact (bshape_err _ _ _ H)|]. cbn in H. injection H as <-. now apply IH.
Qed.
Lemma shape_eqb_spec a b : reflect (a = b) (shape_eqb a b).
Proof.
  revert b. induction a as [|x a IH]; intros [|y b]; cbn; try (constructor; congruence). destruct (Z.eqb_spec x y); cbn; [|constructor; congruence]. destruct (IH b); constructor; congruence.
Qed.

(** * Names *)
#[local] Hint Constructors occurs : core.
Lemma occurs_names {V} x (e : expr V) : occurs x e <-> In x (names e).
Proof.
  split.
  - intro H. induction H; cbn; rewrite ?in_app_iff; auto.
  - induction e; cbn; rewrite ?in_app_iff; intro H; repeat (destruct H as [H|H]); subst; try contradiction; eauto.
Qed.
Lemma argument_ok {V} (l g : dict V) x a : argument l g x = Ok a <-> exists t, first_in l g x = Some t /\ array_of t a.
Proof.
  unfold argument, first_in. split.
  - destruct (find l x) as [t|]; [|destruct (find g x) as [t|]; [|discriminate]]; (destruct t as [b|f|]; intro H; [injection H as <-; exists (TArr b)|injection H as <-; exists (TField f)|discriminate]; split; try reflexivity; apply of_arr || apply of_field).
  - intros (t & E & A). rewrite E. destruct A; reflexivity.
Qed.
Lemma bound_spec {V} (l g : dict V) x : bound l g x = true <-> first_in l g x <> None.
Proof. unfold bound, first_in. destruct (find l x); [split; [discriminate|reflexivity]|]. destruct (find g x); split; congruence || discriminate. Qed.
Lemma mapM_fail {A B} (f : A -> res B) l e : mapM f l = Err e -> exists x, In x l /\ f x = Err e.
Proof.
  revert e. induction l as [|x l IH]; intros e H; [discriminate|]. cbn in H. destruct (f x) as [y|z] eqn:E; cbn in H.
  - destruct (mapM f l) as [ys|z] eqn:F; cbn in H; [discriminate|]. injection H as <-. destruct (IH _ eq_refl) as (w & W & X). exists w. split; [now right|exact X].
  - injection H as <-. exists x. split; [now left|exact E].
Qed.
Lemma entry_found {V} (l g : dict V) ns arrs idx x : mapM (argument l g) ns = Ok arrs -> In x ns -> exists a, argument l g x = Ok a /\ In a arrs /\ entry_of (combine ns arrs) idx x = Some (a_at a (bidx (a_shape a) idx)).
Proof.
  revert arrs. induction ns as [|n ns IH]; intros arrs H I; [contradiction|]. cbn in H. destruct (argument l g n) as [a|] eqn:E; [|discriminate]. cbn in H. destruct (mapM (argument l g) ns) as [r|] eqn:F; [|discriminate]. cbn in H. injection H as <-. cbn [combine entry_of].
  destruct (String.eqb_spec x n) as [->|N]; [exists a; split; [exact E|]; split; [now left|reflexivity]|]. destruct I as [->|I]; [congruence|]. destruct (IH r eq_refl I) as (b & B1 & B2 & B3). exists b. split; [exact B1|]. split; [now right|exact B3].
Qed.
Lemma value_means {V} (look : string -> option (thing V)) idx env e : (forall x, occurs x e -> exists v, env x = Some v /\ means look idx (Name x) v) -> exists v, value_of env e = Some v /\ means look idx e v.
Proof.
  induction e; intro H; cbn [value_of].
  - apply H. constructor.
  - eexists. split; [reflexivity|constructor].
  - destruct IHe as (v & E & M); [eauto|]. rewrite E. eexists. split; [reflexivity|now constructor].
  - destruct IHe1 as (v & E & M); [eauto|]. destruct IHe2 as (w & E2 & M2); [eauto|]. rewrite E, E2. eexists. split; [reflexivity|now constructor].
  - destruct IHe1 as (v & E & M); [eauto|]. destruct IHe2 as (w & E2 & M2); [eauto|]. destruct IHe3 as (u & E3 & M3); [eauto|]. rewrite E, E2, E3. eexists. split; [reflexivity|now constructor].
Qed.
Lemma in_shape_len sh idx : in_shape sh idx = true -> length idx = length sh.
Proof. revert idx. induction sh as [|n sh IH]; intros [|i idx] H; cbn in H; try discriminate; [reflexivity|]. apply andb_true_iff in H as [_ H]. cbn. now rewrite (IH _ H). Qed.
Lemma ne_ok {V} (zero : V) e l g a : ne_evaluate zero e l g = Ok a ->
  forall idx, in_shape (a_shape a) idx = true -> means (first_in l g) idx e (a_at a idx).
Proof.
  intros H idx I. unfold ne_evaluate in H. apply bind_ok in H as (u & _ & H). apply bind_ok in H as (arrs & M & H). apply bind_ok in H as (sh & J & H). injection H as <-. cbn [a_shape a_at] in *.
  destruct (value_means (first_in l g) idx (entry_of (combine (names e) arrs) idx) e) as (v & E & S); [|now rewrite E].
  intros x O. apply occurs_names in O. destruct (entry_found l g _ _ idx x M O) as (b & B1 & B2 & B3). eexists. split; [exact B3|]. apply argument_ok in B1 as (t & T1 & T2). econstructor; [exact T1|exact T2|]. apply bidx_operand.
  apply join_repeats in J. rewrite Forall_forall in J. destruct (J (a_shape b)) as [L _]; [now apply in_map|]. rewrite (in_shape_len _ _ I). exact L.
Qed.
Lemma evaluate_ok {V} (zero : V) self e local global fr globals fr' f : evaluate zero self e local global fr globals = (fr', Ok f) ->
  evaluated (first_in (match local with Some d => d | None => f_locals fr globals end) (match global with Some d => d | None => globals end)) self e f.
Proof.
  unfold evaluate. intro H. injection H as _ H. apply bind_ok in H as (a & N & H). unfold replace_data in H. destruct (shape_eqb_spec (a_shape a) (f_shape self)) as [E|]; [|discriminate]. injection H as <-.
  split; [reflexivity|]. split; [reflexivity|]. split; [exact E|]. intros idx I. cbn [f_data]. apply (ne_ok zero e _ _ _ N). now rewrite E.
Qed.
Lemma mapM_all {A B} (f : A -> res B) l : (forall x, In x l -> exists y, f x = Ok y) -> exists r, mapM f l = Ok r.
Proof.
  induction l as [|x l IH]; intro H; [now exists []|]. destruct (H x (or_introl eq_refl)) as [y E]. destruct IH as [r R]; [intros z Z; apply H; now right|]. exists (y :: r). cbn. now rewrite E, R.
Qed.
Lemma evaluate_succeeds {V} (zero : V) (self : field V) e local global fr globals : let look := first_in (match local with Some d => d | None => f_locals fr globals end) (match global with Some d => d | None => globals end) in
  (forall x, occurs x e -> exists t a, look x = Some t /\ array_of t a /\ repeats_to (a_shape a) (f_shape self)) -> (exists x t a, occurs x e /\ look x = Some t /\ array_of t a /\ a_shape a = f_shape self) ->
  exists f, snd (evaluate zero self e local global fr globals) = Ok f.
Proof.
  cbv zeta. unfold evaluate. set (l := match local with Some d => d | None => f_locals fr globals end). set (g := match global with Some d => d | None => globals end). intros H (x0 & t0 & a0 & O0 & L0 & A0 & S0). cbn [snd].
  assert (G : forallb (bound l g) (names e) = true). { apply forallb_forall. intros x I. apply bound_spec. apply occurs_names in I. destruct (H x I) as (t & a & E & _). congruence. }
  destruct (mapM_all (argument l g) (names e)) as [arrs M]. { intros x I. apply occurs_names in I. destruct (H x I) as (t & a & E & A & _). exists a. apply argument_ok. now exists t. }
  assert (J : join_shapes (map a_shape arrs) = Ok (f_shape self)).
  { apply join_full.
    - apply Forall_forall. intros s I. apply in_map_iff in I as (b & <- & I). apply In_nth_error in I as (i & I). destruct (nth_error (names e) i) as [x|] eqn:X.
      + pose proof (proj1 (mapM_ok _ _ _) M) as F. assert (Q : argument l g x = Ok b). { clear -F X I. revert i X I. induction F as [|u v us vs P F IH]; intros [|i] X I; try discriminate; cbn in X, I; [injection X as <-; injection I as <-; exact P|eauto]. }
        apply argument_ok in Q as (t & T1 & T2). apply nth_error_In in X. apply occurs_names in X. destruct (H x X) as (t' & a & E & A & R). rewrite E in T1. injection T1 as <-. assert (a = b) by (destruct A; inversion T2; reflexivity). now subst.
      + exfalso. apply nth_error_None in X. pose proof (proj1 (mapM_ok _ _ _) M) as F. assert (FL : length (names e) = length arrs) by (clear -F; induction F; cbn; congruence). assert (nth_error arrs i <> None) as Q by congruence. apply nth_error_Some in Q. lia.
    - apply occurs_names in O0. destruct (entry_found l g _ _ [] x0 M O0) as (b & B1 & B2 & _). apply argument_ok in B1 as (t & T1 & T2). rewrite L0 in T1. injection T1 as <-. assert (b = a0) by (destruct A0; inversion T2; reflexivity). subst b. rewrite <- S0. now apply in_map. }
  unfold ne_evaluate. rewrite G, M. cbn [guard bind]. rewrite J. cbn [bind]. unfold replace_data. cbn [a_shape]. destruct (shape_eqb_spec (f_shape self) (f_shape self)); [|congruence]. now eexists.
Qed.
Lemma evaluate_fails {V} (zero : V) (self : field V) e local global fr globals x : snd (evaluate zero self e local global fr globals) = Err x ->
  let look := first_in (match local with Some d => d | None => f_locals fr globals end) (match global with Some d => d | None => globals end) in
  (x = KeyError /\ exists y, occurs y e /\ look y = None) \/ x = ValueError /\ forall y, occurs y e -> look y <> None.
Proof.
  cbv zeta. unfold evaluate. set (l := match local with Some d => d | None => f_locals fr globals end). set (g := match global with Some d => d | None => globals end). cbn [snd]. unfold ne_evaluate. intro H.
  destruct (forallb (bound l g) (names e)) eqn:G; cbn [guard bind] in H.
  - right. assert (B : forall y, occurs y e -> first_in l g y <> None). { intros y O. apply occurs_names in O. rewrite forallb_forall in G. now apply bound_spec, G. } split; [|exact B].
    destruct (mapM (argument l g) (names e)) as [arrs|z] eqn:M; cbn [bind] in H.
    + destruct (join_shapes (map a_shape arrs)) as [sh|z] eqn:J; cbn [bind] in H; [|injection H as <-; exact (join_error _ _ J)]. unfold replace_data in H. destruct (shape_eqb _ _); [discriminate|]. now injection H.
    + injection H as <-. apply mapM_fail in M as (y & Y1 & Y2). apply occurs_names, B in Y1. unfold argument in Y2. unfold first_in in Y1. destruct (find l y) as [[]|]; try discriminate; [now injection Y2|]. destruct (find g y) as [[]|]; try discriminate; [now injection Y2|congruence].
  - left. injection H as <-. split; [reflexivity|]. assert (N : exists y, In y (names e) /\ bound l g y = false).
    { clear -G. induction (names e) as [|y n IH]; [discriminate|]. cbn in G. destruct (bound l g y) eqn:E; [destruct (IH G) as (z & Z1 & Z2); exists z; split; [now right|exact Z2]|exists y; split; [now left|exact E]]. }
    destruct N as (y & Y1 & Y2). exists y. split; [now apply occurs_names|]. destruct (first_in l g y) eqn:F; [|reflexivity]. assert (bound l g y = true) by (apply bound_spec; congruence). congruence.
Qed.
Lemma evaluate_unknown {V} (zero : V) (self : field V) e local global fr globals y : let look := first_in (match local with Some d => d | None => f_locals fr globals end) (match global with Some d => d | None => globals end) in occurs y e -> look y = None -> snd (evaluate zero self e local global fr globals) = Err KeyError.
Proof.
  cbv zeta. intros O N. destruct (snd (evaluate zero self e local global fr globals)) as [f|x] eqn:E.
  - exfalso. unfold evaluate in E. cbn [snd] in E. apply bind_ok in E as (a & A & _). unfold ne_evaluate in A. destruct (forallb _ _) eqn:G; [|discriminate]. rewrite forallb_forall in G. apply occurs_names, G, bound_spec in O. contradiction.
  - destruct (evaluate_fails _ _ _ _ _ _ _ _ E) as [[-> _]|[_ B]]; [reflexivity|]. exfalso. exact (B y O N).
Qed.
(** * The caller *)
Lemma find_app {V} (a b : dict V) x : find (a ++ b) x = match find a x with Some t => Some t | None => find b x end.
Proof. induction a as [|[y t] a IH]; [reflexivity|]. cbn. now destruct (String.eqb x y). Qed.
Lemma caller_reads {V} (fr : frame V) globals e x : assigned fr e -> occurs x e -> first_in (f_locals fr globals) globals x = reads_var fr globals x.
Proof.
  destruct fr as [vars kept| |space]; intros A O.
  - destruct A as (A & ND & K). unfold first_in. cbn [f_locals reads_var]. unfold renewed. rewrite find_app.
    assert (F : find (filter (fun p => negb (declared vars (fst p))) kept) x = None).
    { clear -K. induction kept as [|[y t] kept IH]; [reflexivity|]. cbn [filter fst]. assert (D : declared vars y = true). { destruct (in_map_iff fst vars y) as [I _]. destruct (I (K y t (or_introl eq_refl))) as ([z w] & Z & W). apply existsb_exists. exists (z, w). split; [exact W|]. cbn in *. subst. apply String.eqb_refl. }
      rewrite D. cbn [negb]. apply IH. intros z u Z. apply (K z u). now right. }
    rewrite F. specialize (A x O). clear K F kept. unfold declared. induction vars as [|[y [t|]] vars IH]; cbn [flat_map snd fst app find existsb List.find].
    + reflexivity.
    + destruct (String.eqb_spec x y) as [->|N]; [reflexivity|]. cbn [orb]. apply IH; [intro I; apply A; now right|now inversion ND].
    + destruct (String.eqb_spec x y) as [->|N]; [exfalso; apply A; now left|]. cbn [orb]. apply IH; [intro I; apply A; now right|now inversion ND].
  - unfold first_in. cbn [f_locals reads_var]. now destruct (find globals x).
  - reflexivity.
Qed.
Lemma means_ext {V} (l k : string -> option (thing V)) idx e v : (forall x, occurs x e -> l x = k x) -> means l idx e v -> means k idx e v.
Proof.
  intros H M. induction M.
  - econstructor; eauto. rewrite <- H; [assumption|constructor].
  - constructor.
  - constructor. apply IHM. eauto.
  - constructor; [apply IHM1|apply IHM2]; eauto.
  - constructor; [apply IHM1|apply IHM2|apply IHM3]; eauto.
Qed.
Lemma caller_ok {V} (zero : V) self e fr globals fr' f : assigned fr e -> evaluate zero self e None None fr globals = (fr', Ok f) -> evaluated (reads_var fr globals) self e f.
Proof.
  intros A H. apply evaluate_ok in H as (T & N & S & M). split; [exact T|]. split; [exact N|]. split; [exact S|]. intros idx I. apply (means_ext (first_in (f_locals fr globals) globals)); [|now apply M]. intros x O. now apply caller_reads with e.
Qed.
Lemma variables_kept {V} (zero : V) self e local global fr globals x : (forall space, fr = InBody space -> local <> None) -> reads_var (fst (evaluate zero self e local global fr globals)) globals x = reads_var fr globals x.
Proof. intro H. unfold evaluate. cbn [fst]. destruct local as [d|], fr; try reflexivity. exfalso. exact (H space eq_refl eq_refl). Qed.
Lemma body_cleared {V} (zero : V) self e global space globals : fst (evaluate zero self e None global (InBody space) globals) = InBody [].
Proof. reflexivity. Qed.
Lemma kept_cleared {V} (zero : V) self e global vars kept globals : fst (evaluate zero self e None global (InFunction vars kept) globals) = InFunction vars [].
Proof. reflexivity. Qed.
Lemma constant_fails {V} (zero : V) (self : field V) v local global fr globals : f_shape self <> [] -> snd (evaluate zero self (Number v) local global fr globals) = Err ValueError.
Proof. intro N. unfold evaluate. cbn [snd]. unfold ne_evaluate. cbn. unfold replace_data. cbn [a_shape]. destruct (shape_eqb_spec [] (f_shape self)); [congruence|reflexivity]. Qed.
Lemma mismatch_fails {V} (zero : V) (self : field V) e local global fr globals x t a : let look := first_in (match local with Some d => d | None => f_locals fr globals end) (match global with Some d => d | None => globals end) in
  occurs x e -> look x = Some t -> array_of t a -> ~ repeats_to (a_shape a) (f_shape self) -> exists y, snd (evaluate zero self e local global fr globals) = Err y.
Proof.
  cbv zeta. intros O L A N. unfold evaluate. cbn [snd]. destruct (ne_evaluate _ _ _ _) as [b|y] eqn:E; [|now eexists]. cbn [bind]. unfold replace_data. destruct (shape_eqb_spec (a_shape b) (f_shape self)) as [S|]; [|now eexists]. exfalso. apply N. rewrite <- S.
  unfold ne_evaluate in E. apply bind_ok in E as (u & _ & E). apply bind_ok in E as (arrs & M & E). apply bind_ok in E as (sh & J & E). injection E as <-. cbn [a_shape]. apply occurs_names in O. destruct (entry_found _ _ _ _ [] x M O) as (b & B1 & B2 & _). apply argument_ok in B1 as (t' & T1 & T2). rewrite L in T1. injection T1 as <-. assert (a = b) by (destruct A; inversion T2; reflexivity). subst b.
  apply join_repeats in J. rewrite Forall_forall in J. apply J. now apply in_map.
Qed.
