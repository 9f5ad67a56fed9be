(** Facts about unstagger_fields (C87). *)
From Coq Require Import Reals List ZArith Lra Lia Permutation.
From Verif Require Import PyBase PyBaseFacts NumpyModel NdModel NdFacts FieldModel FieldIntFacts CplxModel CplxFacts FftModel FftSpec FftKernel FftAxes FftFacts FftLaws FftMore FftShift FftWaveSpec FftWave UnstagModel UnstagSpec.
Import ListNotations.
Local Open Scope R_scope.

Lemma mapM_at {A B} (g : A -> res B) (h : nat -> B) : forall l k, (forall a x, nth_error l a = Some x -> g x = Ok (h (k + a)%nat)) -> mapM g l = Ok (map h (seq k (length l))).
Proof.
  induction l as [|x l IH]; intros k H; [reflexivity|]. cbn [mapM length seq map]. rewrite (H 0%nat x eq_refl), Nat.add_0_r. cbn [bind].
  rewrite (IH (S k)); [reflexivity|]. intros a y E. rewrite (H (S a) y E). f_equal. f_equal. lia.
Qed.
Section one.
Variables (sh : list Z) (f : sfield) (U : nat -> uni) (st : bool).
Hypothesis S : staggered sh f U st.
Let n := length sh.
Lemma stag_axes : length (rf_axes (sf_field f)) = n.
Proof. destruct S as (C & Sh & _). rewrite (c_axes _ C). unfold ndim. now rewrite Sh. Qed.
Lemma stag_at a ax : nth_error (rf_axes (sf_field f)) a = Some ax -> (a < n)%nat /\ axis_is ax (U a).
Proof.
  intro E. assert (L : (a < n)%nat) by (rewrite <- stag_axes; apply nth_error_Some; congruence). split; [exact L|].
  destruct S as (_ & _ & G & _). destruct (G a) as (ax' & E' & A & _); [apply in_seq; fold n; lia|]. rewrite E in E'. injection E' as <-. exact A.
Qed.
Lemma stag_first : first_points (sf_field f) = Ok (map (fun a => u_x0 (U a)) (seq 0 n)).
Proof.
  unfold first_points. rewrite (mapM_at _ (fun a => u_x0 (U a)) _ 0); [now rewrite stag_axes|]. intros a ax E. cbn [plus]. destruct (stag_at a ax E) as [_ (G & _ & [N _])].
  rewrite G. apply (getidx_nat _ 0%nat). unfold grid_of. destruct (u_n (U a)) as [|m]; [lia|]. cbn [seq map nth_error]. unfold point. f_equal. cbn. ring.
Qed.
Lemma stag_spacing : spacings (sf_field f) = Ok (map (fun a => u_dx (U a)) (seq 0 n)).
Proof.
  unfold spacings. rewrite (mapM_at _ (fun a => u_dx (U a)) _ 0); [now rewrite stag_axes|]. intros a ax E. cbn [plus]. destruct (stag_at a ax E) as [_ A]. now apply spacing_grid.
Qed.
Lemma stag_linear : forallb rislinear (rf_axes (sf_field f)) = true.
Proof.
  apply forallb_forall. intros ax I. apply In_nth_error in I as (a & E). destruct (stag_at a ax E) as [_ (G & Nd & _)]. apply (islinear_grid ax (U a) Nd). rewrite G. apply grid_length.
Qed.
Lemma stag_dx a : (a < n)%nat -> 0 < u_dx (U a).
Proof.
  intro L. destruct S as (_ & _ & G & _). destruct (G a) as (ax & _ & (_ & _ & P) & _); [apply in_seq; fold n; lia|]. apply P.
Qed.
End one.

Lemma Rleb_true a b : Rleb a b = true <-> a <= b.
Proof. unfold Rleb. destruct (Rle_dec a b); split; intro; congruence || assumption || (exfalso; auto). Qed.
Lemma rclose_true a b : rclose a b = true <-> Rabs (a - b) <= / 100000000 + / 100000 * Rabs b.
Proof. unfold rclose. apply Rleb_true. Qed.
Lemma rclose_refl a : rclose a a = true.
Proof. apply rclose_true. rewrite Rminus_diag_eq, Rabs_R0 by reflexivity. assert (H := Rabs_pos a). lra. Qed.
Lemma combine_map2 {A B D} (g : A -> B) (h : A -> D) l : combine (map g l) (map h l) = map (fun x => (g x, h x)) l.
Proof. induction l as [|x l IH]; cbn; [reflexivity|]. now rewrite IH. Qed.
Lemma all_close_near n o U : all_close (map o (seq 0 n)) (map (fun a => u_x0 (U a)) (seq 0 n)) = true <-> near n o U.
Proof.
  unfold all_close. rewrite combine_map2, forallb_forall. split.
  - intros H a L. apply rclose_true. apply (H (o a, u_x0 (U a))). apply (in_map (fun x => (o x, u_x0 (U x)))). apply in_seq. lia.
  - intros H p I. apply in_map_iff in I as (a & <- & I). apply in_seq in I. apply rclose_true. apply H. lia.
Qed.
Lemma map2_map {A B D E} (op : B -> D -> E) (g : A -> B) (h : A -> D) l : map2 op (map g l) (map h l) = map (fun x => op (g x) (h x)) l.
Proof. induction l as [|x l IH]; cbn; [reflexivity|]. now rewrite IH. Qed.
Lemma combine_zrange (g : nat -> R) m : combine (zrange (Z.of_nat m)) (map g (seq 0 m)) = map (fun a => (Z.of_nat a, g a)) (seq 0 m).
Proof. unfold zrange. rewrite Nat2Z.id. apply combine_map2. Qed.
Lemma map2_nil {A B D} (op : A -> B -> D) l : map2 op l [] = [].
Proof. destruct l; reflexivity. Qed.

Lemma Rabs_quot a b : 0 < b -> Rabs (a / b) = Rabs a / b.
Proof. intro P. unfold Rdiv. rewrite Rabs_mult, Rabs_inv, (Rabs_pos_eq b) by lra. reflexivity. Qed.
Section field.
Variables (spl : rspline) (sh : list Z) (f : sfield) (U : nat -> uni) (st : bool) (o d : nat -> R).
Hypothesis (Sp : linear_spline spl) (S : staggered sh f U st) (L1 : (1 <= length sh)%nat).
Hypothesis Hd : forall a, (a < length sh)%nat -> u_dx (U a) = d a.
Let n := length sh.
Lemma two_cells : existsb (fun p => Rltb 2 (Rabs (fst p / snd p))) (combine (map2 Rminus (map o (seq 0 n)) (map (fun a => u_x0 (U a)) (seq 0 n))) (map d (seq 0 n))) = false <-> within_two n o U.
Proof.
  rewrite map2_map, combine_map2. split.
  - intros H a L. destruct (Rle_dec (Rabs (o a - u_x0 (U a))) (2 * u_dx (U a))) as [|N]; [assumption|]. exfalso.
    assert (T : existsb (fun p => Rltb 2 (Rabs (fst p / snd p))) (map (fun x => (o x - u_x0 (U x), d x)) (seq 0 n)) = true).
    { apply existsb_exists. exists (o a - u_x0 (U a), d a). split; [apply (in_map (fun x => (o x - u_x0 (U x), d x))); apply in_seq; lia|]. cbn [fst snd]. unfold Rltb. destruct (Rlt_dec 2 _) as [|Q]; [reflexivity|]. exfalso. apply Q.
      rewrite <- (Hd a L). assert (P := stag_dx sh f U st S a L). rewrite Rabs_quot by exact P. apply (Rmult_lt_reg_r (u_dx (U a))); [exact P|]. unfold Rdiv. rewrite Rmult_assoc, Rinv_l by lra. lra. }
    congruence.
  - intro H. destruct (existsb _ _) eqn:E; [|reflexivity]. apply existsb_exists in E as (p & I & T). apply in_map_iff in I as (a & <- & I). apply in_seq in I. cbn [fst snd] in T. unfold Rltb in T. destruct (Rlt_dec 2 _) as [Q|]; [|discriminate]. exfalso.
    assert (L : (a < n)%nat) by lia. rewrite <- (Hd a L) in Q. assert (P := stag_dx sh f U st S a L). rewrite Rabs_quot in Q by exact P. assert (Hh := H a L).
    apply (Rmult_lt_compat_r (u_dx (U a))) in Q; [|exact P]. unfold Rdiv in Q. rewrite Rmult_assoc, Rinv_l in Q by lra. lra.
Qed.
Lemma broadcast_same (l : list R) m : length l = m -> broadcast_row m l = Ok l.
Proof. intro E. unfold broadcast_row. now rewrite E, Nat.eqb_refl. Qed.
Lemma unstagger_one_ok : (near n o U \/ within_two n o U) -> exists g, unstagger_one spl (map d (seq 0 n)) (map o (seq 0 n)) f = Ok g /\ unstaggered sh o f U st g.
Proof.
  intro H. unfold unstagger_one. rewrite (stag_first sh f U st S). cbn [bind]. rewrite broadcast_same by (rewrite !map_length; reflexivity). cbn [bind].
  destruct (all_close (map o (seq 0 (length sh))) (map (fun a => u_x0 (U a)) (seq 0 (length sh)))) eqn:E.
  - apply all_close_near in E. fold n. exists f. fold n in E. rewrite (proj2 (all_close_near n o U) E). split; [reflexivity|]. split; [reflexivity|]. intro N. contradiction.
  - assert (Nn : ~ near n o U) by (intro N; apply all_close_near in N; unfold n in N; congruence). fold n in E |- *. rewrite E. destruct H as [H|H]; [contradiction|]. rewrite (proj2 two_cells H).
    rewrite map2_map. rewrite map_length, seq_length, combine_zrange.
    destruct S as (Cf & Sh & Ug & Hs). fold n in Ug, Hs. assert (N0 : seq 0 n <> []) by (destruct n as [|m] eqn:En; [fold n in L1; lia|discriminate]).
    destruct (shift_grids spl (sf_field f) (seq 0 n) (fun a => o a - u_x0 (U a)) U st Sp Cf N0 (seq_NoDup n 0) Ug Hs) as (G & EG & ShG & AtG & UgG & _).
    rewrite EG. cbn [bind]. eexists. split; [reflexivity|]. split; [intro; contradiction|]. intros _. cbn [sf_real sf_field].
    assert (Gg : forall a, moved_by (o a - u_x0 (U a)) (U a) = grid_at o U a) by (intro a; unfold moved_by, grid_at; f_equal; ring).
    assert (OG : on_grid G (seq 0 n) (grid_at o U)) by (intros a I; destruct (UgG a I) as (ax & E1 & E2 & E3); rewrite Gg in *; exists ax; auto).
    split; [reflexivity|]. split; [destruct (sf_real f); cbn; congruence|]. split; [destruct (sf_real f); exact AtG|]. split; [destruct (sf_real f); exact OG|].
    intros ws Wp Wf idx I. destruct (shift_waves spl (sf_field f) (seq 0 n) (fun a => o a - u_x0 (U a)) U st ws Sp Cf N0 (seq_NoDup n 0) Ug Hs Wp) as (G' & EG' & V).
    { rewrite Sh. exact Wf. }
    rewrite EG in EG'. injection EG' as <-. assert (Vi := V idx ltac:(rewrite Sh; exact I)).
    assert (Ew : waves (- sign false st) (fun a => moved_by (o a - u_x0 (U a)) (U a)) (frequencies (sf_field f) U) (seq 0 n) ws idx = waves (- sign false st) (grid_at o U) (frequencies (sf_field f) U) (seq 0 n) ws idx).
    { unfold waves. f_equal. apply map_ext. intro w. unfold wave_at. f_equal. f_equal. f_equal. apply map_ext. intro a. now rewrite Gg. }
    rewrite Ew in Vi. fold n. rewrite <- Vi. destruct (sf_real f); reflexivity.
Qed.
Lemma unstagger_one_far : ~ near n o U -> ~ within_two n o U -> unstagger_one spl (map d (seq 0 n)) (map o (seq 0 n)) f = Err ValueError.
Proof.
  intros Nn Nw. unfold unstagger_one. rewrite (stag_first sh f U st S). cbn [bind]. rewrite broadcast_same by (rewrite !map_length; reflexivity). cbn [bind]. fold n.
  destruct (all_close _ _) eqn:E; [apply all_close_near in E; contradiction|].
  destruct (existsb _ _) eqn:E2; [reflexivity|]. apply two_cells in E2. contradiction.
Qed.
End field.

(** * All fields *)
Definition positions (n : nat) (e : entry) : list R := map (fun a => u_x0 (e_grid e a)) (seq 0 n).
Lemma mapM_entries {B} (g : sfield -> res B) (h : entry -> B) l : (forall e, In e l -> g (e_field e) = Ok (h e)) -> mapM g (map e_field l) = Ok (map h l).
Proof. induction l as [|e l IH]; intro H; [reflexivity|]. cbn [map mapM]. rewrite H by now left. cbn [bind]. rewrite IH by (intros; apply H; now right). reflexivity. Qed.
Lemma mapM_such {B} (g : sfield -> res B) (P : entry -> B -> Prop) l : (forall e, In e l -> exists y, g (e_field e) = Ok y /\ P e y) -> exists gs, mapM g (map e_field l) = Ok gs /\ Forall2 P l gs.
Proof.
  induction l as [|e l IH]; intro Q; [exists []; split; [reflexivity|constructor]|]. cbn [map mapM]. destruct (Q e (or_introl eq_refl)) as (y & E & W). rewrite E. cbn [bind].
  destruct IH as (gs & E2 & W2); [intros; apply Q; now right|]. rewrite E2. cbn [bind]. exists (y :: gs). split; [reflexivity|now constructor].
Qed.
Lemma mapM_fails {B} (g : sfield -> res B) x e l : In e l -> g (e_field e) = Err x -> (forall e, In e l -> (exists y, g (e_field e) = Ok y) \/ g (e_field e) = Err x) -> mapM g (map e_field l) = Err x.
Proof.
  intros I F Q. induction l as [|e' l IH]; [contradiction|]. cbn [map mapM]. destruct I as [->|I]; [rewrite F; reflexivity|].
  destruct (Q e' (or_introl eq_refl)) as [[y E]|E]; rewrite E; [|reflexivity]. cbn [bind]. rewrite IH; [reflexivity|exact I|intros; apply Q; now right].
Qed.
Section list.
Variables (spl : rspline) (sh : list Z) (es : list entry).
Hypothesis (Sp : linear_spline spl) (Cm : comparable sh es).
Let n := length sh.
Let d a := u_dx (e_grid (hd (mkentry (mksf false (mkrf (mkarr [] (fun _ => C0)) [] [] [])) (fun _ => mkuni 0 0 0) false) es) a).
Lemma all_spaced e a : In e es -> (a < n)%nat -> u_dx (e_grid e a) = d a.
Proof.
  destruct Cm as (_ & N & _ & E). intros I L. unfold d. destruct es as [|e0 r]; [congruence|]. cbn [hd]. apply E; [exact I|now left|exact L].
Qed.
Lemma unstagger_reads origin : unstagger_fields spl (map e_field es) origin =
  let! o := match origin with Some o => Ok o | None => Ok (if (2 <? length es)%nat then median_rows (map (positions n) es) else hd [] (map (positions n) es)) end in
  mapM (unstagger_one spl (map d (seq 0 n)) o) (map e_field es).
Proof.
  destruct Cm as (L1 & N & St & Eq). unfold unstagger_fields. assert (X : exists e0 r, es = e0 :: r) by (destruct es as [|e0 r]; [congruence|eauto]). destruct X as (e0 & r & Ees).
  assert (I0 : In e0 es) by (rewrite Ees; now left).
  assert (Sh : forall e, In e es -> a_shape (rf_data (sf_field (e_field e))) = sh) by (intros e I; apply (St e I)).
  assert (M0 : map e_field es = e_field e0 :: map e_field r) by (rewrite Ees; reflexivity).
  replace (match map e_field es with [] => [] | f :: _ => a_shape (rf_data (sf_field f)) end) with sh by (rewrite M0; symmetry; apply (Sh e0 I0)).
  assert (G1 : forallb (fun f => shape_eqb (a_shape (rf_data (sf_field f))) sh) (map e_field es) = true).
  { apply forallb_forall. intros f I. apply in_map_iff in I as (e & <- & I). rewrite (Sh e I). unfold shape_eqb. destruct (list_eq_dec Z.eq_dec sh sh); congruence. }
  rewrite G1. cbn [guard bind].
  assert (G2 : forallb (fun f => forallb rislinear (rf_axes (sf_field f))) (map e_field es) = true).
  { apply forallb_forall. intros f I. apply in_map_iff in I as (e & <- & I). exact (stag_linear sh _ _ _ (St e I)). }
  rewrite G2. cbn [guard bind].
  transitivity (let! spacing := spacings (sf_field (e_field e0)) in let! others := mapM (fun f => spacings (sf_field f)) (map e_field es) in let! _ := guard (forallb (all_close spacing) others) ValueError in let! o := match origin with Some o => Ok o | None => let! origins := mapM (fun f => first_points (sf_field f)) (map e_field es) in Ok (if (2 <? length (map e_field es))%nat then median_rows origins else hd [] origins) end in mapM (unstagger_one spl spacing o) (map e_field es)).
  { rewrite M0. reflexivity. }
  rewrite (stag_spacing sh _ _ _ (St e0 I0)). cbn [bind].
  assert (Ed : map (fun a => u_dx (e_grid e0 a)) (seq 0 (length sh)) = map d (seq 0 n)) by (apply map_ext_in; intros a Ia; apply in_seq in Ia; apply all_spaced; [exact I0|unfold n; lia]).
  rewrite Ed.
  assert (Es : mapM (fun f => spacings (sf_field f)) (map e_field es) = Ok (map (fun _ => map d (seq 0 n)) es)).
  { apply (mapM_entries (fun f => spacings (sf_field f)) (fun _ => map d (seq 0 n))). intros e I. rewrite (stag_spacing sh _ _ _ (St e I)). f_equal. apply map_ext_in. intros a Ia. apply in_seq in Ia. apply all_spaced; [exact I|unfold n; lia]. }
  rewrite Es. cbn [bind].
  assert (G3 : forallb (all_close (map d (seq 0 n))) (map (fun _ => map d (seq 0 n)) es) = true).
  { apply forallb_forall. intros l I. apply in_map_iff in I as (e & <- & _). unfold all_close. rewrite combine_map2. apply forallb_forall. intros p I. apply in_map_iff in I as (a & <- & _). apply rclose_refl. }
  rewrite G3. cbn [guard bind]. destruct origin as [o|]; [reflexivity|].
  assert (Ef : mapM (fun f => first_points (sf_field f)) (map e_field es) = Ok (map (positions n) es)).
  { apply (mapM_entries (fun f => first_points (sf_field f))). intros e I. exact (stag_first sh _ _ _ (St e I)). }
  rewrite Ef. cbn [bind]. now rewrite map_length.
Qed.
Lemma unstagger_given o : (forall e, In e es -> near n o (e_grid e) \/ within_two n o (e_grid e)) ->
  exists gs, mapM (unstagger_one spl (map d (seq 0 n)) (map o (seq 0 n))) (map e_field es) = Ok gs /\ Forall2 (fun e g => unstaggered sh o (e_field e) (e_grid e) (e_state e) g) es gs.
Proof.
  intro H. assert (Q : forall e, In e es -> exists g, unstagger_one spl (map d (seq 0 n)) (map o (seq 0 n)) (e_field e) = Ok g /\ unstaggered sh o (e_field e) (e_grid e) (e_state e) g).
  { intros e I. destruct Cm as (L1 & N & St & Eq). apply (unstagger_one_ok spl sh _ _ _ o d Sp (St e I) L1); [intros a L; now apply all_spaced|apply H; exact I]. }
  apply (mapM_such _ (fun e g => unstaggered sh o (e_field e) (e_grid e) (e_state e) g)). exact Q.
Qed.
Lemma unstagger_far o e : In e es -> ~ near n o (e_grid e) -> ~ within_two n o (e_grid e) -> mapM (unstagger_one spl (map d (seq 0 n)) (map o (seq 0 n))) (map e_field es) = Err ValueError.
Proof.
  intros I Nn Nw. destruct Cm as (L1 & N & St & Eq).
  assert (F : unstagger_one spl (map d (seq 0 n)) (map o (seq 0 n)) (e_field e) = Err ValueError) by exact (unstagger_one_far spl sh (e_field e) (e_grid e) (e_state e) o d (St e I) L1 (fun a L => all_spaced e a I L) Nn Nw).
  assert (Q : forall e, In e es -> (exists g, unstagger_one spl (map d (seq 0 n)) (map o (seq 0 n)) (e_field e) = Ok g) \/ unstagger_one spl (map d (seq 0 n)) (map o (seq 0 n)) (e_field e) = Err ValueError).
  { intros e' I'. assert (D : forall a, (a < length sh)%nat -> u_dx (e_grid e' a) = d a) by (intros a L; now apply all_spaced).
    destruct (all_close (map o (seq 0 n)) (map (fun a => u_x0 (e_grid e' a)) (seq 0 n))) eqn:C1.
    - left. apply all_close_near in C1. destruct (unstagger_one_ok spl sh _ _ _ o d Sp (St e' I') L1 D (or_introl C1)) as (g & E & _). eauto.
    - destruct (existsb (fun p => Rltb 2 (Rabs (fst p / snd p))) (combine (map2 Rminus (map o (seq 0 n)) (map (fun a => u_x0 (e_grid e' a)) (seq 0 n))) (map d (seq 0 n)))) eqn:C2.
      + right. apply (unstagger_one_far spl sh _ _ _ o d (St e' I') L1 D).
        * intro H. apply all_close_near in H. fold n in H. congruence.
        * intro H. apply (proj2 (two_cells sh _ _ _ o d (St e' I') L1 D)) in H. fold n in H. congruence.
      + left. apply (two_cells sh _ _ _ o d (St e' I') L1 D) in C2. destruct (unstagger_one_ok spl sh _ _ _ o d Sp (St e' I') L1 D (or_intror C2)) as (g & E & _). eauto. }
  exact (mapM_fails _ _ e es I F Q).
Qed.
End list.

(** * The statements *)
Lemma row_as_map (o : list R) n : length o = n -> o = map (fun a => nth a o 0) (seq 0 n).
Proof. intros <-. symmetry. apply map_nth_seq. Qed.
Lemma unstagger_to_origin spl sh es o : linear_spline spl -> comparable sh es -> length o = length sh ->
  (forall e, In e es -> near (length sh) (fun a => nth a o 0) (e_grid e) \/ within_two (length sh) (fun a => nth a o 0) (e_grid e)) ->
  exists gs, unstagger_fields spl (map e_field es) (Some o) = Ok gs /\ Forall2 (fun e g => unstaggered sh (fun a => nth a o 0) (e_field e) (e_grid e) (e_state e) g) es gs.
Proof.
  intros Sp Cm L H. rewrite (unstagger_reads spl sh es Cm). cbn [bind]. destruct (unstagger_given spl sh es Sp Cm _ H) as (gs & E & W). rewrite <- (row_as_map o _ L) in E. exists gs. split; [exact E|exact W].
Qed.
Lemma unstagger_too_far spl sh es o e : linear_spline spl -> comparable sh es -> length o = length sh -> In e es ->
  ~ near (length sh) (fun a => nth a o 0) (e_grid e) -> ~ within_two (length sh) (fun a => nth a o 0) (e_grid e) -> unstagger_fields spl (map e_field es) (Some o) = Err ValueError.
Proof.
  intros Sp Cm L I N W. rewrite (unstagger_reads spl sh es Cm). cbn [bind]. assert (E := unstagger_far spl sh es Sp Cm _ e I N W). rewrite <- (row_as_map o _ L) in E. exact E.
Qed.
