(** Round trip, energy, shifts and domains. *)
From Coq Require Import Reals String Lra Lia ZArith List Ring Sorting.Sorted.
From Verif Require Import PyBase PyBaseFacts NumpyModel NdModel NdFacts FieldModel FieldReduceFacts FieldIntFacts FieldGridFacts CplxModel CplxFacts FftModel FftSpec FftKernel FftAxes FftFacts.
Import ListNotations.
Local Open Scope R_scope.

(** * One axis *)
Lemma roots_mod n (z : Z) : (0 < n)%nat -> csum n (fun j => cis (2 * PI * INR j * IZR z / INR n)) = if (z mod Z.of_nat n =? 0)%Z then RtoC (INR n) else C0.
Proof.
  intro P. assert (N0 : INR n <> 0) by (apply not_0_INR; lia). assert (B := Z.mod_pos_bound z (Z.of_nat n) ltac:(lia)). rewrite <- (roots n (z mod Z.of_nat n) P) by lia.
  apply csum_ext. intros j J. assert (E := Z.div_mod z (Z.of_nat n) ltac:(lia)). set (q := (z / Z.of_nat n)%Z) in *. set (r := (z mod Z.of_nat n)%Z) in *. clearbody q r. subst z.
  rewrite plus_IZR, mult_IZR, <- INR_IZR_INZ.
  replace (2 * PI * INR j * (INR n * IZR q + IZR r) / INR n) with (2 * PI * IZR (Z.of_nat j * q) + 2 * PI * INR j * IZR r / INR n) by (rewrite mult_IZR, <- INR_IZR_INZ; field; exact N0).
  rewrite cis_add, cis_period. ring.
Qed.
Lemma delta s n k0 dk dx z : (s = 1 \/ s = -1) -> (0 < n)%nat -> dk * dx = 2 * PI / INR n ->
  csum n (fun m => cis (s * ((k0 + IZR (Z.of_nat m) * dk) * (IZR z * dx)))) = if (z mod Z.of_nat n =? 0)%Z then Cmul (RtoC (INR n)) (cis (s * (k0 * (IZR z * dx)))) else C0.
Proof.
  intros S1 P D. set (z' := if Rlt_dec 0 s then z else (- z)%Z).
  assert (Ez : s * IZR z = IZR z') by (unfold z'; destruct (Rlt_dec 0 s); destruct S1 as [-> | ->]; try lra; rewrite ?opp_IZR; lra).
  rewrite (csum_ext n _ (fun m => Cmul (cis (s * (k0 * (IZR z * dx)))) (cis (2 * PI * INR m * IZR z' / INR n)))).
  - rewrite csum_scale, roots_mod by exact P.
    assert (Em : (z' mod Z.of_nat n =? 0)%Z = (z mod Z.of_nat n =? 0)%Z).
    { unfold z'. destruct (Rlt_dec 0 s); [reflexivity|]. destruct (Z.eqb_spec (z mod Z.of_nat n) 0) as [E|E].
      - apply Z.eqb_eq. now apply Z_mod_zero_opp_full.
      - apply Z.eqb_neq. intro H. apply E. apply Z_mod_zero_opp_full in H. now rewrite Z.opp_involutive in H. }
    rewrite Em. destruct (z mod Z.of_nat n =? 0)%Z; ring.
  - intros m M. rewrite <- cis_add. f_equal. rewrite <- Ez, <- INR_IZR_INZ. transitivity (s * (k0 * (IZR z * dx)) + INR m * (s * IZR z) * (dk * dx)); [ring|]. rewrite D. field. apply not_0_INR. lia.
Qed.
Lemma point_diff u v i j : u_dx u = u_dx v -> u_x0 u = u_x0 v -> point u j - point v i = IZR (j - i) * u_dx v.
Proof. intros D X. unfold point. rewrite D, X, minus_IZR. ring. Qed.
Lemma sign_cases t st : sign t st = 1 \/ sign t st = -1.
Proof. unfold sign. destruct (Bool.eqb t st); [right|left]; reflexivity. Qed.
Lemma sign_negb t st : sign t (negb st) = - sign t st.
Proof. unfold sign. destruct t, st; cbn; ring. Qed.
Lemma norm_pair o u : proper u -> u_dx (dual o u) / sqrt (2 * PI) * (u_dx u / sqrt (2 * PI)) = / INR (u_n u).
Proof.
  intro P. assert (D := dual_spacing o u P). assert (P2 : 0 < 2 * PI) by (assert (H := PI_RGT_0); lra). assert (N0 : INR (u_n u) <> 0) by (apply not_0_INR; destruct P; lia).
  assert (S0 := sqrt_lt_R0 _ P2). transitivity (u_dx (dual o u) * u_dx u / (sqrt (2 * PI) * sqrt (2 * PI))); [field; lra|]. rewrite D, sqrt_sqrt by lra. field. split; first [exact N0 | lra].
Qed.

(** * kops with a kernel that picks one point *)
Definition moved (p : nat -> Z -> Z) (A : list nat) (idx : list Z) : list Z := fold_right (fun a i => upd i a (p a (nth a idx 0%Z))) idx A.
Lemma moved_nth p A a idx : ~ In a A -> nth a (moved p A idx) 0%Z = nth a idx 0%Z.
Proof.
  induction A as [|b A IH]; intro N; [reflexivity|]. cbn [moved fold_right]. rewrite nth_upd_ne by (intros ->; apply N; now left). apply IH. intro I. apply N. now right.
Qed.
Lemma moved_upd p A a x idx : ~ In a A -> moved p A (upd idx a x) = upd (moved p A idx) a x.
Proof.
  induction A as [|b A IH]; intro N; [reflexivity|]. cbn [moved fold_right]. fold (moved p A (upd idx a x)). fold (moved p A idx).
  rewrite upd_comm by (intros ->; apply N; now left).
  replace (fold_right (fun (a0 : nat) (i : list Z) => upd i a0 (p a0 (nth a0 (upd idx a x) 0%Z))) (upd idx a x) A) with (moved p A (upd idx a x)) by reflexivity.
  rewrite IH by (intro I; apply N; now right). rewrite nth_upd_ne by (intros ->; apply N; now left). reflexivity.
Qed.
Lemma kops_move sh K L A p c : NoDup A -> (forall a, In a A -> (a < length sh)%nat) ->
  (forall a i, In a A -> (0 <= i < nth a sh 0)%Z -> (0 <= p a i < nth a sh 0)%Z) ->
  (forall a i j, In a A -> (0 <= i < nth a sh 0)%Z -> (0 <= j < nth a sh 0)%Z ->
     csum (Z.to_nat (nth a sh 0%Z)) (fun m => (L a i (Z.of_nat m) * K a (Z.of_nat m) j)%C) = if (p a i =? j)%Z then c a i else C0) ->
  forall F idx, in_shape sh idx = true ->
  kops L (fun a => Z.to_nat (nth a sh 0%Z)) A (kops K (fun a => Z.to_nat (nth a sh 0%Z)) A F) idx = Cmul (fold_right Cmul C1 (map (fun a => c a (nth a idx 0%Z)) A)) (F (moved p A idx)).
Proof.
  set (n := fun a => Z.to_nat (nth a sh 0%Z)). induction A as [|a A IH]; intros ND R Hp H F idx I; [cbn; ring|]. inversion ND as [|? ? N ND']; subst.
  transitivity (kop a (n a) (L a) (kops L n A (kop a (n a) (K a) (kops K n A F))) idx); [reflexivity|].
  assert (Ra : (a < length sh)%nat) by (apply R; now left). assert (B := in_shape_nth sh idx a I Ra). assert (Le := in_shape_len sh idx I).
  set (G := fun i => Cmul (fold_right Cmul C1 (map (fun a => c a (nth a i 0%Z)) A)) (F (moved p A i))).
  transitivity (kop a (n a) (L a) (kop a (n a) (K a) G) idx).
  - apply (kop_ext_shape sh); [exact I|]. intros i Hi. rewrite kops_kop by exact N. apply (kop_ext_shape sh); [exact Hi|]. intros i' Hi'.
    apply IH; [exact ND'|intros b Bb; apply R; now right|intros b i0 Bb; apply Hp; now right|intros b i0 j0 Bb; apply H; now right|exact Hi'].
  - rewrite kop_kop by lia. assert (Pp := Hp a (nth a idx 0%Z) (or_introl eq_refl) B). rewrite (kop_pick a (n a) _ G idx (Z.to_nat (p a (nth a idx 0%Z))) (c a (nth a idx 0%Z))).
    + rewrite Z2Nat.id by lia. unfold G. cbn [map fold_right]. rewrite moved_upd by exact N. cbn [moved fold_right]. fold (moved p A idx).
      rewrite (map_ext_in (fun a0 => c a0 (nth a0 (upd idx a (p a (nth a idx 0%Z))) 0%Z)) (fun a0 => c a0 (nth a0 idx 0%Z))).
      * ring.
      * intros b Ib. rewrite nth_upd_ne; [reflexivity|]. intros ->. contradiction.
    + unfold n. lia.
    + intros j J. unfold n in *. rewrite H by (try (now left); lia). destruct (Z.eqb_spec (p a (nth a idx 0%Z)) (Z.of_nat j)), (Nat.eqb_spec j (Z.to_nat (p a (nth a idx 0%Z)))); try reflexivity; lia.
Qed.

(** * The transformed field is again on uniform grids *)
Section twice.
Variables (f F : rfield) (A : list nat) (U : nat -> uni) (st temporal old : bool).
Hypothesis Cf : consistent f.
Hypothesis Ug : on_grid f A U.
Hypothesis T : transformed f A U st temporal old F.
Definition VV a := dual (nth a (rf_tao f) None) (U a).
Lemma T_ndim : ndim F = ndim f.
Proof. unfold ndim. now rewrite (t_shape _ _ _ _ _ _ _ T). Qed.
Lemma T_consistent : consistent F.
Proof. destruct T. split; rewrite T_ndim; try assumption. apply (c_dims f Cf). Qed.
Lemma T_grid : on_grid F A VV.
Proof.
  intros a I. destruct (Ug a I) as (ax & E & (G & Nd & P) & Sh). exists (new_ax f U st a ax). rewrite (t_axes _ _ _ _ _ _ _ T), (proj2 (is_named_In A a) I), E. split; [reflexivity|].
  split; [|rewrite (t_shape _ _ _ _ _ _ _ T); exact Sh]. split; [reflexivity|]. split; [reflexivity|]. now apply dual_proper.
Qed.
Lemma T_state : in_state F A (negb st).
Proof. intros a I. rewrite (t_ats _ _ _ _ _ _ _ T), (proj2 (is_named_In A a) I). reflexivity. Qed.
Lemma T_tao a : In a A -> nth a (rf_tao F) None = Some (u_x0 (U a)).
Proof. intro I. apply nth_error_nth. rewrite (t_tao _ _ _ _ _ _ _ T), (proj2 (is_named_In A a) I). reflexivity. Qed.
Lemma T_back a : In a A -> dual (nth a (rf_tao F) None) (VV a) = U a.
Proof. intro I. rewrite T_tao by exact I. apply dual_dual. destruct (Ug a I) as (ax & _ & (_ & _ & P) & _). exact P. Qed.
End twice.

Lemma round_data f F G A U st temporal old : consistent f -> on_grid f A U -> NoDup A -> transformed f A U st temporal old F -> transformed F A (VV f U) (negb st) temporal old G ->
  forall idx, in_shape (a_shape (rf_data f)) idx = true -> a_at (rf_data G) idx = a_at (rf_data f) idx.
Proof.
  intros Cf Ug ND T T2 idx I. set (sh := a_shape (rf_data f)) in *. assert (Sh : a_shape (rf_data F) = sh) by apply (t_shape _ _ _ _ _ _ _ T).
  rewrite (t_data _ _ _ _ _ _ _ T2) by (rewrite Sh; exact I). rewrite Sh.
  rewrite (kops_ext sh _ A _ (kops (KT f U st temporal old) (fun a => Z.to_nat (nth a sh 0%Z)) A (a_at (rf_data f))) idx I) by (intros i Hi; now apply (t_data _ _ _ _ _ _ _ T)).
  apply (kops_inverse sh); [exact ND|intros a Ia; exact (dim_lt f A U Ug a Ia)| |exact I].
  intros a i j Ia Hi Hj. assert (P := proper_at f A U Ug a Ia). assert (Sa : nth a sh 0%Z = Z.of_nat (u_n (U a))) by exact (shape_at f A U Ug a Ia). rewrite Sa in *. rewrite Nat2Z.id.
  assert (Bk := T_back f F A U st temporal old Ug T a Ia).
  set (s := sign temporal st). set (V := VV f U) in *.
  set (e := if old then if st then u_x0 (V a) * (point (U a) i - point (U a) j) else 0 else 0).
  assert (D : u_dx (V a) * u_dx (U a) = 2 * PI / INR (u_n (U a))) by (apply dual_spacing; exact P).
  rewrite (csum_ext _ _ (fun m => Cmul (Cmul (RtoC (/ INR (u_n (U a)))) (cis (s * e))) (cis (s * ((u_x0 (V a) + IZR (Z.of_nat m) * u_dx (V a)) * (IZR (j - i) * u_dx (U a))))))).
  - rewrite csum_scale, (delta s) by (apply sign_cases || exact D || (destruct P; lia)).
    destruct (Z.eqb_spec i j) as [->|Nij].
    + rewrite Z.sub_diag, Z.mod_0_l by lia. cbn [Z.eqb]. unfold e. replace (point (U a) j - point (U a) j) with 0 by ring. rewrite Rmult_0_r.
      replace (s * (if old then if st then 0 else 0 else 0)) with 0 by (destruct old, st; ring). replace (s * (u_x0 (V a) * (0 * u_dx (U a)))) with 0 by ring. rewrite cis_0.
      transitivity (RtoC (/ INR (u_n (U a)) * INR (u_n (U a)))); [rewrite RtoC_mul; ring|]. rewrite Rinv_l by (apply not_0_INR; destruct P; lia). reflexivity.
    + destruct (Z.eqb_spec ((j - i) mod Z.of_nat (u_n (U a))) 0) as [E|E]; [|ring]. exfalso.
      apply Z.mod_divide in E; [|lia]. destruct E as [q E]. assert (q = 0 \/ q <= -1 \/ 1 <= q)%Z by lia. nia.
  - intros m M. unfold KT. fold (V a). unfold V at 1 2 3. fold (VV f U). change (dual (nth a (rf_tao F) None) (VV f U a)) with (dual (nth a (rf_tao F) None) (V a)). 
    rewrite Bk. fold (VV f U a). change (VV f U a) with (V a).
    rewrite sign_negb. fold s. rewrite <- (norm_pair (nth a (rf_tao f) None) (U a) P). change (dual (nth a (rf_tao f) None) (U a)) with (V a). rewrite RtoC_mul.
    match goal with |- Cmul (Cmul ?x (cis ?p)) (Cmul ?y (cis ?q)) = Cmul (Cmul (Cmul _ _) (cis ?r)) (cis ?t) => replace (Cmul (Cmul (Cmul x y) (cis r)) (cis t)) with (Cmul (Cmul x y) (cis (r + t))) by (rewrite cis_add; ring);
      transitivity (Cmul (Cmul x y) (cis (p + q))); [rewrite cis_add; ring|f_equal; f_equal] end.
    unfold e, left_out. change (VV f U a) with (V a). cbn beta. replace (IZR (j - i) * u_dx (U a)) with (point (U a) j - point (U a) i) by (apply point_diff; reflexivity).
    change (u_x0 (V a) + IZR (Z.of_nat m) * u_dx (V a)) with (point (V a) (Z.of_nat m)).
    destruct old, st; cbn [negb]; rewrite ?Bk; try ring.
Qed.
