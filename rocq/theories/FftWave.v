(** Shifting the grid of a superposition of plane waves (C23, C87). *)
From Coq Require Import Reals String List ZArith Lra Lia Permutation.
From Verif Require Import PyBase PyBaseFacts NumpyModel NdModel NdFacts FieldModel CplxModel CplxFacts FftModel FftSpec FftKernel FftAxes FftFacts FftLaws FftMore FftShift FftWaveSpec.
Import ListNotations.
Local Open Scope R_scope.

Definition cprod (l : list C) : C := fold_right Cmul C1 l.
Lemma kops_cons K n a A F idx : kops K n (a :: A) F idx = csum (n a) (fun j => Cmul (K a (nth a idx 0%Z) (Z.of_nat j)) (kops K n A F (upd idx a (Z.of_nat j)))).
Proof. reflexivity. Qed.
Lemma kops_add K n A : forall F G idx, kops K n A (fun i => Cadd (F i) (G i)) idx = Cadd (kops K n A F idx) (kops K n A G idx).
Proof.
  induction A as [|a A IH]; intros F G idx; [reflexivity|]. rewrite !kops_cons, <- csum_add. apply csum_ext. intros j _. rewrite IH. ring.
Qed.
Lemma kops_zero K n A : forall idx, kops K n A (fun _ => C0) idx = C0.
Proof.
  induction A as [|a A IH]; intro idx; [reflexivity|]. rewrite kops_cons. rewrite (csum_ext _ _ (fun _ => C0)); [apply csum_zero|]. intros j _. rewrite IH. ring.
Qed.
Lemma kops_waves {W} K n A (g : list Z -> W -> C) ws idx : kops K n A (fun i => fold_right Cadd C0 (map (g i) ws)) idx = fold_right Cadd C0 (map (fun w => kops K n A (fun i => g i w) idx) ws).
Proof.
  induction ws as [|w ws IH]; [apply kops_zero|]. cbn [map fold_right]. rewrite kops_add. now rewrite IH.
Qed.
Lemma kops_pt K n A : forall F G idx, (forall i, F i = G i) -> kops K n A F idx = kops K n A G idx.
Proof. induction A as [|a A IH]; intros F G idx H; [apply H|]. rewrite !kops_cons. apply csum_ext. intros j _. f_equal. now apply IH. Qed.
Lemma kops_product K n A : NoDup A -> forall c e idx, (forall a, In a A -> (a < length idx)%nat) -> (forall i a j, In a A -> c (upd i a j) = c i) ->
  kops K n A (fun i => Cmul (c i) (cprod (map (fun a => e a (nth a i 0%Z)) A))) idx = Cmul (c idx) (cprod (map (fun a => csum (n a) (fun j => Cmul (K a (nth a idx 0%Z) (Z.of_nat j)) (e a (Z.of_nat j)))) A)).
Proof.
  induction A as [|a A IH]; intros ND c e idx L Hc; [reflexivity|]. inversion ND as [|? ? N ND']; subst.
  rewrite kops_cons. unfold cprod in *. cbn [map fold_right].
  assert (La : (a < length idx)%nat) by (apply L; now left).
  rewrite (csum_ext _ _ (fun j => Cmul (Cmul (K a (nth a idx 0%Z) (Z.of_nat j)) (e a (Z.of_nat j))) (Cmul (c idx) (fold_right Cmul C1 (map (fun b => csum (n b) (fun j => Cmul (K b (nth b idx 0%Z) (Z.of_nat j)) (e b (Z.of_nat j)))) A))))).
  - rewrite csum_scale_r. ring.
  - intros j _. 
    transitivity (Cmul (K a (nth a idx 0%Z) (Z.of_nat j)) (kops K n A (fun i => Cmul (Cmul (c i) (e a (nth a i 0%Z))) (fold_right Cmul C1 (map (fun a0 => e a0 (nth a0 i 0%Z)) A))) (upd idx a (Z.of_nat j)))).
    { f_equal. apply kops_pt. intro i. ring. }
    rewrite (IH ND' (fun i => Cmul (c i) (e a (nth a i 0%Z))) e).
    + rewrite Hc by now left. rewrite nth_upd_eq by exact La.
      rewrite (map_ext_in _ (fun b => csum (n b) (fun j0 => Cmul (K b (nth b idx 0%Z) (Z.of_nat j0)) (e b (Z.of_nat j0))))); [ring|].
      intros b Ib. rewrite nth_upd_ne by (intros ->; contradiction). reflexivity.
    + intros b Ib. rewrite upd_length. apply L. now right.
    + intros i b k Ib. rewrite Hc by now right. rewrite nth_upd_ne by (intros ->; contradiction). reflexivity.
Qed.

Lemma cis_sum {X} (g : X -> R) l : cis (fold_right Rplus 0 (map g l)) = cprod (map (fun x => cis (g x)) l).
Proof. induction l as [|x l IH]; [apply cis_0|]. cbn [map fold_right cprod]. rewrite cis_add. now rewrite IH. Qed.
Lemma cprod_perm {X} (g : X -> C) l l' : Permutation l l' -> cprod (map g l) = cprod (map g l').
Proof. induction 1; unfold cprod in *; cbn [map fold_right]; [reflexivity|now rewrite IHPermutation|ring|congruence]. Qed.

(** ** One dimension *)
Lemma wave_forward s (u v : uni) n mu m : (s = 1 \/ s = -1) -> n = u_n u -> (0 < n)%nat -> u_dx v * u_dx u = 2 * PI / INR n -> (0 <= mu < Z.of_nat n)%Z -> (0 <= m < Z.of_nat n)%Z ->
  csum n (fun j => Cmul (cis (s * (point v m * point u (Z.of_nat j)))) (cis (- s * (point v mu * point u (Z.of_nat j))))) = if (m =? mu)%Z then RtoC (INR n) else C0.
Proof.
  intros Hs En P D Hmu Hm.
  rewrite (csum_ext _ _ (fun j => cis (s * ((u_x0 u + IZR (Z.of_nat j) * u_dx u) * (IZR (m - mu) * u_dx v))))).
  - rewrite delta; [|exact Hs|exact P|rewrite Rmult_comm; exact D]. destruct (Z.eqb_spec m mu) as [->|N].
    + rewrite Z.sub_diag, Z.mod_0_l by lia. cbn [Z.eqb]. replace (s * (u_x0 u * (0 * u_dx v))) with 0 by ring. rewrite cis_0. ring.
    + destruct (Z.eqb_spec ((m - mu) mod Z.of_nat n) 0) as [E|]; [|reflexivity]. exfalso. apply Z.mod_divide in E; [|lia]. destruct E as [q E]. assert (q = 0 \/ q <= -1 \/ 1 <= q)%Z by lia. nia.
  - intros j _. rewrite <- cis_add. f_equal. unfold point. rewrite minus_IZR. ring.
Qed.
(** ** The shift of a superposition *)
Lemma shift_waves spl f axes s U st ws : linear_spline spl -> consistent f -> axes <> [] -> NoDup axes -> on_grid f axes U -> in_state f axes st ->
  Forall (proper_wave U axes) ws ->
  (forall idx, in_shape (a_shape (rf_data f)) idx = true -> a_at (rf_data f) idx = waves (- sign false st) U (frequencies f U) axes ws idx) ->
  exists G, shift_grid_by spl f (map (fun a => (Z.of_nat a, s a)) axes) = Ok G /\ forall idx, in_shape (a_shape (rf_data f)) idx = true -> a_at (rf_data G) idx = waves (- sign false st) (fun a => moved_by (s a) (U a)) (frequencies f U) axes ws idx.
Proof.
  intros Sp Cf N ND Ug Hs Wp Wf. destruct (shift_step spl f axes s U st Sp Cf N ND Ug Hs) as (F & F' & G & T & Ed & Ex & Ea & Lt & Ho & T2 & CF' & UgF' & HsF' & E).
  set (A := named (ndim f) axes) in *. assert (InA := fun a => named_same f axes U a Ug). fold A in InA.
  assert (UgA : on_grid f A U) by (apply (on_grid_sub f axes); [intros a; apply InA|exact Ug]).
  assert (Pm : Permutation axes A) by (apply NoDup_Permutation; [exact ND|apply named_NoDup|intro a; symmetry; apply InA]).
  exists G. split; [exact E|]. intros idx I. set (sh := a_shape (rf_data f)) in *.
  assert (ShF : a_shape (rf_data F') = sh) by (rewrite Ed; apply (t_shape _ _ _ _ _ _ _ T)).
  rewrite (t_data _ _ _ _ _ _ _ T2) by (rewrite ShF; exact I). rewrite ShF, Ed.
  rewrite (kops_ext sh _ A _ (kops (KT f U st false false) (fun a => Z.to_nat (nth a sh 0%Z)) A (waves (- sign false st) U (frequencies f U) axes ws)) idx I).
  2:{ intros i Hi. rewrite (t_data _ _ _ _ _ _ _ T) by exact Hi. apply (kops_ext sh); [exact Hi|]. exact Wf. }
  unfold waves. set (n := fun a => Z.to_nat (nth a sh 0%Z)).
  rewrite (kops_pt _ _ _ _ _ _ (fun i => kops_waves _ _ _ _ ws i)). rewrite kops_waves. f_equal. apply map_ext_in. intros w Iw.
  rewrite Forall_forall in Wp. destruct (Wp w Iw) as [Wn Wa].
  assert (Len := in_shape_len sh idx I).
  assert (LA : forall a, In a A -> (a < length sh)%nat) by (intros a Ia; exact (dim_lt f A U UgA a Ia)).
  assert (CA : forall i a j, In a A -> w_amp w (upd i a j) = w_amp w i) by (intros i a j Ia; apply Wa; now apply InA).
  set (ee := fun a i => cis (- sign false st * (point (frequencies f U a) (w_num w a) * point (U a) i))).
  set (g1 := fun a m => csum (n a) (fun j => Cmul (KT f U st false false a m (Z.of_nat j)) (ee a (Z.of_nat j)))).
  transitivity (kops (KT F' (VV f U) (negb st) false false) n A (fun i => Cmul (w_amp w i) (cprod (map (fun a => g1 a (nth a i 0%Z)) A))) idx).
  { apply (kops_ext sh); [exact I|]. intros i Hi. transitivity (kops (KT f U st false false) n A (fun i0 => Cmul (w_amp w i0) (cprod (map (fun a => ee a (nth a i0 0%Z)) A))) i).
    - apply kops_pt. intro i0. unfold wave_at. rewrite cis_sum, (cprod_perm _ _ _ Pm). reflexivity.
    - rewrite kops_product; [reflexivity|apply named_NoDup|rewrite (in_shape_len sh i Hi); exact LA|exact CA]. }
  rewrite kops_product; [|apply named_NoDup|rewrite Len; exact LA|exact CA]. unfold wave_at. rewrite cis_sum, (cprod_perm _ _ _ Pm). f_equal. f_equal. apply map_ext_in. intros a Ia.
  assert (Iax := proj1 (InA a) Ia). assert (P := proper_at f A U UgA a Ia). assert (Sa : nth a sh 0%Z = Z.of_nat (u_n (U a))) by exact (shape_at f A U UgA a Ia).
  assert (Na : n a = u_n (U a)) by (unfold n; rewrite Sa; apply Nat2Z.id). assert (P0 : (0 < u_n (U a))%nat) by (destruct P; lia).
  assert (D : u_dx (VV f U a) * u_dx (U a) = 2 * PI / INR (u_n (U a))) by (apply dual_spacing; exact P).
  assert (N0 : INR (u_n (U a)) <> 0) by (apply not_0_INR; lia).
  set (mu := w_num w a) in *. assert (Bmu := Wn a Iax). fold mu in Bmu.
  assert (G1 : forall m, (0 <= m < Z.of_nat (u_n (U a)))%Z -> g1 a m = if (m =? mu)%Z then RtoC (u_dx (U a) / sqrt (2 * PI) * INR (u_n (U a))) else C0).
  { intros m Hm. unfold g1. rewrite Na. unfold KT, left_out, ee. change (dual (nth a (rf_tao f) None) (U a)) with (VV f U a). change (frequencies f U a) with (VV f U a). fold mu.
    rewrite (csum_ext _ _ (fun j => Cmul (RtoC (u_dx (U a) / sqrt (2 * PI))) (Cmul (cis (sign false st * (point (VV f U a) m * point (U a) (Z.of_nat j)))) (cis (- sign false st * (point (VV f U a) mu * point (U a) (Z.of_nat j))))))).
    - rewrite csum_scale, (wave_forward (sign false st) (U a) (VV f U a)); [|apply sign_cases|reflexivity|exact P0|exact D|exact Bmu|exact Hm].
      destruct (m =? mu)%Z; [now rewrite RtoC_mul|ring].
    - intros j _. rewrite Rminus_0_r. ring. }
  rewrite Na. rewrite (csum_single _ (Z.to_nat mu)); [|lia|].
  - rewrite Z2Nat.id by lia. rewrite G1 by exact Bmu. rewrite Z.eqb_refl. unfold KT, left_out. rewrite (Ho a Iax). unfold VV at 2 3. rewrite dual_moved by exact P. rewrite Rminus_0_r, sign_negb.
    change (dual (nth a (rf_tao f) None) (U a)) with (VV f U a). change (frequencies f U a) with (VV f U a).
    transitivity (Cmul (RtoC (u_dx (VV f U a) / sqrt (2 * PI) * (u_dx (U a) / sqrt (2 * PI)) * INR (u_n (U a)))) (cis (- sign false st * (point (mkuni (u_n (U a)) (u_x0 (U a) + s a) (u_dx (U a))) (nth a idx 0%Z) * point (VV f U a) mu)))).
    { rewrite !RtoC_mul. ring. }
    unfold VV at 1. rewrite (norm_pair (nth a (rf_tao f) None) (U a) P). rewrite Rinv_l by exact N0. change (RtoC 1) with C1. rewrite (Rmult_comm (point (mkuni _ _ _) _)). unfold moved_by. ring.
  - intros j J Nj. rewrite G1 by lia. destruct (Z.eqb_spec (Z.of_nat j) mu); [exfalso; apply Nj; lia|]. ring.
Qed.
