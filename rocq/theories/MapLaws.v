(** Values at grid points and outside, the numerical Jacobian of affine maps, and calls which are refused. *)
From Coq Require Import Reals String Lra Lia ZArith List Bool.
From Verif Require Import PyBase PyBaseFacts NumpyModel NumpyFacts NdModel NdFacts CplxModel CplxFacts FieldModel FieldGridFacts FftModel FftSpec FftAxes FftFacts FftShift UnstagModel RealModel RealFacts MapModel MapSpec MapFacts.
Import ListNotations.
Local Open Scope R_scope.

Lemma whole_same unwrap : whole_turns unwrap -> same_shapes unwrap.
Proof. intros H u E a. exact (proj1 (H u E a)). Qed.
Lemma cis_turns x k : cis (x + IZR k * (2 * PI)) = cis x.
Proof.
  unfold cis. destruct (Z.le_gt_cases 0 k) as [P|N].
  - rewrite <- (Z2Nat.id k P), <- INR_IZR_INZ. replace (x + INR (Z.to_nat k) * (2 * PI)) with (x + 2 * INR (Z.to_nat k) * PI) by ring. now rewrite cos_period, sin_period.
  - set (y := x + IZR k * (2 * PI)). replace x with (y + 2 * INR (Z.to_nat (- k)) * PI); [now rewrite cos_period, sin_period|].
    unfold y. rewrite INR_IZR_INZ, Z2Nat.id by lia. rewrite opp_IZR. ring.
Qed.
Lemma polar_form z k : Cmul (RtoC (modulus z)) (cis (arctan2 (snd z) (fst z) + IZR k * (2 * PI))) = z.
Proof.
  rewrite cis_turns. destruct z as [x y]. destruct (arctan2_polar x y) as [Hx Hy]. unfold Cmul, RtoC, cis, modulus. cbn [fst snd] in *. f_equal; lra.
Qed.
Lemma value_at_point interp unwrap f mode j : through_points interp -> whole_turns unwrap -> real_data f -> in_shape (a_shape (rf_data (sf_field f))) j = true ->
  value_at interp unwrap f mode (map IZR j) = a_at (rf_data (sf_field f)) j.
Proof.
  intros Tp Wt Rd I. unfold value_at, real_at. set (d := rf_data (sf_field f)) in *.
  assert (P : forall h, interp (mkarr (a_shape d) (fun idx => h (a_at d idx))) (map IZR j) = h (a_at d j)) by (intro h; now rewrite Tp).
  destruct (sf_real f) eqn:Er.
  - rewrite P. unfold RtoC. rewrite <- (Rd Er j). unfold d. now destruct (a_at (rf_data (sf_field f)) j).
  - assert (Pl : Cmul (RtoC (modulus (a_at d j))) (cis (arctan2 (snd (a_at d j)) (fst (a_at d j)))) = a_at d j).
    { rewrite <- (polar_form (a_at d j) 0) at 4. f_equal. f_equal. ring. }
    destruct mode.
    + rewrite (P fst), (P snd). now destruct (a_at d j).
    + rewrite (P modulus). destruct unwrap as [u|].
      * destruct (Wt u eq_refl (mkarr (a_shape d) (fun idx => arctan2 (snd (a_at d idx)) (fst (a_at d idx))))) as [Su Hu]. rewrite Tp by (now rewrite Su).
        destruct (Hu j I) as [k ->]. cbn [a_at]. apply polar_form.
      * rewrite (P (fun z => arctan2 (snd z) (fst z))). exact Pl.
    + rewrite (P modulus), (P (fun z => arctan2 (snd z) (fst z))). exact Pl.
    + rewrite (P modulus), (P (fun z => arctan2 (snd z) (fst z))). exact Pl.
Qed.
Lemma value_at_outside interp unwrap f mode p : zero_outside interp ->
  (exists k x n, nth_error p k = Some x /\ nth_error (a_shape (rf_data (sf_field f))) k = Some n /\ (x < 0 \/ IZR (n - 1) < x)) -> value_at interp unwrap f mode p = C0.
Proof.
  intros Zo O. unfold value_at, real_at. assert (P : forall h, interp (mkarr (a_shape (rf_data (sf_field f))) (fun idx => h (a_at (rf_data (sf_field f)) idx))) p = 0) by (intro h; now apply Zo).
  destruct (sf_real f); [now rewrite P|]. destruct mode; rewrite ?P; unfold Cmul, RtoC, cis, C0; cbn; [reflexivity|f_equal; ring..].
Qed.
Lemma pixel_point u j : u_dx u <> 0 -> pixel u (point u j) = IZR j.
Proof. intro H. unfold pixel, point. field. exact H. Qed.

(** * the numerical Jacobian *)
Lemma grad_linear x g i p q : ordered x -> (2 <= length x)%nat -> (0 <= i < Z.of_nat (length x))%Z ->
  (forall k, (0 <= k < Z.of_nat (length x))%Z -> g k = p + q * nth (Z.to_nat k) x 0) -> grad1 x g i = q.
Proof.
  intros Or L Hi Hg. unfold grad1. set (X := fun k => nth (Z.to_nat k) x 0).
  assert (Hg' : forall k, (0 <= k < Z.of_nat (length x))%Z -> g k = p + q * X k) by exact Hg. clear Hg.
  assert (D : exists s, (s = 1 \/ s = -1) /\ forall a b, (0 <= a < b)%Z -> (b < Z.of_nat (length x))%Z -> 0 < s * (X b - X a)).
  { destruct Or as [Or|Or]; [exists 1|exists (-1)]; (split; [auto|]); intros a b Hab Hb; specialize (Or (Z.to_nat a) (Z.to_nat b) ltac:(lia)); unfold X; lra. }
  destruct D as (s & Hs & D). clear Or. change (nth (Z.to_nat 1) x 0) with (X 1%Z). change (nth (Z.to_nat 0) x 0) with (X 0%Z).
  destruct (Z.eqb_spec i 0) as [->|N0].
  - rewrite !Hg' by lia. specialize (D 0%Z 1%Z ltac:(lia) ltac:(lia)). field. intro K. rewrite K in D. lra.
  - destruct (Z.eqb_spec i (Z.of_nat (length x) - 1)) as [->|N1].
    + rewrite !Hg' by lia. specialize (D (Z.of_nat (length x) - 2)%Z (Z.of_nat (length x) - 1)%Z ltac:(lia) ltac:(lia)).
      change (nth (Z.to_nat (Z.of_nat (length x) - 1)) x 0) with (X (Z.of_nat (length x) - 1)%Z). change (nth (Z.to_nat (Z.of_nat (length x) - 2)) x 0) with (X (Z.of_nat (length x) - 2)%Z).
      field. intro K. rewrite K in D. lra.
    + rewrite !Hg' by lia. assert (D1 := D (i - 1)%Z i ltac:(lia) ltac:(lia)). assert (D2 := D i (i + 1)%Z ltac:(lia) ltac:(lia)).
      change (nth (Z.to_nat (i - 1)) x 0) with (X (i - 1)%Z). change (nth (Z.to_nat i) x 0) with (X i). change (nth (Z.to_nat (i + 1)) x 0) with (X (i + 1)%Z). cbv beta.
      generalize (X (i - 1)%Z) (X i) (X (i + 1)%Z) D1 D2. intros a b c E1 E2. assert (b - a <> 0) by (intro K; rewrite K in E1; lra). assert (c - b <> 0) by (intro K; rewrite K in E2; lra).
      assert (b - a + (c - b) <> 0) by (intro K; assert (s * (b - a) + s * (c - b) = s * (b - a + (c - b))) by ring; rewrite K in *; lra). field. repeat split; try assumption; intro K; apply H1; lra.
Qed.
Lemma dot_upd : forall row x b v, (b < length x)%nat -> length x = length row -> dot row (upd x b v) = dot row x + nth b row 0 * (v - nth b x 0).
Proof.
  unfold dot. induction row as [|r row IH]; intros [|y x] b v L E; try discriminate; [cbn in L; lia|]. destruct b as [|b]; cbn; [lra|].
  rewrite IH by (cbn in *; lia). lra.
Qed.
Lemma coords_upd axes idx b k ax : nth_error axes b = Some ax -> length idx = length axes -> coords axes (upd idx b k) = upd (coords axes idx) b (nth (Z.to_nat k) (ra_grid ax) 0).
Proof.
  intros E L. unfold coords. rewrite (map2_upd_r _ axes idx b k (mkra "" "" [] [])); [|apply nth_error_Some; congruence|now symmetry]. now rewrite (nth_error_nth _ _ _ E).
Qed.
Lemma approx_affine axes T A c : Forall (fun ax => (2 <= length (ra_grid ax))%nat /\ ordered (ra_grid ax)) axes -> affine_map (length axes) T A c ->
  exists J, approx_jacobian axes T = Ok J /\ forall idx, in_shape (axes_shape axes) idx = true -> map (map (fun e => e idx)) J = A.
Proof.
  intros Ga (LT & LA & Lc & Aff). unfold approx_jacobian, coord_fun in *.
  assert (G : forallb (fun ax => (2 <=? length (ra_grid ax))%nat) axes = true).
  { apply forallb_forall. intros ax I. rewrite Forall_forall in Ga. apply Nat.leb_le. now apply Ga. }
  rewrite G. cbn [guard bind]. eexists. split; [reflexivity|]. intros idx I. assert (Li : length idx = length axes) by (rewrite (in_shape_length _ _ I); apply map_length).
  apply nth_error_ext. intro a. rewrite !nth_error_map. destruct (nth_error T a) as [t|] eqn:Et.
  - assert (La : (a < length T)%nat) by (apply nth_error_Some; congruence). destruct (nth_error A a) as [row|] eqn:Er; [|apply nth_error_None in Er; lia]. cbn. f_equal.
    destruct (nth_error c a) as [c0|] eqn:Ec; [|apply nth_error_None in Ec; lia]. destruct (Aff a t row c0 Et Er Ec) as [Lr H].
    rewrite map_map. apply nth_error_ext. intro b. rewrite nth_error_map. destruct (nth_error axes b) as [ax|] eqn:Ea.
    + assert (Lb : (b < length axes)%nat) by (apply nth_error_Some; congruence). rewrite nth_error_seq_lt by exact Lb. cbn. rewrite Ea. rewrite (nth_error_nth' row 0) by lia. f_equal.
      rewrite Forall_forall in Ga. destruct (Ga ax (nth_error_In _ _ Ea)) as [L2 Or].
      assert (Hb : (0 <= nth b idx 0 < Z.of_nat (length (ra_grid ax)))%Z).
      { pose proof (in_shape_nth _ _ b 0%Z 0%Z I) as K. unfold axes_shape in K at 1. rewrite map_length in K. specialize (K Lb).
        unfold axes_shape in K. rewrite (nth_error_nth _ _ _ (map_nth_error (fun ax => Z.of_nat (length (ra_grid ax))) b axes Ea)) in K. exact K. }
      apply (grad_linear _ _ _ (c0 + dot row (coords axes idx) - nth b row 0 * nth b (coords axes idx) 0)); try assumption.
      intros k Hk. assert (Lco : length (coords axes idx) = length axes) by (unfold coords; rewrite map2_length; lia).
      rewrite (coords_upd _ _ _ _ _ Ea Li), H by (rewrite upd_length; exact Lco). rewrite dot_upd by lia. ring.
    + apply nth_error_None in Ea. replace (nth_error (seq 0 (length axes)) b) with (@None nat) by (symmetry; apply nth_error_None; rewrite seq_length; lia). cbn. symmetry. apply nth_error_None. lia.
  - apply nth_error_None in Et. cbn. symmetry. apply nth_error_None. lia.
Qed.
Lemma factor_affine axes T A c : axes <> [] -> Forall (fun ax => (2 <= length (ra_grid ax))%nat /\ ordered (ra_grid ax)) axes -> affine_map (length axes) T A c ->
  exists w, map_factor axes (Some T) None None = Ok w /\ forall idx, in_shape (axes_shape axes) idx = true -> w idx = Rabs (det (length axes) A).
Proof.
  intros Na Ga Af. destruct (approx_affine axes T A c Ga Af) as (J & EJ & HJ). cbn [map_factor]. rewrite EJ. cbn [bind]. destruct Af as (LT & LA & Lc & Aff).
  assert (LJ : length J = length axes /\ Forall (fun r => length r = length axes) J).
  { unfold approx_jacobian in EJ. apply bind_ok in EJ. destruct EJ as (_ & _ & EJ). injection EJ as <-. split; [now rewrite map_length|]. apply Forall_forall. intros r I. apply in_map_iff in I. destruct I as (t & <- & _). now rewrite map_length, seq_length. }
  destruct LJ as [LJ FJ]. destruct J as [|r0 [|r1 J]].
  - destruct axes; [now elim Na|discriminate LJ].
  - cbn [jac_abs]. eexists. split; [reflexivity|]. intros idx I. specialize (HJ idx I). cbn [length] in LJ. rewrite <- LJ. cbn [map] in HJ. subst A. inversion FJ as [|? ? L1 _]; subst. rewrite <- LJ in L1. destruct r0 as [|e [|]]; try discriminate L1.
    cbn. f_equal. lra.
  - set (J0 := r0 :: r1 :: J) in *. unfold jac_abs.
    assert (G : forallb (fun r => (length r =? length J0)%nat) J0 = true).
    { apply forallb_forall. intros r I. rewrite Forall_forall in FJ. rewrite (FJ r I), LJ. apply Nat.eqb_refl. }
    cbn [jac_abs]. unfold J0 at 1. cbv iota. fold J0. rewrite G. cbn [guard bind]. eexists. split; [reflexivity|]. intros idx I. cbv beta. now rewrite (HJ idx I), LJ.
Qed.
Lemma det2 a b c d : det 2 [[a; b]; [c; d]] = a * d - b * c.
Proof. cbn. ring. Qed.
