(** Proofs about the dispersion relations and the constants. *)
From Coq Require Import Reals Lra Lia.
From Verif Require Import PyBase NdModel FftModel KspaceModel DispModel DispSpec.
Local Open Scope R_scope.

(** * sin x / x decreases *)
Lemma sin_slope a b : a < b -> exists x, a < x < b /\ sin b - sin a = cos x * (b - a).
Proof.
  intro L. destruct (MVT_cor2 sin cos a b L) as (x & E & I); [intros; apply derivable_pt_lim_sin|]. exists x. split; [exact I|exact E].
Qed.
Lemma sinc_decreases a b : 0 <= a <= b -> b <= PI -> a * sin b <= b * sin a.
Proof.
  intros [A L] B. destruct (Req_dec a 0) as [->|Na]; [rewrite sin_0; lra|]. destruct (Req_dec a b) as [->|Nb]; [lra|].
  destruct (sin_slope 0 a ltac:(lra)) as (x & Ix & Ex). destruct (sin_slope a b ltac:(lra)) as (y & Iy & Ey). rewrite sin_0 in Ex.
  assert (C : cos y <= cos x) by (apply Rlt_le, cos_decreasing_1; lra). assert (H : 0 <= a * (b - a)) by (apply Rmult_le_pos; lra). assert (Es : sin a = cos x * a) by lra. assert (Eb : sin b = sin a + cos y * (b - a)) by lra. rewrite Eb, Es. nra.
Qed.
Lemma tangent x y : 0 <= x <= PI / 2 -> 0 <= y <= PI / 2 -> 2 * y * (sin x ^ 2 - sin y ^ 2) <= sin (2 * y) * (x ^ 2 - y ^ 2).
Proof.
  intros X Y. set (G := fun t => sin (2 * y) * t ^ 2 - 2 * y * sin t ^ 2). set (G' := fun t => sin (2 * y) * (2 * t) - 2 * y * (2 * sin t * cos t)).
  assert (D : forall t, derivable_pt_lim G t (G' t)).
  { intro t. unfold G, G'. apply derivable_pt_lim_minus.
    - apply derivable_pt_lim_scal. replace (2 * t) with (INR 2 * t ^ pred 2) by (cbn; ring). apply derivable_pt_lim_pow.
    - apply derivable_pt_lim_scal. replace (2 * sin t * cos t) with (INR 2 * sin t ^ pred 2 * cos t) by (cbn; ring). apply (derivable_pt_lim_comp sin (fun z => z ^ 2)); [apply derivable_pt_lim_sin|apply derivable_pt_lim_pow]. }
  assert (E : forall t, G' t = 2 * t * sin (2 * y) - 2 * y * sin (2 * t)) by (intro t; unfold G'; rewrite (sin_2a t); ring).
  assert (H : G y <= G x).
  { destruct (Rtotal_order x y) as [L|[->|L]]; [| lra |].
    - destruct (MVT_cor2 G G' x y L) as (z & Ez & Iz); [intros; apply D|]. assert (S : 2 * z * sin (2 * y) <= 2 * y * sin (2 * z)) by (apply sinc_decreases; lra). rewrite E in Ez. assert (0 <= y - x) by lra. nra.
    - destruct (MVT_cor2 G G' y x L) as (z & Ez & Iz); [intros; apply D|]. assert (S : 2 * y * sin (2 * z) <= 2 * z * sin (2 * y)) by (apply sinc_decreases; lra). rewrite E in Ez. assert (0 <= x - y) by lra. nra. }
  unfold G in H. lra.
Qed.
(** * The mean of sin^2 *)
Lemma Forall2_impl {A B} (P Q : A -> B -> Prop) l m : (forall a b, P a b -> Q a b) -> Forall2 P l m -> Forall2 Q l m.
Proof. intros H. induction 1; constructor; auto. Qed.
Lemma sum_ext f g ks : forall dx, Forall2 (fun k d => f k d = g k d) ks dx -> sum_over f ks dx = sum_over g ks dx.
Proof. induction ks as [|k ks IH]; intros dx H; inversion H as [|? d ? dx' E F]; subst; [reflexivity|]. cbn [sum_over]. now rewrite E, (IH dx' F). Qed.
Lemma sum_scale f a ks : forall dx, sum_over (fun k d => a * f k d) ks dx = a * sum_over f ks dx.
Proof. induction ks as [|k ks IH]; intros [|d dx]; cbn [sum_over]; try ring. rewrite IH. ring. Qed.
Lemma sum_le f g ks : forall dx, Forall2 (fun k d => f k d <= g k d) ks dx -> sum_over f ks dx <= sum_over g ks dx.
Proof. induction ks as [|k ks IH]; intros dx H; inversion H as [|? d ? dx' E F]; subst; cbn [sum_over]; [lra|]. specialize (IH dx' F). lra. Qed.
Lemma sum_pos f ks : forall dx, (forall k d, 0 <= f k d) -> 0 <= sum_over f ks dx.
Proof. intros dx H. revert dx. induction ks as [|k ks IH]; intros [|d dx]; cbn [sum_over]; try lra. specialize (IH dx). specialize (H k d). lra. Qed.
Lemma sum_plus f g ks : forall dx, sum_over (fun k d => f k d + g k d) ks dx = sum_over f ks dx + sum_over g ks dx.
Proof. induction ks as [|k ks IH]; intros [|d dx]; cbn [sum_over]; try ring. rewrite IH. ring. Qed.
(** the weights p and the arguments x of sin may depend on k and d *)
Lemma mean_sin p x ks dx y : Forall2 (fun k d => 0 <= p k d /\ 0 <= x k d <= PI / 2) ks dx -> sum_over p ks dx <= 1 -> 0 <= y <= PI / 2 -> y ^ 2 = sum_over (fun k d => p k d * x k d ^ 2) ks dx ->
  sum_over (fun k d => p k d * sin (x k d) ^ 2) ks dx <= sin y ^ 2.
Proof.
  intros H P Y E. set (s := sum_over p ks dx) in *.
  assert (Z : sum_over (fun k d => p k d * sin (x k d) ^ 2) ks dx <= sum_over (fun k d => p k d * x k d ^ 2) ks dx).
  { apply sum_le. eapply Forall2_impl; [|exact H]. cbn. intros k d [Hp Hx]. apply Rmult_le_compat_l; [exact Hp|]. assert (S0 : 0 <= sin (x k d)) by (apply sin_ge_0; lra).
    assert (S1 : sin (x k d) <= x k d) by (destruct (Req_dec (x k d) 0) as [->|N]; [rewrite sin_0; lra|apply Rlt_le, sin_lt_x; lra]). nra. }
  destruct (Req_dec y 0) as [->|Ny]; [rewrite sin_0; replace (0 ^ 2) with 0 in * by ring; lra|].
  assert (T : sum_over (fun k d => 2 * y * (p k d * sin (x k d) ^ 2)) ks dx <= sum_over (fun k d => p k d * (2 * y * sin y ^ 2 - sin (2 * y) * y ^ 2) + sin (2 * y) * (p k d * x k d ^ 2)) ks dx).
  { apply sum_le. eapply Forall2_impl; [|exact H]. cbn -[pow]. intros k d [Hp Hx]. pose proof (tangent (x k d) y Hx Y). nra. }
  rewrite sum_plus, !sum_scale, <- E in T. replace (sum_over (fun k d => p k d * (2 * y * sin y ^ 2 - sin (2 * y) * y ^ 2)) ks dx) with (s * (2 * y * sin y ^ 2 - sin (2 * y) * y ^ 2)) in T.
  2: { unfold s. rewrite Rmult_comm, <- sum_scale. apply sum_ext. eapply Forall2_impl; [|exact H]. cbn -[pow]. intros k d _. ring. }
  pose proof (tangent 0 y ltac:(lra) Y) as T0. rewrite sin_0 in T0. replace (0 ^ 2) with 0 in T0 by ring.
  assert (Q : 0 <= (1 - s) * (2 * y * sin y ^ 2 - sin (2 * y) * y ^ 2)) by (apply Rmult_le_pos; lra).
  apply Rmult_le_reg_l with (2 * y); [lra|]. lra.
Qed.
(** * The frequency on the Yee grid *)
Lemma sum_combine f ks : forall dx, fold_right Rplus 0 (map (fun p => f (fst p) (snd p)) (combine ks dx)) = sum_over f ks dx.
Proof. induction ks as [|k ks IH]; intros [|d dx]; cbn [combine map fold_right sum_over fst snd]; try reflexivity. now rewrite IH. Qed.
Lemma sum_any f g ks : forall dx, (forall k d, f k d = g k d) -> sum_over f ks dx = sum_over g ks dx.
Proof. intros dx H. revert dx. induction ks as [|k ks IH]; intros [|d dx]; cbn [sum_over]; try reflexivity. now rewrite H, IH. Qed.
Lemma yee_sum_eq ks dx : yee_sum ks dx = sum_over (fun k d => (sin (k * d / 2) / d) ^ 2) ks dx.
Proof. unfold yee_sum. rewrite (sum_combine (fun k d => (sin (/ 2 * k * d) / d) ^ 2)). apply sum_any. intros k d. replace (/ 2 * k * d) with (k * d / 2) by lra. reflexivity. Qed.
Lemma yee_sum_pos ks dx : 0 <= yee_sum ks dx.
Proof. rewrite yee_sum_eq. apply sum_pos. intros. apply pow2_ge_0. Qed.
Lemma sum_dx_le ks : forall dx, Forall (fun d => 0 < d) dx -> sum_over (fun k d => (sin (k * d / 2) / d) ^ 2) ks dx <= fold_right (fun d s => / d ^ 2 + s) 0 dx.
Proof.
  assert (P : forall dx, Forall (fun d => 0 < d) dx -> 0 <= fold_right (fun d s => / d ^ 2 + s) 0 dx).
  { induction 1 as [|d dx D F IH]; cbn [fold_right]; [lra|]. assert (0 < / d ^ 2) by (apply Rinv_0_lt_compat, pow_lt, D). lra. }
  induction ks as [|k ks IH]; intros dx F; [cbn [sum_over]; now apply P|]. destruct F as [|d dx D F]; [cbn [sum_over fold_right]; lra|]. cbn [sum_over fold_right]. specialize (IH dx F). apply Rplus_le_compat; [|exact IH].
  unfold Rdiv. rewrite Rpow_mult_distr. rewrite <- (Rmult_1_l (/ d ^ 2)). rewrite pow_inv. apply Rmult_le_compat_r; [apply Rlt_le, Rinv_0_lt_compat, pow_lt, D|].
  pose proof (SIN_bound (k * d * / 2)). nra.
Qed.
Lemma arg_square c dt ks dx : 0 < c -> 0 < dt -> (c * dt * sqrt (yee_sum ks dx)) ^ 2 = (c * dt) ^ 2 * yee_sum ks dx.
Proof. intros C D. rewrite Rpow_mult_distr. f_equal. rewrite <- Rsqr_pow2. apply Rsqr_sqrt, yee_sum_pos. Qed.
Lemma arg_bounds c dt ks dx : 0 < c -> 0 < dt -> Forall (fun d => 0 < d) dx -> stable c dx dt -> 0 <= c * dt * sqrt (yee_sum ks dx) <= 1.
Proof.
  intros C D F S. assert (CD : 0 < c * dt) by now apply Rmult_lt_0_compat. split; [apply Rmult_le_pos; [lra|apply sqrt_pos]|]. assert (Q : (c * dt * sqrt (yee_sum ks dx)) ^ 2 <= 1).
  { rewrite (arg_square c dt ks dx C D), yee_sum_eq. unfold stable in S. eapply Rle_trans; [|exact S]. apply Rmult_le_compat_l; [apply pow2_ge_0|now apply sum_dx_le]. }
  pose proof (Rmult_le_pos _ _ (Rlt_le _ _ CD) (sqrt_pos (yee_sum ks dx))). nra.
Qed.
Lemma yee_defined c dx dt ks : 0 < c -> 0 < dt -> Forall (fun d => 0 < d) dx -> stable c dx dt ->
  exists w, yee_frequency c dx dt ks = Some w /\ 0 <= w * dt <= PI /\ yee_relation c dx dt ks w.
Proof.
  intros C D F S. destruct (arg_bounds c dt ks dx C D F S) as [A B]. unfold yee_frequency. destruct (Req_EM_T dt 0); [lra|]. set (a := c * dt * sqrt (yee_sum ks dx)) in *.
  destruct (Rlt_dec 1 (Rabs a)) as [X|X]; [rewrite Rabs_pos_eq in X by exact A; lra|]. eexists. split; [reflexivity|].
  assert (E : 2 * asin a / dt * dt / 2 = asin a) by (field; lra). pose proof (asin_bound a) as AB. assert (A0 : 0 <= asin a). { destruct (Rle_lt_dec 0 (asin a)) as [|N]; [assumption|]. assert (sin (asin a) < sin 0) by (apply sin_increasing_1; lra). rewrite sin_asin, sin_0 in *; lra. }
  split; [replace (2 * asin a / dt * dt) with (2 * asin a) by (field; lra); lra|]. unfold yee_relation. rewrite E, sin_asin by lra. unfold a. rewrite (arg_square c dt ks dx C D), yee_sum_eq. reflexivity.
Qed.
Lemma half_range w v dt : 0 < dt -> 0 <= w * dt <= PI -> 0 <= v * dt <= PI -> sin (w * dt / 2) ^ 2 <= sin (v * dt / 2) ^ 2 -> w <= v.
Proof.
  intros D W V H. apply Rmult_le_reg_r with dt; [exact D|]. destruct (Rle_lt_dec (w * dt) (v * dt)) as [|L]; [assumption|].
  assert (S : sin (v * dt / 2) < sin (w * dt / 2)) by (apply sin_increasing_1; lra). assert (0 <= sin (v * dt / 2)) by (apply sin_ge_0; lra). nra.
Qed.
Lemma yee_unique c dx dt ks w v : 0 < dt -> 0 <= w * dt <= PI -> 0 <= v * dt <= PI -> yee_relation c dx dt ks w -> yee_relation c dx dt ks v -> w = v.
Proof. unfold yee_relation. intros D W V A B. apply Rle_antisym; apply (half_range _ _ dt D); try assumption; rewrite A, B; apply Rle_refl. Qed.
Lemma yee_is c dx dt ks w : 0 < c -> 0 < dt -> Forall (fun d => 0 < d) dx -> stable c dx dt -> 0 <= w * dt <= PI -> yee_relation c dx dt ks w -> yee_frequency c dx dt ks = Some w.
Proof. intros C D F S W R. destruct (yee_defined c dx dt ks C D F S) as (v & E & V & Q). rewrite E. f_equal. now apply (yee_unique c dx dt ks). Qed.
(** * Light is never faster on the grid *)
Lemma squared_pos ks : 0 <= squared ks.
Proof. unfold squared. induction ks as [|k ks IH]; cbn [fold_right]; [lra|]. pose proof (Rle_0_sqr k). unfold Rsqr in *. lra. Qed.
Lemma free_eq c ks : free_frequency c ks = c * sqrt (squared ks).
Proof. unfold free_frequency, squared. do 2 f_equal. induction ks as [|k ks IH]; [reflexivity|]. cbn [map fold_right]. rewrite IH. ring. Qed.
Lemma squared_sum ks : forall dx, length ks = length dx -> squared ks = sum_over (fun k d => k ^ 2) ks dx.
Proof. unfold squared. induction ks as [|k ks IH]; intros [|d dx] L; try discriminate; cbn [fold_right sum_over]; [reflexivity|]. injection L as L. rewrite (IH dx L). ring. Qed.
Lemma inv_sum ks : forall dx, length ks = length dx -> fold_right (fun d s => / d ^ 2 + s) 0 dx = sum_over (fun k d => / d ^ 2) ks dx.
Proof. induction ks as [|k ks IH]; intros [|d dx] L; try discriminate; cbn [fold_right sum_over]; [reflexivity|]. injection L as L. now rewrite (IH dx L). Qed.
Lemma Forall2_len {A B} (P : A -> B -> Prop) l m : Forall2 P l m -> length l = length m.
Proof. induction 1; cbn; congruence. Qed.
Lemma Forall2_and_r {A B} (P : A -> B -> Prop) (Q : B -> Prop) l m : Forall2 P l m -> Forall Q m -> Forall2 (fun a b => P a b /\ Q b) l m.
Proof. induction 1; intro F; [constructor|]. inversion F; subst. constructor; auto. Qed.
Lemma yee_slower c dx dt ks w : 0 < c -> 0 < dt -> Forall (fun d => 0 < d) dx -> stable c dx dt -> resolved ks dx -> yee_frequency c dx dt ks = Some w -> w <= c * sqrt (squared ks).
Proof.
  intros C D F S Rs E. destruct (yee_defined c dx dt ks C D F S) as (v & E' & V & Q). rewrite E in E'. injection E' as <-. set (s := sqrt (squared ks)). assert (Ps : 0 <= s) by apply sqrt_pos. assert (Es : s ^ 2 = squared ks) by (unfold s; rewrite <- Rsqr_pow2; apply Rsqr_sqrt, squared_pos).
  pose proof (Forall2_len _ _ _ Rs) as L. pose proof (Forall2_and_r _ _ _ _ Rs F) as RF. assert (CD : 0 < c * dt) by now apply Rmult_lt_0_compat.
  set (p := fun (k d : R) => (c * dt) ^ 2 * / d ^ 2). set (x := fun k d => Rabs k * d / 2). set (y := c * s * dt / 2).
  assert (H : Forall2 (fun k d => 0 <= p k d /\ 0 <= x k d <= PI / 2) ks dx).
  { eapply Forall2_impl; [|exact RF]. cbn -[pow]. intros k d [Hk Hd]. split; [unfold p; apply Rmult_le_pos; [apply pow2_ge_0|apply Rlt_le, Rinv_0_lt_compat, pow_lt, Hd]|]. unfold x. split; [|lra]. apply Rmult_le_pos; [|lra]. apply Rmult_le_pos; [apply Rabs_pos|lra]. }
  assert (P1 : sum_over p ks dx <= 1) by (unfold p; rewrite sum_scale, <- (inv_sum ks dx L); exact S).
  assert (Y2 : y ^ 2 = sum_over (fun k d => p k d * x k d ^ 2) ks dx).
  { unfold y. replace ((c * s * dt / 2) ^ 2) with ((c * dt) ^ 2 / 4 * s ^ 2) by field. rewrite Es, (squared_sum ks dx L), <- sum_scale. apply sum_ext. eapply Forall2_impl; [|exact RF]. cbn -[pow]. intros k d [_ Hd]. unfold p, x. replace ((Rabs k * d / 2) ^ 2) with (k ^ 2 * d ^ 2 / 4) by (replace ((Rabs k * d / 2) ^ 2) with (Rabs k ^ 2 * d ^ 2 / 4) by field; rewrite pow2_abs; reflexivity). field. lra. }
  assert (Y0 : 0 <= y) by (unfold y; apply Rmult_le_pos; [|lra]; apply Rmult_le_pos; [apply Rmult_le_pos; lra|lra]).
  assert (YP : y <= PI / 2).
  { assert (B : y ^ 2 <= (PI / 2) ^ 2).
    { rewrite Y2. apply Rle_trans with (sum_over (fun k d => (PI / 2) ^ 2 * p k d) ks dx); [apply sum_le; eapply Forall2_impl; [|exact H]; cbn -[pow]; intros k d [Hp Hx]|].
      - rewrite (Rmult_comm ((PI / 2) ^ 2)). apply Rmult_le_compat_l; [exact Hp|]. apply pow_incr. exact Hx.
      - rewrite sum_scale. rewrite <- (Rmult_1_r ((PI / 2) ^ 2)) at 2. apply Rmult_le_compat_l; [apply pow2_ge_0|exact P1]. }
    pose proof PI_RGT_0. nra. }
  pose proof (mean_sin p x ks dx y H P1 (conj Y0 YP) Y2) as M.
  apply (half_range w (c * s) dt D V); [unfold y in *; lra|]. unfold yee_relation in Q. rewrite Q. fold y. eapply Rle_trans; [|exact M]. rewrite <- sum_scale. right. apply sum_ext. eapply Forall2_impl; [|exact RF]. cbn -[pow]. intros k d [_ Hd]. unfold p, x.
  assert (As : sin (Rabs k * d / 2) ^ 2 = sin (k * d / 2) ^ 2) by (unfold Rabs; destruct (Rcase_abs k); [replace (- k * d / 2) with (- (k * d / 2)) by field; rewrite sin_neg; ring|reflexivity]). rewrite As. field. lra.
Qed.
(** ... and slower by at most the square of the resolution *)
Lemma sin_cubic x : 0 <= x <= 4 -> x - x ^ 3 / 6 <= sin x.
Proof.
  intro X. destruct (pre_sin_bound x 0 (proj1 X) (proj2 X)) as [B _]. eapply Rle_trans; [|exact B]. right. unfold sin_approx, sin_term. cbn [sum_f_R0 Nat.mul Nat.add]. cbn. field.
Qed.
Lemma sin_cubic_sq x h : 0 <= x <= 4 -> x <= h -> h ^ 2 <= 6 -> (x * (1 - h ^ 2 / 6)) ^ 2 <= sin x ^ 2.
Proof.
  intros X H L. assert (B : x * (1 - h ^ 2 / 6) <= sin x). { eapply Rle_trans; [|apply (sin_cubic x X)]. assert (x ^ 2 <= h ^ 2) by (apply pow_incr; lra). replace (x - x ^ 3 / 6) with (x * (1 - x ^ 2 / 6)) by field. apply Rmult_le_compat_l; lra. }
  apply pow_incr. split; [|exact B]. apply Rmult_le_pos; lra.
Qed.
Lemma asin_ge a : 0 <= a <= 1 -> a <= asin a.
Proof.
  intros [A B]. pose proof (asin_bound a). assert (A0 : 0 <= asin a). { destruct (Rle_lt_dec 0 (asin a)) as [|N]; [assumption|]. assert (sin (asin a) < sin 0) by (apply sin_increasing_1; lra). rewrite sin_asin, sin_0 in *; lra. }
  rewrite <- (sin_asin a) at 1 by lra. destruct (Req_dec (asin a) 0) as [->|N]; [rewrite sin_0; lra|]. apply Rlt_le, sin_lt_x. lra.
Qed.
Lemma yee_accuracy c dx dt ks w h : 0 < c -> 0 < dt -> Forall (fun d => 0 < d) dx -> stable c dx dt -> Forall2 (fun k d => Rabs k * d <= h) ks dx -> 0 <= h <= PI -> yee_frequency c dx dt ks = Some w -> c * sqrt (squared ks) * (1 - h ^ 2 / 24) <= w.
Proof.
  intros C D F S H P E. destruct (arg_bounds c dt ks dx C D F S) as [A0 A1]. unfold yee_frequency in E. destruct (Req_EM_T dt 0); [discriminate|]. destruct (Rlt_dec 1 _); [discriminate|]. injection E as <-.
  pose proof (asin_ge _ (conj A0 A1)) as G. set (a := c * dt * sqrt (yee_sum ks dx)) in *. assert (G' : 2 * a / dt <= 2 * asin a / dt) by (unfold Rdiv; apply Rmult_le_compat_r; [apply Rlt_le, Rinv_0_lt_compat, D|lra]).
  eapply Rle_trans; [|exact G']. unfold a. replace (2 * (c * dt * sqrt (yee_sum ks dx)) / dt) with (c * (2 * sqrt (yee_sum ks dx))) by (field; lra). rewrite Rmult_assoc. apply Rmult_le_compat_l; [lra|].
  assert (P4 := PI_4). assert (Hh : h ^ 2 <= 16) by (replace 16 with (4 ^ 2) by ring; apply pow_incr; lra). assert (Q : 0 <= 1 - h ^ 2 / 24) by lra.
  pose proof (Forall2_len _ _ _ H) as L. pose proof (Forall2_and_r _ _ _ _ H F) as HF.
  assert (I : squared ks * (1 - h ^ 2 / 24) ^ 2 <= 4 * yee_sum ks dx).
  { rewrite yee_sum_eq, (squared_sum ks dx L), Rmult_comm, <- !sum_scale. apply sum_le. eapply Forall2_impl; [|exact HF]. cbn -[pow]. intros k d [Hk Hd].
    assert (X : 0 <= Rabs k * d / 2 <= 4) by (split; [apply Rmult_le_pos; [apply Rmult_le_pos; [apply Rabs_pos|lra]|lra]|lra]). pose proof (sin_cubic_sq (Rabs k * d / 2) (h / 2) X ltac:(lra) ltac:(replace ((h / 2) ^ 2) with (h ^ 2 / 4) by field; lra)) as B.
    assert (As : sin (Rabs k * d / 2) ^ 2 = sin (k * d / 2) ^ 2) by (unfold Rabs; destruct (Rcase_abs k); [replace (- k * d / 2) with (- (k * d / 2)) by field; rewrite sin_neg; ring|reflexivity]). rewrite As in B.
    replace ((h / 2) ^ 2 / 6) with (h ^ 2 / 24) in B by field. replace ((Rabs k * d / 2 * (1 - h ^ 2 / 24)) ^ 2) with (Rabs k ^ 2 * d ^ 2 / 4 * (1 - h ^ 2 / 24) ^ 2) in B by field. rewrite pow2_abs in B.
    assert (Dp : 0 < / d ^ 2) by (apply Rinv_0_lt_compat, pow_lt, Hd). replace ((1 - h ^ 2 / 24) ^ 2 * k ^ 2) with (4 * (k ^ 2 * d ^ 2 / 4 * (1 - h ^ 2 / 24) ^ 2 * / d ^ 2)) by (field; lra). replace ((sin (k * d / 2) / d) ^ 2) with (sin (k * d / 2) ^ 2 * / d ^ 2) by (field; lra).
    apply Rmult_le_compat_l; [lra|]. apply Rmult_le_compat_r; [lra|exact B]. }
  replace (sqrt (squared ks) * (1 - h ^ 2 / 24)) with (sqrt (squared ks * (1 - h ^ 2 / 24) ^ 2)) by (rewrite sqrt_mult by (try apply squared_pos; apply pow2_ge_0); f_equal; now apply sqrt_pow2).
  replace (2 * sqrt (yee_sum ks dx)) with (sqrt (4 * yee_sum ks dx)) by (rewrite sqrt_mult by (try lra; apply yee_sum_pos); f_equal; replace 4 with (2 ^ 2) by ring; apply sqrt_pow2; lra). apply sqrt_le_1_alt, I.
Qed.
(** * Symmetries *)
Lemma yee_same c dx dt ks ls : sum_over (fun k d => (sin (k * d / 2) / d) ^ 2) ks dx = sum_over (fun k d => (sin (k * d / 2) / d) ^ 2) ls dx -> yee_frequency c dx dt ks = yee_frequency c dx dt ls.
Proof. intro E. unfold yee_frequency. now rewrite !yee_sum_eq, E. Qed.
Lemma sin_half_turns x n : sin (x + IZR n * PI) ^ 2 = sin x ^ 2.
Proof.
  assert (N : forall m x, sin (x + INR m * PI) ^ 2 = sin x ^ 2).
  { induction m as [|m IH]; intro y; [cbn [INR]; now replace (y + 0 * PI) with y by ring|]. rewrite S_INR. replace (y + (INR m + 1) * PI) with (y + INR m * PI + PI) by ring. rewrite neg_sin. replace ((- sin (y + INR m * PI)) ^ 2) with (sin (y + INR m * PI) ^ 2) by ring. apply IH. }
  destruct (Z_le_dec 0 n) as [P|P].
  - rewrite <- (Z2Nat.id n) by lia. rewrite <- INR_IZR_INZ. apply N.
  - rewrite <- (N (Z.to_nat (- n)) (x + IZR n * PI)). rewrite INR_IZR_INZ, Z2Nat.id by lia. rewrite opp_IZR. f_equal. f_equal. ring.
Qed.
Lemma yee_alias c dx dt ks ls : Forall (fun d => 0 < d) dx -> length ks = length dx -> length ls = length dx -> (forall i, (i < length dx)%nat -> alias (nth i dx 0) (nth i ks 0) (nth i ls 0)) -> yee_frequency c dx dt ks = yee_frequency c dx dt ls.
Proof.
  intros F Lk Ll A. apply yee_same. revert ks ls Lk Ll A. induction F as [|d dx D F IH]; intros [|k ks] [|l ls] Lk Ll A; try discriminate; [reflexivity|]. cbn [sum_over]. injection Lk as Lk. injection Ll as Ll. rewrite (IH ks ls Lk Ll (fun i I => A (S i) ltac:(cbn; lia))). f_equal.
  specialize (A 0%nat ltac:(cbn; lia)). cbn [nth] in A. destruct A as [n A]. replace ((sin (k * d / 2) / d) ^ 2) with (sin (k * d / 2) ^ 2 / d ^ 2) by (field; lra). replace ((sin (l * d / 2) / d) ^ 2) with (sin (l * d / 2) ^ 2 / d ^ 2) by (field; lra). f_equal.
  destruct A as [-> | ->].
  - replace ((l + 2 * PI * IZR n / d) * d / 2) with (l * d / 2 + IZR n * PI) by (field; lra). apply sin_half_turns.
  - replace ((- l + 2 * PI * IZR n / d) * d / 2) with (- (l * d / 2) + IZR n * PI) by (field; lra). rewrite sin_half_turns, sin_neg. ring.
Qed.
(** * Special cases *)
Lemma yee_magic c d k : 0 < c -> 0 < d -> Rabs k * d <= PI -> yee_frequency c [d] (d / c) [k] = Some (c * Rabs k).
Proof.
  intros C D K. assert (Dt : 0 < d / c) by (apply Rdiv_lt_0_compat; assumption). assert (CD : c * (d / c) = d) by (field; lra). apply yee_is; [exact C|exact Dt|repeat constructor; exact D| | |].
  - unfold stable. cbn [fold_right]. rewrite CD. right. field. lra.
  - replace (c * Rabs k * (d / c)) with (Rabs k * d) by (field; lra). split; [apply Rmult_le_pos; [apply Rabs_pos|lra]|exact K].
  - unfold yee_relation. cbn [sum_over]. rewrite CD. replace (c * Rabs k * (d / c) / 2) with (Rabs k * d / 2) by (field; lra).
    assert (As : sin (Rabs k * d / 2) ^ 2 = sin (k * d / 2) ^ 2) by (unfold Rabs; destruct (Rcase_abs k); [replace (- k * d / 2) with (- (k * d / 2)) by field; rewrite sin_neg; ring|reflexivity]). rewrite As. field. lra.
Qed.
Lemma corner_sum dx : Forall (fun d => 0 < d) dx -> sum_over (fun k d => (sin (k * d / 2) / d) ^ 2) (map (fun d => PI / d) dx) dx = fold_right (fun d s => / d ^ 2 + s) 0 dx.
Proof. induction 1 as [|d dx D F IH]; [reflexivity|]. cbn [map sum_over fold_right]. rewrite IH. f_equal. replace (PI / d * d / 2) with (PI / 2) by (field; lra). rewrite sin_PI2. field. lra. Qed.
Lemma yee_unstable c dx dt : 0 < c -> 0 < dt -> Forall (fun d => 0 < d) dx -> ~ stable c dx dt -> exists ks, resolved ks dx /\ yee_frequency c dx dt ks = None.
Proof.
  intros C D F N. exists (map (fun d => PI / d) dx). split.
  - unfold resolved. clear N. induction F as [|d dx Dd F IH]; constructor; [|exact IH]. pose proof PI_RGT_0. rewrite Rabs_pos_eq by (apply Rlt_le, Rdiv_lt_0_compat; assumption). right. field. lra.
  - unfold yee_frequency. destruct (Req_EM_T dt 0); [reflexivity|]. destruct (Rlt_dec 1 _) as [|X]; [reflexivity|]. destruct N. unfold stable. set (a := c * dt * sqrt (yee_sum (map (fun d => PI / d) dx) dx)) in *.
    assert (A0 : 0 <= a) by (apply Rmult_le_pos; [apply Rmult_le_pos; lra|apply sqrt_pos]). rewrite Rabs_pos_eq in X by exact A0. rewrite <- (corner_sum dx F), <- yee_sum_eq, <- (arg_square c dt) by assumption. fold a. nra.
Qed.
Lemma yee_truncated c dx dt ks rest : (length dx <= length ks)%nat -> yee_frequency c dx dt (ks ++ rest) = yee_frequency c dx dt ks.
Proof.
  intro L. apply yee_same. revert dx L. induction ks as [|k ks IH]; intros [|d dx] L; cbn [length] in L; [destruct rest; reflexivity|lia|reflexivity|]. cbn [app sum_over]. rewrite (IH dx) by lia. reflexivity.
Qed.
(** * The functions on the mesh *)
Lemma mesh_sum axes idx dx : fold_right Rplus 0 (map (fun p => (sin (/ 2 * mesh axes (fst p) idx * snd p) / snd p) ^ 2) (combine (zrange (Z.of_nat (length axes))) dx)) = yee_sum (kvector axes idx) dx.
Proof. unfold yee_sum, kvector. generalize (zrange (Z.of_nat (length axes))). intro l. revert dx. induction l as [|i l IH]; intros [|d dx]; cbn [combine map fold_right]; try reflexivity. now rewrite IH. Qed.
Lemma mesh_yee c dx dt axes idx w : yee_frequency c dx dt (kvector axes idx) = Some w -> omega_yee c dx dt axes idx = w.
Proof.
  unfold yee_frequency. destruct (Req_EM_T dt 0); [discriminate|]. destruct (Rlt_dec 1 _); [discriminate|]. intros [= <-]. unfold omega_yee. cbv zeta. now rewrite mesh_sum.
Qed.
Lemma mesh_free c axes idx : omega_free c axes idx = c * sqrt (squared (kvector axes idx)).
Proof. rewrite <- free_eq. unfold omega_free, free_frequency, k_squared, kvector. now rewrite map_map. Qed.
Lemma free_zero c ks : 0 < c -> c * sqrt (squared ks) = 0 <-> Forall (fun k => k = 0) ks.
Proof.
  intro C. split.
  - intro E. assert (Z : squared ks = 0). { apply Rmult_integral in E. destruct E as [E|E]; [lra|]. now apply sqrt_eq_0 in E; [|apply squared_pos]. }
    clear E. unfold squared in Z. induction ks as [|k ks IH]; [constructor|]. cbn [fold_right] in Z. pose proof (squared_pos ks) as P. unfold squared in P. pose proof (Rle_0_sqr k) as K. unfold Rsqr in K. constructor; [assert (k * k = 0) by lra; apply Rmult_integral in H; tauto|apply IH; lra].
  - intro F. replace (squared ks) with 0; [rewrite sqrt_0; ring|]. unfold squared. induction F as [|k ks -> F IH]; cbn [fold_right]; [reflexivity|]. rewrite <- IH. ring.
Qed.
(** * The critical density *)
Lemma sin_five x : 0 <= x <= 4 -> x - x ^ 3 / 6 + x ^ 5 / 120 - x ^ 7 / 5040 <= sin x <= x - x ^ 3 / 6 + x ^ 5 / 120.
Proof.
  intro X. destruct (pre_sin_bound x 0 (proj1 X) (proj2 X)) as [_ U]. destruct (pre_sin_bound x 1 (proj1 X) (proj2 X)) as [L _].
  assert (EU : sin_approx x (2 * (0 + 1)) = x - x ^ 3 / 6 + x ^ 5 / 120) by (unfold sin_approx, sin_term; cbn; field).
  assert (EL : sin_approx x (2 * 1 + 1) = x - x ^ 3 / 6 + x ^ 5 / 120 - x ^ 7 / 5040).
  { unfold sin_approx. cbn [sum_f_R0 Nat.mul Nat.add]. unfold sin_term. cbn [Nat.mul Nat.add]. change (fact 7) with (7 * (6 * fact 5))%nat. rewrite !mult_INR. change (INR (fact 5)) with (INR 120). rewrite (INR_IZR_INZ 120), (INR_IZR_INZ 7), (INR_IZR_INZ 6). cbn [Z.of_nat Pos.of_succ_nat Pos.succ]. cbn [fact Nat.mul Nat.add]. rewrite !INR_IZR_INZ. cbn [Z.of_nat Pos.of_succ_nat Pos.succ]. field. }
  rewrite EU in U. rewrite EL in L. split; assumption.
Qed.
Lemma pi_bounds : 3141 / 1000 < PI < 3142 / 1000.
Proof.
  assert (P3 : 3 <= PI) by (pose proof PI2_3_2; lra). pose proof PI_4 as P4. assert (S6 : sin (PI / 6) = 1 / 2) by apply sin_PI6. split.
  - destruct (Rlt_le_dec (3141 / 1000) PI) as [|L]; [assumption|]. exfalso. assert (I : sin (PI / 6) <= sin (5235 / 10000)) by (apply sin_incr_1; lra). destruct (sin_five (5235 / 10000)) as [_ B]; [lra|]. lra.
  - destruct (Rlt_le_dec PI (3142 / 1000)) as [|L]; [assumption|]. exfalso. assert (I : sin (52366 / 100000) <= sin (PI / 6)) by (apply sin_incr_1; lra). destruct (sin_five (52366 / 100000)) as [B _]; [lra|]. lra.
Qed.
Lemma light_eps : pc_epsilon0 * pc_mu0 * pc_c ^ 2 = 1.
Proof. unfold pc_epsilon0, pc_mu0, pc_c. pose proof PI_RGT_0. field. lra. Qed.
Lemma critical_eq l : l <> 0 -> critical_density pc_epsilon0 pc_me pc_qe pc_c l = PI * (10 ^ 7 * pc_me / pc_qe ^ 2) / l ^ 2.
Proof. intro L. unfold critical_density, pc_epsilon0, pc_mu0, pc_c, pc_qe. pose proof PI_RGT_0. field. repeat split; lra. Qed.
Lemma ncrit_eq l : l <> 0 -> ncrit l = Ok (111 * 10 ^ 13 / l ^ 2).
Proof. intro L. unfold ncrit, ncrit_um. destruct (Req_EM_T (l * 10 ^ 6) 0) as [E|E]; [apply Rmult_integral in E; destruct E as [E|E]; [easy|lra]|]. f_equal. field. exact L. Qed.
Lemma ncrit_close l : l <> 0 -> exists n, ncrit l = Ok n /\ let d := critical_density pc_epsilon0 pc_me pc_qe pc_c l in 995 / 1000 * d < n < 996 / 1000 * d.
Proof.
  intro L. rewrite (ncrit_eq l L). eexists. split; [reflexivity|]. cbv zeta. rewrite (critical_eq l L). destruct pi_bounds as [A B]. assert (P : 0 < / l ^ 2) by (apply Rinv_0_lt_compat; pose proof (Rsqr_pos_lt l L) as Q; unfold Rsqr in Q; lra).
  unfold Rdiv. rewrite <- !Rmult_assoc. assert (K : 3548 * 10 ^ 11 < 10 ^ 7 * pc_me * / pc_qe ^ 2 < 3549 * 10 ^ 11) by (unfold pc_me, pc_qe; lra). unfold pc_me, pc_qe in *. split; apply Rmult_lt_compat_r; try exact P; nra.
Qed.
Lemma ncrit_scaling l : l <> 0 -> exists n, ncrit l = Ok n /\ ncrit_um (l * 10 ^ 6) = Ok n /\ n * l ^ 2 = 111 * 10 ^ 13.
Proof. intro L. exists (111 * 10 ^ 13 / l ^ 2). split; [now apply ncrit_eq|]. split; [now apply ncrit_eq|]. field. exact L. Qed.
Lemma ncrit_inexact l n : l <> 0 -> ncrit l = Ok n -> n <> critical_density pc_epsilon0 pc_me pc_qe pc_c l.
Proof.
  intros L E. destruct (ncrit_close l L) as (m & E' & A). rewrite E in E'. injection E' as <-. cbv zeta in A. intro Q. rewrite <- Q in A. assert (P : 0 < n).
  { rewrite (ncrit_eq l L) in E. injection E as <-. apply Rdiv_lt_0_compat; [lra|]. pose proof (Rsqr_pos_lt l L) as B. unfold Rsqr in B. lra. } lra.
Qed.
Lemma ncrit_zero : ncrit 0 = Err ZeroDivisionError.
Proof. unfold ncrit, ncrit_um. destruct (Req_EM_T (0 * 10 ^ 6) 0) as [|N]; [reflexivity|]. destruct N. ring. Qed.
Lemma constants_si : pc_c = si_c /\ agrees (1 / 10 ^ 7) pc_me si_electron_mass /\ agrees (1 / 10 ^ 7) pc_qe si_charge.
Proof.
  unfold agrees, pc_c, si_c, pc_me, si_electron_mass, pc_qe, si_charge. split; [reflexivity|]. split.
  - rewrite (Rabs_right (91093837015 / 10 ^ 41)) by lra. apply Rabs_le. lra.
  - rewrite (Rabs_right (1602176634 / 10 ^ 28)) by lra. apply Rabs_le. lra.
Qed.
Lemma mass_unit_off : si_mass_unit * (1007 / 1000) < pc_mass_u /\ agrees (1 / 10 ^ 4) pc_mass_u (167262192369 / 10 ^ 38).
Proof.
  unfold agrees, si_mass_unit, pc_mass_u, pc_me. split; [lra|]. rewrite (Rabs_right (167262192369 / 10 ^ 38)) by lra. apply Rabs_le. lra.
Qed.
