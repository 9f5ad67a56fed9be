(** Polar coordinates and relativistic kinematics over the reals. *)
From Coq Require Import Reals Lra Lia.
From Verif Require Import PyBase PyBaseFacts NumpyModel NdModel RegistryModel RealModel.
Open Scope R_scope.

Lemma sum_squares_nonneg x y : 0 <= x ^ 2 + y ^ 2.
Proof. assert (0 <= x ^ 2) by (rewrite <- Rsqr_pow2; apply Rle_0_sqr). assert (0 <= y ^ 2) by (rewrite <- Rsqr_pow2; apply Rle_0_sqr). lra. Qed.
Lemma square_nonneg x : 0 <= x ^ 2.
Proof. rewrite <- Rsqr_pow2; apply Rle_0_sqr. Qed.
Lemma sqrt_square x : 0 <= x -> sqrt x ^ 2 = x.
Proof. intro H. rewrite <- Rsqr_pow2. apply Rsqr_sqrt, H. Qed.
Lemma hyp_scale x y : x <> 0 -> sqrt (x ^ 2 + y ^ 2) = Rabs x * sqrt (1 + (y / x)²).
Proof.
  intro H. rewrite <- sqrt_Rsqr_abs, <- sqrt_mult_alt by apply Rle_0_sqr. f_equal. unfold Rsqr. field. exact H.
Qed.
Lemma one_square_pos t : 0 < 1 + t².
Proof. assert (0 <= t²) by apply Rle_0_sqr. lra. Qed.
Lemma sqrt_one_pos t : 0 < sqrt (1 + t²).
Proof. apply sqrt_lt_R0, one_square_pos. Qed.
Lemma atan_cos x y : x <> 0 -> sqrt (x ^ 2 + y ^ 2) * cos (atan (y / x)) = Rabs x.
Proof. intro H. rewrite (hyp_scale x y H), cos_atan. assert (S := sqrt_one_pos (y / x)). field. lra. Qed.
Lemma atan_sin x y : x <> 0 -> sqrt (x ^ 2 + y ^ 2) * sin (atan (y / x)) = Rabs x * (y / x).
Proof. intro H. rewrite (hyp_scale x y H), sin_atan. assert (S := sqrt_one_pos (y / x)). field. lra. Qed.
Lemma sqrt_axis y : sqrt (0 ^ 2 + y ^ 2) = Rabs y.
Proof. rewrite <- sqrt_Rsqr_abs. f_equal. unfold Rsqr. ring. Qed.
Lemma arctan2_polar x y : let r := sqrt (x ^ 2 + y ^ 2) in r * cos (arctan2 y x) = x /\ r * sin (arctan2 y x) = y.
Proof.
  cbv zeta. unfold arctan2. destruct (Rlt_dec 0 x) as [P|P].
  - assert (N : x <> 0) by lra. rewrite (atan_cos x y N), (atan_sin x y N), Rabs_pos_eq by lra. split; [reflexivity|field; exact N].
  - destruct (Rlt_dec x 0) as [Q|Q].
    + assert (N : x <> 0) by lra. assert (A := atan_cos x y N). assert (B := atan_sin x y N). rewrite Rabs_left in A, B by lra.
      assert (B' : sqrt (x ^ 2 + y ^ 2) * sin (atan (y / x)) = - y) by (rewrite B; field; exact N). destruct (Rle_dec 0 y).
      * rewrite neg_cos, neg_sin. split; lra.
      * unfold Rminus. rewrite <- (cos_period _ 1), <- (sin_period _ 1). cbn [INR].
        replace (atan (y / x) + - PI + 2 * 1 * PI) with (atan (y / x) + PI) by ring. rewrite neg_cos, neg_sin. split; lra.
    + assert (X : x = 0) by lra. subst x. rewrite sqrt_axis. destruct (Rlt_dec 0 y) as [Y|Y].
      * rewrite cos_PI2, sin_PI2, Rabs_pos_eq by lra. split; ring.
      * destruct (Rlt_dec y 0) as [Z|Z].
        { rewrite cos_neg, sin_neg, cos_PI2, sin_PI2, Rabs_left by lra. split; ring. }
        assert (y = 0) by lra. subst y. rewrite Rabs_R0. split; ring.
Qed.
Lemma arctan2_range x y : - PI < arctan2 y x <= PI.
Proof.
  assert (P := PI_RGT_0). unfold arctan2. destruct (Rlt_dec 0 x) as [X|X]; [assert (B := atan_bound (y / x)); lra|].
  destruct (Rlt_dec x 0) as [Z|Z]; [|destruct (Rlt_dec 0 y); [lra|destruct (Rlt_dec y 0); lra]].
  assert (B := atan_bound (y / x)). destruct (Rle_dec 0 y) as [Y|Y].
  - assert (atan (y / x) <= 0); [|lra]. destruct (Req_dec y 0) as [->|N].
    + unfold Rdiv. rewrite Rmult_0_l, atan_0. lra.
    + left. rewrite <- atan_0. apply atan_increasing. unfold Rdiv. assert (/ x < 0) by now apply Rinv_lt_0_compat.
      assert (0 < y * - / x) by (apply Rmult_lt_0_compat; lra). lra.
  - assert (0 < atan (y / x)); [|lra]. rewrite <- atan_0. apply atan_increasing. unfold Rdiv. assert (/ x < 0) by now apply Rinv_lt_0_compat.
    assert (0 < - y * - / x) by (apply Rmult_lt_0_compat; lra). lra.
Qed.
Lemma cos_one d : -2 * PI < d < 2 * PI -> cos d = 1 -> d = 0.
Proof.
  intros B C. assert (P := PI_RGT_0).
  assert (S : sin (d / 2) = 0).
  { assert (K := cos_2a_sin (d / 2)). replace (2 * (d / 2)) with d in K by field. rewrite C in K.
    assert (Z : sin (d / 2) * sin (d / 2) = 0) by lra. apply Rmult_integral in Z. tauto. }
  destruct (Rtotal_order d 0) as [L|[E|G]]; [|exact E|].
  - exfalso. assert (0 < sin (- (d / 2))) by (apply sin_gt_0; lra). rewrite sin_neg in H. lra.
  - exfalso. assert (0 < sin (d / 2)) by (apply sin_gt_0; lra). lra.
Qed.
Lemma angle_unique a b : - PI < a <= PI -> - PI < b <= PI -> cos a = cos b -> sin a = sin b -> a = b.
Proof.
  intros A B C S. assert (P := PI_RGT_0). assert (a - b = 0); [|lra]. apply cos_one; [lra|]. rewrite cos_minus, C, S.
  assert (K := sin2_cos2 b). unfold Rsqr in K. lra.
Qed.
Lemma linear_polar_linear x y : polar2linear (fst (linear2polar x y)) (snd (linear2polar x y)) = (x, y).
Proof. unfold polar2linear, linear2polar. cbn [fst snd]. destruct (arctan2_polar x y) as [A B]. cbv zeta in A, B. now rewrite A, B. Qed.
Lemma polar_radius theta r : 0 <= r -> sqrt ((r * cos theta) ^ 2 + (r * sin theta) ^ 2) = r.
Proof.
  intro H. replace ((r * cos theta) ^ 2 + (r * sin theta) ^ 2) with (r² * ((sin theta)² + (cos theta)²)) by (unfold Rsqr; ring).
  rewrite sin2_cos2, Rmult_1_r. apply sqrt_Rsqr, H.
Qed.
Lemma polar_linear_polar theta r : 0 < r -> - PI < theta <= PI ->
  linear2polar (fst (polar2linear theta r)) (snd (polar2linear theta r)) = (theta, r).
Proof.
  intros R0 T. unfold polar2linear, linear2polar. cbn [fst snd]. assert (E := polar_radius theta r (Rlt_le _ _ R0)). rewrite E. f_equal.
  destruct (arctan2_polar (r * cos theta) (r * sin theta)) as [A B]. cbv zeta in A, B. rewrite E in A, B.
  apply angle_unique; [apply arctan2_range|exact T| |].
  - apply (Rmult_eq_reg_l r); [exact A|lra].
  - apply (Rmult_eq_reg_l r); [exact B|lra].
Qed.
Lemma radius_nonneg x y : 0 <= snd (linear2polar x y).
Proof. apply sqrt_pos. Qed.
Lemma radius_zero x y : snd (linear2polar x y) = 0 <-> x = 0 /\ y = 0.
Proof.
  unfold linear2polar. cbn [snd]. split.
  - intro H. assert (S := sqrt_eq_0 _ (sum_squares_nonneg x y) H). assert (A := square_nonneg x). assert (B := square_nonneg y).
    split; apply Rsqr_0_uniq; rewrite Rsqr_pow2; lra.
  - intros [-> ->]. rewrite sqrt_axis. apply Rabs_R0.
Qed.
Lemma jacdet_ok theta r : 0 <= r -> jac_det polar2linear_jac theta r = Ok (polar2linear_jacdet theta r).
Proof.
  intro H. unfold jac_det, polar2linear_jac, polar2linear_jacdet. f_equal.
  replace (- r * sin theta * sin theta - cos theta * (r * cos theta)) with (- (r * ((sin theta)² + (cos theta)²))) by (unfold Rsqr; ring).
  rewrite sin2_cos2, Rmult_1_r, Rabs_Ropp. apply Rabs_pos_eq, H.
Qed.

(** ** radii of topolar *)
Lemma fold_min_spec r : forall x, fold_left Rmin r x <= x /\ (forall y, In y r -> fold_left Rmin r x <= y).
Proof.
  induction r as [|y r IH]; intro x; cbn [fold_left]; [split; [lra|intros ? []]|]. destruct (IH (Rmin x y)) as [A B].
  assert (C := Rmin_l x y). assert (D := Rmin_r x y). split; [lra|]. intros z [<-|I]; [lra|apply B, I].
Qed.
Lemma fold_max_spec r : forall x, x <= fold_left Rmax r x /\ (forall y, In y r -> y <= fold_left Rmax r x).
Proof.
  induction r as [|y r IH]; intro x; cbn [fold_left]; [split; [lra|intros ? []]|]. destruct (IH (Rmax x y)) as [A B].
  assert (C := Rmax_l x y). assert (D := Rmax_r x y). split; [lra|]. intros z [<-|I]; [lra|apply B, I].
Qed.
Lemma fold_min_in r : forall x, In (fold_left Rmin r x) (x :: r).
Proof.
  induction r as [|y r IH]; intro x; cbn [fold_left]; [now left|]. destruct (IH (Rmin x y)) as [E|I]; [|right; right; exact I].
  rewrite <- E. unfold Rmin. destruct (Rle_dec x y); [now left|right; now left].
Qed.
Lemma rmin_abs g a : rmin_list (map Rabs g) = Ok a -> 0 <= a /\ forall x, In x g -> a <= Rabs x.
Proof.
  intro H. destruct g as [|z g]; [discriminate H|]. cbn [map rmin_list] in H. injection H as <-.
  destruct (fold_min_spec (map Rabs g) (Rabs z)) as [A B]. split.
  - assert (I := fold_min_in (map Rabs g) (Rabs z)). change (Rabs z :: map Rabs g) with (map Rabs (z :: g)) in I. apply in_map_iff in I.
    destruct I as (t & <- & _). apply Rabs_pos.
  - intros x [<-|I]; [exact A|]. apply B, in_map, I.
Qed.
Lemma rmax_abs g a : rmax_list (map Rabs g) = Ok a -> forall x, In x g -> Rabs x <= a.
Proof.
  intro H. destruct g as [|z g]; [discriminate H|]. cbn [map rmax_list] in H. injection H as <-.
  destruct (fold_max_spec (map Rabs g) (Rabs z)) as [A B]. intros x [<-|I]; [exact A|]. apply B, in_map, I.
Qed.
Lemma radii_cover gx gy lo hi x y : polar_radii gx gy = Ok (lo, hi) -> In x gx -> In y gy -> lo <= snd (linear2polar x y) <= hi.
Proof.
  unfold polar_radii. intros H I J. apply bind_ok in H. destruct H as (ax & AX & H). apply bind_ok in H. destruct H as (ay & AY & H).
  apply bind_ok in H. destruct H as (bx & BX & H). apply bind_ok in H. destruct H as (b2 & BY & H). injection H as <- <-.
  destruct (rmin_abs _ _ AX) as [PX LX]. destruct (rmin_abs _ _ AY) as [PY LY]. assert (UX := rmax_abs _ _ BX x I). assert (UY := rmax_abs _ _ BY y J).
  specialize (LX x I). specialize (LY y J). unfold linear2polar. cbn [snd]. rewrite <- (pow2_abs x), <- (pow2_abs y).
  assert (X := Rabs_pos x). assert (Y := Rabs_pos y).
  assert (ax ^ 2 <= Rabs x ^ 2) by (apply pow_incr; lra). assert (ay ^ 2 <= Rabs y ^ 2) by (apply pow_incr; lra).
  assert (Rabs x ^ 2 <= bx ^ 2) by (apply pow_incr; lra). assert (Rabs y ^ 2 <= b2 ^ 2) by (apply pow_incr; lra).
  split; apply sqrt_le_1_alt; lra.
Qed.
Lemma radii_defined gx gy : gx <> [] -> gy <> [] -> exists p, polar_radii gx gy = Ok p.
Proof. intros X Y. destruct gx; [contradiction|]. destruct gy; [contradiction|]. eexists. reflexivity. Qed.

(** ** derivative *)
Lemma approx_quadratic eps a b c x d : approx_1d_jacobian_det eps (fun t => a * t ^ 2 + b * t + c) x = Some d -> d = Rabs (2 * a * x + b).
Proof.
  unfold approx_1d_jacobian_det. destruct (Req_EM_T _ 0) as [|N]; [discriminate|]. intro H. injection H as <-. f_equal. field. lra.
Qed.
Lemma approx_defined eps f x : 0 < eps -> (approx_1d_jacobian_det eps f x = None <-> x = -1).
Proof.
  intro E. unfold approx_1d_jacobian_det. destruct (Req_EM_T (2 * (eps + eps * x)) 0) as [Z|N].
  - split; [intros _|reflexivity]. assert (K : eps * (1 + x) = 0) by lra. apply Rmult_integral in K. lra.
  - split; [discriminate|]. intros ->. exfalso. apply N. ring.
Qed.

(** ** kinematics *)
Section Kinematics.
Context (u : R) (U : 0 <= u).
Let s := sqrt (1 + u).
Lemma kin_s : s ^ 2 = 1 + u /\ 1 <= s.
Proof.
  unfold s. split; [apply sqrt_square; lra|]. rewrite <- sqrt_1 at 1. apply sqrt_le_1_alt. lra.
Qed.
Lemma kin_gm1 : u / (s + 1) = s - 1.
Proof. destruct kin_s as [A B]. apply (Rmult_eq_reg_r (s + 1)); [|lra]. replace (u / (s + 1) * (s + 1)) with u by (field; lra). simpl in A. lra. Qed.
Lemma kin_beta : sqrt ((s - 1) ^ 2 + 2 * (s - 1)) / (s - 1 + 1) = sqrt u / s.
Proof. destruct kin_s as [A B]. replace ((s - 1) ^ 2 + 2 * (s - 1)) with u by (simpl in *; lra). f_equal. lra. Qed.
Lemma kin_beta_bound : 0 <= sqrt u / s < 1.
Proof.
  destruct kin_s as [A B]. assert (S := sqrt_pos u). split.
  - apply Rmult_le_pos; [exact S|]. left. apply Rinv_0_lt_compat. lra.
  - apply (Rmult_lt_reg_r s); [lra|]. replace (sqrt u / s * s) with (sqrt u) by (field; lra). rewrite Rmult_1_l. apply sqrt_lt_1_alt. lra.
Qed.
Lemma kin_gamma : 1 / sqrt (1 - (sqrt u / s) ^ 2) = s.
Proof.
  destruct kin_s as [A B]. replace (1 - (sqrt u / s) ^ 2) with ((/ s)²).
  - rewrite sqrt_Rsqr by (left; apply Rinv_0_lt_compat; lra). field. lra.
  - replace ((sqrt u / s) ^ 2) with (sqrt u ^ 2 / s ^ 2) by (field; lra). rewrite (sqrt_square u U), A. unfold Rsqr.
    replace (/ s * / s) with (/ s ^ 2) by (field; lra). rewrite A. field. lra.
Qed.
End Kinematics.
Section Particle.
Context (prop : string -> R) (c amu qe : R).
Open Scope string_scope.
Notation P k := (prop k).
Notation S k := (scalar prop c amu qe k).
Definition np2 : R := (P "px" ^ 2 + P "py" ^ 2 + P "pz" ^ 2) / (P "mass" * c) ^ 2.
Ltac comp := unfold np2; lazy -[Rplus Rmult Rminus Rdiv Rinv sqrt pow IZR arctan2 Ropp]; reflexivity.
Lemma s_gm1 : S "gamma_m1" = Ok (np2 / (sqrt (1 + np2) + 1)). Proof. comp. Qed.
Lemma s_gamma : S "gamma" = Ok (np2 / (sqrt (1 + np2) + 1) + 1). Proof. comp. Qed.
Lemma s_beta : S "beta" = Ok (let g := np2 / (sqrt (1 + np2) + 1) in sqrt (g ^ 2 + 2 * g) / (g + 1)). Proof. comp. Qed.
Lemma s_v : S "v" = Ok (let g := np2 / (sqrt (1 + np2) + 1) in sqrt (g ^ 2 + 2 * g) / (g + 1) * c). Proof. comp. Qed.
Lemma s_vx : S "vx" = Ok (P "px" / ((np2 / (sqrt (1 + np2) + 1) + 1) * P "mass")). Proof. comp. Qed.
Lemma s_vy : S "vy" = Ok (P "py" / ((np2 / (sqrt (1 + np2) + 1) + 1) * P "mass")). Proof. comp. Qed.
Lemma s_vz : S "vz" = Ok (P "pz" / ((np2 / (sqrt (1 + np2) + 1) + 1) * P "mass")). Proof. comp. Qed.
Lemma s_p : S "p" = Ok (sqrt (P "px" ^ 2 + P "py" ^ 2 + P "pz" ^ 2)). Proof. comp. Qed.
Lemma s_rest : S "Eruhe" = Ok (P "mass" * c ^ 2). Proof. comp. Qed.
Lemma s_ekin : S "Ekin" = Ok (np2 / (sqrt (1 + np2) + 1) * P "mass" * c ^ 2). Proof. comp. Qed.
Lemma all_defined p : In p default_scalars -> exists s v, sp_symbol p = Some s /\ S s = Ok v /\ S (sp_expr p) = Ok v.
Proof.
  intro I.
  unfold default_scalars in I.
  repeat (destruct I as [<-|I]; [eexists; eexists; split; [reflexivity|]; split;
    lazy -[Rplus Rmult Rminus Rdiv Rinv sqrt pow IZR arctan2 Ropp]; reflexivity|]).
  destruct I.
Qed.

Definition psq : R := P "px" ^ 2 + P "py" ^ 2 + P "pz" ^ 2.
Context (M : 0 < P "mass") (C : 0 < c).
Lemma psq_nonneg : 0 <= psq.
Proof. unfold psq. assert (A := square_nonneg (P "px")). assert (B := square_nonneg (P "py")). assert (D := square_nonneg (P "pz")). lra. Qed.
Lemma mc_pos : 0 < (P "mass" * c) ^ 2.
Proof. apply pow_lt, Rmult_lt_0_compat; assumption. Qed.
Lemma np2_nonneg : 0 <= np2.
Proof. unfold np2. apply Rmult_le_pos; [apply psq_nonneg|left; apply Rinv_0_lt_compat, mc_pos]. Qed.
Definition g : R := sqrt (1 + np2).
Lemma s_gamma' : S "gamma" = Ok g.
Proof. rewrite s_gamma, (kin_gm1 np2 np2_nonneg). unfold g. f_equal. ring. Qed.
Lemma s_gm1' : S "gamma_m1" = Ok (g - 1).
Proof. rewrite s_gm1, (kin_gm1 np2 np2_nonneg). reflexivity. Qed.
Lemma s_beta' : S "beta" = Ok (sqrt np2 / g).
Proof. rewrite s_beta. cbv zeta. rewrite (kin_gm1 np2 np2_nonneg), (kin_beta np2 np2_nonneg). reflexivity. Qed.
Lemma s_v' : S "v" = Ok (sqrt np2 / g * c).
Proof. rewrite s_v. cbv zeta. rewrite (kin_gm1 np2 np2_nonneg), (kin_beta np2 np2_nonneg). reflexivity. Qed.
Lemma gm1_one : np2 / (sqrt (1 + np2) + 1) + 1 = g.
Proof. rewrite (kin_gm1 np2 np2_nonneg). unfold g. ring. Qed.

Lemma gamma_ok : exists a, S "gamma" = Ok a /\ 1 <= a /\ a ^ 2 = 1 + psq / (P "mass" * c) ^ 2 /\ S "gamma_m1" = Ok (a - 1).
Proof.
  exists g. destruct (kin_s np2 np2_nonneg) as [A B]. split; [apply s_gamma'|]. split; [exact B|]. split; [exact A|apply s_gm1'].
Qed.
Lemma beta_ok : exists a b v, S "gamma" = Ok a /\ S "beta" = Ok b /\ S "v" = Ok v /\
  0 <= b < 1 /\ a = 1 / sqrt (1 - b ^ 2) /\ v = b * c /\ 0 <= v < c.
Proof.
  exists g, (sqrt np2 / g), (sqrt np2 / g * c). assert (B := kin_beta_bound np2 np2_nonneg). fold g in B.
  split; [apply s_gamma'|]. split; [apply s_beta'|]. split; [apply s_v'|]. split; [exact B|]. split; [symmetry; apply (kin_gamma np2 np2_nonneg)|].
  split; [reflexivity|]. split; [apply Rmult_le_pos; lra|]. rewrite <- (Rmult_1_l c) at 2. apply Rmult_lt_compat_r; lra.
Qed.
Lemma velocity_ok : exists v vx vy vz, S "v" = Ok v /\ S "vx" = Ok vx /\ S "vy" = Ok vy /\ S "vz" = Ok vz /\
  vx ^ 2 + vy ^ 2 + vz ^ 2 = v ^ 2 /\ exists a, S "gamma" = Ok a /\ a * P "mass" * vx = P "px" /\ a * P "mass" * vy = P "py" /\ a * P "mass" * vz = P "pz".
Proof.
  exists (sqrt np2 / g * c), (P "px" / (g * P "mass")), (P "py" / (g * P "mass")), (P "pz" / (g * P "mass")).
  destruct (kin_s np2 np2_nonneg) as [A B]. change (sqrt (1 + np2)) with g in A, B.
  split; [apply s_v'|]. rewrite s_vx, s_vy, s_vz, gm1_one. do 3 (split; [reflexivity|]). split.
  - replace ((sqrt np2 / g * c) ^ 2) with (sqrt np2 ^ 2 / g ^ 2 * c ^ 2) by (field; lra). rewrite (sqrt_square np2 np2_nonneg). unfold np2. field. split; [lra|]. split; lra.
  - exists g. split; [apply s_gamma'|]. repeat split; field; lra.
Qed.
Lemma energy_ok : exists p ek e0, S "p" = Ok p /\ S "Ekin" = Ok ek /\ S "Eruhe" = Ok e0 /\ 0 <= ek /\ e0 = P "mass" * c ^ 2 /\
  p ^ 2 = psq /\ (ek + e0) ^ 2 = (p * c) ^ 2 + e0 ^ 2 /\ exists a, S "gamma" = Ok a /\ ek + e0 = a * e0.
Proof.
  exists (sqrt psq), ((g - 1) * P "mass" * c ^ 2), (P "mass" * c ^ 2). destruct (kin_s np2 np2_nonneg) as [A B]. change (sqrt (1 + np2)) with g in A, B.
  split; [apply s_p|]. split; [rewrite s_ekin, (kin_gm1 np2 np2_nonneg); reflexivity|]. split; [apply s_rest|].
  assert (C2 : 0 < c ^ 2) by now apply pow_lt.
  split. { apply Rmult_le_pos; [apply Rmult_le_pos; lra|lra]. } split; [reflexivity|]. split; [apply sqrt_square, psq_nonneg|]. split.
  - replace ((sqrt psq * c) ^ 2) with (sqrt psq ^ 2 * c ^ 2) by ring. rewrite (sqrt_square psq psq_nonneg).
    replace (((g - 1) * P "mass" * c ^ 2 + P "mass" * c ^ 2) ^ 2) with (g ^ 2 * (P "mass" * c ^ 2) ^ 2) by ring. rewrite A. unfold np2, psq. field. split; lra.
  - exists g. split; [apply s_gamma'|]. ring.
Qed.
Lemma betaxyz_ok : exists b bx by_ bz vx vy vz, S "beta" = Ok b /\ S "betax" = Ok bx /\ S "betay" = Ok by_ /\ S "betaz" = Ok bz /\
  S "vx" = Ok vx /\ S "vy" = Ok vy /\ S "vz" = Ok vz /\ bx * c = vx /\ by_ * c = vy /\ bz * c = vz /\ bx ^ 2 + by_ ^ 2 + bz ^ 2 = b ^ 2.
Proof.
  exists (sqrt np2 / g), (P "px" / (g * P "mass") / c), (P "py" / (g * P "mass") / c), (P "pz" / (g * P "mass") / c),
    (P "px" / (g * P "mass")), (P "py" / (g * P "mass")), (P "pz" / (g * P "mass")).
  destruct (kin_s np2 np2_nonneg) as [A B]. change (sqrt (1 + np2)) with g in A, B.
  split; [apply s_beta'|]. rewrite <- gm1_one at 1 2 3. split; [comp|]. split; [comp|]. split; [comp|]. rewrite s_vx, s_vy, s_vz, gm1_one. do 3 (split; [reflexivity|]).
  do 3 (split; [field; split; lra|]).
  replace ((sqrt np2 / g) ^ 2) with (sqrt np2 ^ 2 / g ^ 2) by (field; lra). rewrite (sqrt_square np2 np2_nonneg). unfold np2. field. split; [lra|]. split; lra.
Qed.
Lemma raw_ok k : In k ["time"; "weight"; "id"; "mass"; "charge"; "x"; "y"; "z"; "px"; "py"; "pz"]%list -> S k = Ok (P k).
Proof. intro I. repeat (destruct I as [<-|I]; [comp|]). destruct I. Qed.
Lemma micrometre_ok k um : In (k, um) [("x", "x_um"); ("y", "y_um"); ("z", "z_um")]%list -> exists v, S um = Ok v /\ v = 1000000 * P k.
Proof. intro I. repeat (destruct I as [E|I]; [injection E as <- <-; eexists; split; [comp|ring]|]). destruct I. Qed.
Lemma relative_ok : amu <> 0 -> qe <> 0 -> exists m q, S "mass_u" = Ok m /\ S "charge_e" = Ok q /\ m * amu = P "mass" /\ q * qe = P "charge".
Proof. intros A Q. eexists. eexists. split; [comp|]. split; [comp|]. split; field; assumption. Qed.
Lemma nucleon_ok e amu_ qm : 0 < P "mass" -> amu <> 0 -> qe <> 0 -> In (e, amu_, qm) [("Ekin_MeV", "Ekin_MeV_amu", "Ekin_MeV_qm"); ("Ekin_keV", "Ekin_keV_amu", "Ekin_keV_qm")]%list ->
  exists ek m q ea eq, S e = Ok ek /\ S "mass_u" = Ok m /\ S "charge_e" = Ok q /\ S amu_ = Ok ea /\ S qm = Ok eq /\ ea * m = ek /\ eq * m = ek * q.
Proof.
  intros Mp A Q I. assert (SP := sqrt_pos (1 + np2)). repeat (destruct I as [E|I]; [injection E as <- <- <-; do 5 eexists; do 5 (split; [comp|])|]); [| |destruct I];
    fold np2; set (ek := np2 / (sqrt (1 + np2) + 1) * P "mass" * c ^ 2); split; field; repeat split; try exact Q; try exact A; lra.
Qed.
Lemma gamma_mass_ok : exists a g, S "gamma" = Ok a /\ S "gamma_m" = Ok g /\ g = a * P "mass".
Proof. do 2 eexists. split; [comp|]. split; [comp|]. reflexivity. Qed.
Lemma units_ok : qe <> 0 -> exists e mev kev, S "Ekin" = Ok e /\ S "Ekin_MeV" = Ok mev /\ S "Ekin_keV" = Ok kev /\ kev = 1000 * mev /\ mev * 1000000 * qe = e.
Proof.
  intro Q. assert (SP := sqrt_pos (1 + np2)). eexists. eexists. eexists. split; [apply s_ekin|]. split; [comp|]. split; [comp|]. fold np2. split; field; repeat split; try exact Q; try lra; try discrR.
Qed.
End Particle.
(** no assumption on mass and c *)
Section Angles.
Context (prop : string -> R) (c amu qe : R).
Open Scope string_scope.
Notation P k := (prop k).
Notation S k := (scalar prop c amu qe k).
Lemma angle_axis a b d : let r := sqrt (a ^ 2 + b ^ 2) in let p := sqrt (a ^ 2 + b ^ 2 + d ^ 2) in
  p * cos (arctan2 r d) = d /\ p * sin (arctan2 r d) = r /\ 0 <= arctan2 r d.
Proof.
  intros r p. assert (R0 : 0 <= r) by apply sqrt_pos. destruct (arctan2_polar d r) as [A B]. cbv zeta in A, B.
  assert (E : sqrt (d ^ 2 + r ^ 2) = p) by (unfold r, p; rewrite (sqrt_square _ (sum_squares_nonneg a b)); f_equal; ring).
  rewrite E in A, B. split; [exact A|]. split; [exact B|].
  assert (PI0 := PI_RGT_0). unfold arctan2. destruct (Rlt_dec 0 d) as [D|D].
  - destruct (Req_dec r 0) as [->|N]; [unfold Rdiv; rewrite Rmult_0_l, atan_0; lra|]. left. rewrite <- atan_0. apply atan_increasing.
    apply Rmult_lt_0_compat; [lra|now apply Rinv_0_lt_compat].
  - destruct (Rlt_dec d 0).
    + destruct (Rle_dec 0 r); [|lra]. assert (K := atan_bound (r / d)). lra.
    + destruct (Rlt_dec 0 r); [lra|]. destruct (Rlt_dec r 0); lra.
Qed.
Lemma angles_ok : exists p ax ay az, S "p" = Ok p /\ S "angle_xaxis" = Ok ax /\ S "angle_yaxis" = Ok ay /\ S "angle_zaxis" = Ok az /\
  p * cos ax = P "px" /\ p * cos ay = P "py" /\ p * cos az = P "pz" /\ 0 <= ax <= PI /\ 0 <= ay <= PI /\ 0 <= az <= PI.
Proof.
  eexists. eexists. eexists. eexists.
  do 4 (split; [lazy -[Rplus Rmult Rminus Rdiv Rinv sqrt pow IZR arctan2 Ropp]; reflexivity|]).
  destruct (angle_axis (P "py") (P "pz") (P "px")) as (A & _ & A'). destruct (angle_axis (P "pz") (P "px") (P "py")) as (B & _ & B').
  destruct (angle_axis (P "px") (P "py") (P "pz")) as (D & _ & D'). cbv zeta in *.
  replace (P "py" ^ 2 + P "pz" ^ 2 + P "px" ^ 2) with (P "px" ^ 2 + P "py" ^ 2 + P "pz" ^ 2) in A by ring.
  replace (P "pz" ^ 2 + P "px" ^ 2 + P "py" ^ 2) with (P "px" ^ 2 + P "py" ^ 2 + P "pz" ^ 2) in B by ring.
  split; [exact A|]. split; [exact B|]. split; [exact D|].
  split; [split; [exact A'|apply arctan2_range]|]. split; [split; [exact B'|apply arctan2_range]|split; [exact D'|apply arctan2_range]].
Qed.
Definition plane_angle (a b : string) (angle : string) : Prop :=
  exists t, S angle = Ok t /\ - PI < t <= PI /\
    let r := sqrt (P a ^ 2 + P b ^ 2) in r * cos t = P a /\ r * sin t = P b.
Lemma plane_angles_ok : plane_angle "px" "py" "angle_xy" /\ plane_angle "py" "px" "angle_yx" /\ plane_angle "py" "pz" "angle_yz" /\
  plane_angle "pz" "py" "angle_zy" /\ plane_angle "pz" "px" "angle_zx" /\ plane_angle "px" "pz" "angle_xz".
Proof.
  unfold plane_angle.
  repeat match goal with |- _ /\ _ => split end;
  (eexists; split; [lazy -[Rplus Rmult Rminus Rdiv Rinv sqrt pow IZR arctan2 Ropp]; reflexivity|]; split; [apply arctan2_range|apply arctan2_polar]).
Qed.
Lemma radii_ok : exists a b d r, S "r_xy" = Ok a /\ S "r_yz" = Ok b /\ S "r_zx" = Ok d /\ S "r_xyz" = Ok r /\
  a ^ 2 = P "x" ^ 2 + P "y" ^ 2 /\ b ^ 2 = P "y" ^ 2 + P "z" ^ 2 /\ d ^ 2 = P "z" ^ 2 + P "x" ^ 2 /\ 2 * r ^ 2 = a ^ 2 + b ^ 2 + d ^ 2 /\
  0 <= a /\ 0 <= b /\ 0 <= d /\ 0 <= r.
Proof.
  eexists. eexists. eexists. eexists.
  do 4 (split; [lazy -[Rplus Rmult Rminus Rdiv Rinv sqrt pow IZR arctan2 Ropp]; reflexivity|]).
  assert (X := square_nonneg (P "x")). assert (Y := square_nonneg (P "y")). assert (Z := square_nonneg (P "z")).
  rewrite !sqrt_square by lra. repeat (split; [try ring; apply sqrt_pos|]). apply sqrt_pos.
Qed.
End Angles.
Lemma plane_angles_all prop c amu qe a b angle :
  In (a, b, angle) [("px", "py", "angle_xy"); ("py", "px", "angle_yx"); ("py", "pz", "angle_yz"); ("pz", "py", "angle_zy");
                    ("pz", "px", "angle_zx"); ("px", "pz", "angle_xz")]%string%list -> plane_angle prop c amu qe a b angle.
Proof.
  destruct (plane_angles_ok prop c amu qe) as (A & B & C & D & E & F). intro I.
  repeat (destruct I as [I|I]; [injection I as <- <- <-; assumption|]). destruct I.
Qed.
Lemma polar_range x y : 0 <= snd (linear2polar x y) /\ - PI < fst (linear2polar x y) <= PI /\ (snd (linear2polar x y) = 0 <-> x = 0 /\ y = 0).
Proof. split; [apply radius_nonneg|]. split; [apply arctan2_range|apply radius_zero]. Qed.
Lemma jacdet_negative : exists theta r, jac_det polar2linear_jac theta r <> Ok (polar2linear_jacdet theta r).
Proof.
  exists 0, (-1). unfold jac_det, polar2linear_jac, polar2linear_jacdet. intro H. injection H as H.
  assert (K := Rabs_pos (- -1 * sin 0 * sin 0 - cos 0 * (-1 * cos 0))). lra.
Qed.
Lemma linear_derivative k r : derivable_pt_lim (fun s => s * k) r k.
Proof.
  intros e E. exists (mkposreal 1 Rlt_0_1). intros h H _. replace (((r + h) * k - r * k) / h - k) with 0 by (field; exact H).
  rewrite Rabs_R0. exact E.
Qed.
Lemma jac_derivative theta r : exists a b c d, polar2linear_jac theta r = [[a; b]; [c; d]]%list /\
    derivable_pt_lim (fun t => fst (polar2linear t r)) theta a /\ derivable_pt_lim (fun s => fst (polar2linear theta s)) r b /\
    derivable_pt_lim (fun t => snd (polar2linear t r)) theta c /\ derivable_pt_lim (fun s => snd (polar2linear theta s)) r d.
Proof.
  unfold polar2linear, polar2linear_jac. cbn [fst snd]. do 4 eexists. split; [reflexivity|]. repeat split.
  - replace (- r * sin theta) with (r * - sin theta) by ring. apply (derivable_pt_lim_scal cos r theta (- sin theta)), derivable_pt_lim_cos.
  - apply linear_derivative.
  - apply (derivable_pt_lim_scal sin r theta (cos theta)), derivable_pt_lim_sin.
  - apply linear_derivative.
Qed.
Lemma approx_limit f x l : x <> -1 -> derivable_pt_lim f x l ->
  forall e, 0 < e -> exists h, 0 < h /\ forall eps, 0 < eps < h ->
    exists d, approx_1d_jacobian_det eps f x = Some d /\ Rabs (d - Rabs l) < e.
Proof.
  intros X D e E. destruct (D e E) as [delta H].
  assert (AX : 0 < Rabs (1 + x)) by (apply Rabs_pos_lt; lra).
  exists (delta / Rabs (1 + x)). split; [apply Rdiv_lt_0_compat; [apply cond_pos|exact AX]|]. intros eps [E0 E1].
  set (dx := eps + eps * x).
  assert (DX : dx <> 0). { unfold dx. replace (eps + eps * x) with (eps * (1 + x)) by ring. apply Rmult_integral_contrapositive_currified; lra. }
  assert (AD : Rabs dx < delta).
  { unfold dx. replace (eps + eps * x) with (eps * (1 + x)) by ring. rewrite Rabs_mult, (Rabs_pos_eq eps) by lra.
    apply (Rmult_lt_compat_r (Rabs (1 + x))) in E1; [|exact AX]. replace (delta / Rabs (1 + x) * Rabs (1 + x)) with (pos delta) in E1 by (field; lra). exact E1. }
  assert (P := H dx DX AD). assert (N := H (- dx) (Ropp_neq_0_compat _ DX) ltac:(rewrite Rabs_Ropp; exact AD)).
  unfold approx_1d_jacobian_det. fold dx. destruct (Req_EM_T (2 * dx) 0) as [Z|Z]; [lra|]. eexists. split; [reflexivity|].
  eapply Rle_lt_trans; [apply Rabs_triang_inv2|].
  replace ((f (x + dx) - f (x - dx)) / (2 * dx) - l) with (((f (x + dx) - f x) / dx - l) / 2 + ((f (x + - dx) - f x) / - dx - l) / 2)
    by (replace (x + - dx) with (x - dx) by ring; field; lra).
  eapply Rle_lt_trans; [apply Rabs_triang|]. unfold Rdiv at 1 3. rewrite !Rabs_mult, (Rabs_pos_eq (/ 2)) by lra. lra.
Qed.
Lemma approx_undefined : exists eps x, 0 < eps /\ approx_1d_jacobian_det eps (fun t => t) x = None.
Proof. exists 1, (-1). split; [lra|]. apply approx_defined; lra. Qed.
Lemma approx_case : approx_1d_jacobian_det (1/2) (fun t => 3 * t ^ 2 + 0 * t + 1) 1 = Some 6.
Proof.
  unfold approx_1d_jacobian_det. destruct (Req_EM_T _ 0) as [Z|Z]; [lra|]. f_equal.
  match goal with |- Rabs ?a = _ => replace a with 6 by field end. apply Rabs_pos_eq. lra.
Qed.
