(** The relativistic particle scalars (C41), polar coordinates (C49), and the numerical
    derivative of coordinate transforms (C74), over the real numbers.
    [scalar prop c amu qe s] is the value of the default scalar or expression s for a particle
    with the raw properties prop, where c, amu, qe are the constants of scipy.constants.  No
    divisor is zero under the stated hypotheses. *)
From Coq Require Import Reals Lra.
From Verif Require Import PyBase PyBaseFacts NumpyModel NdModel RegistryModel RealModel RealFacts RealDemo.
Open Scope list_scope.
Open Scope string_scope.
Open Scope R_scope.

Theorem C41_gamma : forall prop c amu qe, 0 < prop "mass" -> 0 < c ->
  exists a, scalar prop c amu qe "gamma" = Ok a /\ 1 <= a /\
    a ^ 2 = 1 + (prop "px" ^ 2 + prop "py" ^ 2 + prop "pz" ^ 2) / (prop "mass" * c) ^ 2 /\
    scalar prop c amu qe "gamma_m1" = Ok (a - 1).
Proof. exact gamma_ok. Qed.
Print Assumptions C41_gamma.
Theorem C41_beta : forall prop c amu qe, 0 < prop "mass" -> 0 < c ->
  exists a b v, scalar prop c amu qe "gamma" = Ok a /\ scalar prop c amu qe "beta" = Ok b /\ scalar prop c amu qe "v" = Ok v /\
    0 <= b < 1 /\ a = 1 / sqrt (1 - b ^ 2) /\ v = b * c /\ 0 <= v < c.
Proof. exact beta_ok. Qed.
Print Assumptions C41_beta.
Theorem C41_velocity : forall prop c amu qe, 0 < prop "mass" -> 0 < c ->
  exists v vx vy vz, scalar prop c amu qe "v" = Ok v /\ scalar prop c amu qe "vx" = Ok vx /\ scalar prop c amu qe "vy" = Ok vy /\
    scalar prop c amu qe "vz" = Ok vz /\ vx ^ 2 + vy ^ 2 + vz ^ 2 = v ^ 2 /\
    exists a, scalar prop c amu qe "gamma" = Ok a /\
      a * prop "mass" * vx = prop "px" /\ a * prop "mass" * vy = prop "py" /\ a * prop "mass" * vz = prop "pz".
Proof. exact velocity_ok. Qed.
Print Assumptions C41_velocity.
Theorem C41_energy : forall prop c amu qe, 0 < prop "mass" -> 0 < c ->
  exists p ek e0, scalar prop c amu qe "p" = Ok p /\ scalar prop c amu qe "Ekin" = Ok ek /\ scalar prop c amu qe "Eruhe" = Ok e0 /\
    0 <= ek /\ e0 = prop "mass" * c ^ 2 /\ p ^ 2 = prop "px" ^ 2 + prop "py" ^ 2 + prop "pz" ^ 2 /\
    (ek + e0) ^ 2 = (p * c) ^ 2 + e0 ^ 2 /\ exists a, scalar prop c amu qe "gamma" = Ok a /\ ek + e0 = a * e0.
Proof. exact energy_ok. Qed.
Print Assumptions C41_energy.
Theorem C41_components : forall prop c amu qe, 0 < prop "mass" -> 0 < c ->
  exists b bx by_ bz vx vy vz, scalar prop c amu qe "beta" = Ok b /\ scalar prop c amu qe "betax" = Ok bx /\
    scalar prop c amu qe "betay" = Ok by_ /\ scalar prop c amu qe "betaz" = Ok bz /\ scalar prop c amu qe "vx" = Ok vx /\
    scalar prop c amu qe "vy" = Ok vy /\ scalar prop c amu qe "vz" = Ok vz /\
    bx * c = vx /\ by_ * c = vy /\ bz * c = vz /\ bx ^ 2 + by_ ^ 2 + bz ^ 2 = b ^ 2.
Proof. exact betaxyz_ok. Qed.
Print Assumptions C41_components.
Theorem C41_units : forall prop c amu qe, 0 < prop "mass" -> 0 < c -> qe <> 0 ->
  exists e mev kev, scalar prop c amu qe "Ekin" = Ok e /\ scalar prop c amu qe "Ekin_MeV" = Ok mev /\
    scalar prop c amu qe "Ekin_keV" = Ok kev /\ kev = 1000 * mev /\ mev * 1000000 * qe = e.
Proof. exact (fun prop c amu qe _ _ => units_ok prop c amu qe). Qed.
Print Assumptions C41_units.
Theorem C41_raw : forall prop c amu qe k, In k ["time"; "weight"; "id"; "mass"; "charge"; "x"; "y"; "z"; "px"; "py"; "pz"]%list ->
  scalar prop c amu qe k = Ok (prop k).
Proof. exact raw_ok. Qed.
Print Assumptions C41_raw.
Theorem C41_micrometre : forall prop c amu qe k um, In (k, um) [("x", "x_um"); ("y", "y_um"); ("z", "z_um")]%list ->
  exists v, scalar prop c amu qe um = Ok v /\ v = 1000000 * prop k.
Proof. exact micrometre_ok. Qed.
Print Assumptions C41_micrometre.
Theorem C41_atomic_units : forall prop c amu qe, amu <> 0 -> qe <> 0 ->
  exists m q, scalar prop c amu qe "mass_u" = Ok m /\ scalar prop c amu qe "charge_e" = Ok q /\ m * amu = prop "mass" /\ q * qe = prop "charge".
Proof. exact relative_ok. Qed.
Print Assumptions C41_atomic_units.
Theorem C41_per_nucleon : forall prop c amu qe e amu_ qm, 0 < prop "mass" -> amu <> 0 -> qe <> 0 ->
  In (e, amu_, qm) [("Ekin_MeV", "Ekin_MeV_amu", "Ekin_MeV_qm"); ("Ekin_keV", "Ekin_keV_amu", "Ekin_keV_qm")]%list ->
  exists ek m q ea eq, scalar prop c amu qe e = Ok ek /\ scalar prop c amu qe "mass_u" = Ok m /\ scalar prop c amu qe "charge_e" = Ok q /\
    scalar prop c amu qe amu_ = Ok ea /\ scalar prop c amu qe qm = Ok eq /\ ea * m = ek /\ eq * m = ek * q.
Proof. exact (fun prop c amu qe e amu_ qm M => nucleon_ok prop c amu qe M e amu_ qm M). Qed.
Print Assumptions C41_per_nucleon.
Theorem C41_gamma_mass : forall prop c amu qe,
  exists a g, scalar prop c amu qe "gamma" = Ok a /\ scalar prop c amu qe "gamma_m" = Ok g /\ g = a * prop "mass".
Proof. exact gamma_mass_ok. Qed.
Print Assumptions C41_gamma_mass.
Theorem C41_axis_angles : forall prop c amu qe,
  exists p ax ay az, scalar prop c amu qe "p" = Ok p /\ scalar prop c amu qe "angle_xaxis" = Ok ax /\
    scalar prop c amu qe "angle_yaxis" = Ok ay /\ scalar prop c amu qe "angle_zaxis" = Ok az /\
    p * cos ax = prop "px" /\ p * cos ay = prop "py" /\ p * cos az = prop "pz" /\ 0 <= ax <= PI /\ 0 <= ay <= PI /\ 0 <= az <= PI.
Proof. exact angles_ok. Qed.
Print Assumptions C41_axis_angles.
Theorem C41_plane_angles : forall prop c amu qe a b angle,
  In (a, b, angle) [("px", "py", "angle_xy"); ("py", "px", "angle_yx"); ("py", "pz", "angle_yz"); ("pz", "py", "angle_zy");
                    ("pz", "px", "angle_zx"); ("px", "pz", "angle_xz")]%list ->
  exists t, scalar prop c amu qe angle = Ok t /\ - PI < t <= PI /\
    let r := sqrt (prop a ^ 2 + prop b ^ 2) in r * cos t = prop a /\ r * sin t = prop b.
Proof. exact plane_angles_all. Qed.
Print Assumptions C41_plane_angles.
Theorem C41_radii : forall prop c amu qe,
  exists a b d r, scalar prop c amu qe "r_xy" = Ok a /\ scalar prop c amu qe "r_yz" = Ok b /\ scalar prop c amu qe "r_zx" = Ok d /\
    scalar prop c amu qe "r_xyz" = Ok r /\
    a ^ 2 = prop "x" ^ 2 + prop "y" ^ 2 /\ b ^ 2 = prop "y" ^ 2 + prop "z" ^ 2 /\ d ^ 2 = prop "z" ^ 2 + prop "x" ^ 2 /\
    2 * r ^ 2 = a ^ 2 + b ^ 2 + d ^ 2 /\ 0 <= a /\ 0 <= b /\ 0 <= d /\ 0 <= r.
Proof. exact radii_ok. Qed.
Print Assumptions C41_radii.
(** every default scalar can be asked for by its symbol and by its expression, with one result *)
Theorem C41_defaults : forall prop c amu qe p, 0 < prop "mass" -> 0 < c -> 0 < amu -> 0 < qe -> In p default_scalars ->
  exists s v, sp_symbol p = Some s /\ scalar prop c amu qe s = Ok v /\ scalar prop c amu qe (sp_expr p) = Ok v.
Proof. exact (fun prop c amu qe p _ _ _ _ => all_defined prop c amu qe p). Qed.
Print Assumptions C41_defaults.
Example C41_case : scalar demo_prop (15/8) 1 1 "gamma" = Ok (5/3) /\ scalar demo_prop (15/8) 1 1 "beta" = Ok (4/5) /\
  scalar demo_prop (15/8) 1 1 "p" = Ok 5.
Proof. exact demo_gamma. Qed.

Theorem C49_there_and_back : forall x y, polar2linear (fst (linear2polar x y)) (snd (linear2polar x y)) = (x, y).
Proof. exact linear_polar_linear. Qed.
Print Assumptions C49_there_and_back.
Theorem C49_back_and_there : forall theta r, 0 < r -> - PI < theta <= PI ->
  linear2polar (fst (polar2linear theta r)) (snd (polar2linear theta r)) = (theta, r).
Proof. exact polar_linear_polar. Qed.
Print Assumptions C49_back_and_there.
Theorem C49_range : forall x y, 0 <= snd (linear2polar x y) /\ - PI < fst (linear2polar x y) <= PI /\
  (snd (linear2polar x y) = 0 <-> x = 0 /\ y = 0).
Proof. exact polar_range. Qed.
Print Assumptions C49_range.
Theorem C49_jacobian : forall theta r, 0 <= r -> jac_det polar2linear_jac theta r = Ok (polar2linear_jacdet theta r).
Proof. exact jacdet_ok. Qed.
Print Assumptions C49_jacobian.
(** the entries of the matrix are the partial derivatives *)
Theorem C49_derivative : forall theta r,
  exists a b c d, polar2linear_jac theta r = [[a; b]; [c; d]]%list /\
    derivable_pt_lim (fun t => fst (polar2linear t r)) theta a /\ derivable_pt_lim (fun s => fst (polar2linear theta s)) r b /\
    derivable_pt_lim (fun t => snd (polar2linear t r)) theta c /\ derivable_pt_lim (fun s => snd (polar2linear theta s)) r d.
Proof. exact jac_derivative. Qed.
Print Assumptions C49_derivative.
(** for negative radii the formula gives the determinant with the wrong sign *)
Theorem C49_jacobian_refuted : exists theta r, jac_det polar2linear_jac theta r <> Ok (polar2linear_jacdet theta r).
Proof. exact jacdet_negative. Qed.
Print Assumptions C49_jacobian_refuted.
Theorem C49_radii_cover : forall gx gy lo hi x y,
  polar_radii gx gy = Ok (lo, hi) -> In x gx -> In y gy -> lo <= snd (linear2polar x y) <= hi.
Proof. exact radii_cover. Qed.
Print Assumptions C49_radii_cover.
Theorem C49_radii_defined : forall gx gy, gx <> []%list -> gy <> []%list -> exists p, polar_radii gx gy = Ok p.
Proof. exact radii_defined. Qed.
Print Assumptions C49_radii_defined.
Example C49_case : linear2polar 0 2 = (PI / 2, 2) /\ linear2polar (-1) 0 = (PI, 1) /\ polar_radii [-1; 2] [0; 3] = Ok (1, sqrt 13).
Proof. exact (conj (proj1 demo_polar) (conj (proj2 demo_polar) demo_radii)). Qed.

Theorem C74_quadratic : forall eps a b c x d,
  approx_1d_jacobian_det eps (fun t => a * t ^ 2 + b * t + c) x = Some d -> d = Rabs (2 * a * x + b).
Proof. exact approx_quadratic. Qed.
Print Assumptions C74_quadratic.
Theorem C74_defined : forall eps f x, 0 < eps -> (approx_1d_jacobian_det eps f x = None <-> x = -1).
Proof. exact approx_defined. Qed.
Print Assumptions C74_defined.
(** as the step shrinks the result tends to the absolute value of the derivative *)
Theorem C74_limit : forall f x l, x <> -1 -> derivable_pt_lim f x l ->
  forall e, 0 < e -> exists h, 0 < h /\ forall eps, 0 < eps < h ->
    exists d, approx_1d_jacobian_det eps f x = Some d /\ Rabs (d - Rabs l) < e.
Proof. exact approx_limit. Qed.
Print Assumptions C74_limit.
Theorem C74_minus_one_refuted : exists eps x, 0 < eps /\ approx_1d_jacobian_det eps (fun t => t) x = None.
Proof. exact approx_undefined. Qed.
Print Assumptions C74_minus_one_refuted.
Example C74_case : approx_1d_jacobian_det (1/2) (fun t => 3 * t ^ 2 + 0 * t + 1) 1 = Some 6.
Proof. exact approx_case. Qed.
