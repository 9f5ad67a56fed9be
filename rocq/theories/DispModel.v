(** Model of the dispersion relations and of the constants: postpic/helper.py,
    PhysicalConstants (154-180), omega_yee_factory (517-532) and omega_free (535-543).  The sums over
    the mesh are in KspaceModel; here a frequency which is nan in the code is [None].
    No proofs in this file. *)
From Coq Require Import Reals.
From Verif Require Import PyBase NdModel FftModel KspaceModel.
Local Open Scope R_scope.

(** the components of the wave vector at one point of the mesh *)
Definition kvector (axes : list raxis) (idx : list Z) : list R := map (fun i => mesh axes i idx) (zrange (Z.of_nat (length axes))).
(** 529: zip stops at the shorter list *)
Definition yee_sum (ks dx : list R) : R := fold_right Rplus 0 (map (fun p => (sin (/ 2 * fst p * snd p) / snd p) ^ 2) (combine ks dx)).
(** 530: arcsin of a number above one, and 0/0, are nan *)
Definition yee_frequency (c : R) (dx : list R) (dt : R) (ks : list R) : option R :=
  if Req_EM_T dt 0 then None
  else if Rlt_dec 1 (Rabs (c * dt * sqrt (yee_sum ks dx))) then None
  else Some (2 * asin (c * dt * sqrt (yee_sum ks dx)) / dt).
(** 542-543 *)
Definition free_frequency (c : R) (ks : list R) : R := c * sqrt (fold_right Rplus 0 (map (fun k => k ^ 2) ks)).

(** * PhysicalConstants, 159-164, in SI units *)
Definition pc_c : R := 299792458.
Definition pc_me : R := 9109383 / 10 ^ 37.
Definition pc_mass_u : R := pc_me * (18362 / 10).
Definition pc_qe : R := 1602176565 / 10 ^ 28.
Definition pc_mu0 : R := PI * (4 / 10 ^ 7).
Definition pc_epsilon0 : R := 1 / (pc_mu0 * pc_c ^ 2).
(** 167-172; a wavelength of zero raises ZeroDivisionError *)
Definition ncrit_um (lambda_um : R) : res R := if Req_EM_T lambda_um 0 then Err ZeroDivisionError else Ok (111 * 10 ^ 25 * 1 / lambda_um ^ 2).
(** 175-180 *)
Definition ncrit (laslambda : R) : res R := ncrit_um (laslambda * 10 ^ 6).
