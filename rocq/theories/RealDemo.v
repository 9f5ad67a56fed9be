(** Concrete cases for PropReal. *)
From Coq Require Import Reals Lra.
From Verif Require Import PyBase PyBaseFacts NumpyModel NdModel RegistryModel RealModel RealFacts.
Open Scope string_scope.
Open Scope R_scope.
(** a particle of mass 2 with momentum (3, 4, 0) where light has speed 5/4 *)
Definition demo_prop (k : string) : R :=
  if String.eqb k "mass" then 2 else if String.eqb k "px" then 3 else if String.eqb k "py" then 4 else if String.eqb k "charge" then 1 else
  if String.eqb k "x" then 1 else 0.
Lemma demo_gamma : scalar demo_prop (15/8) 1 1 "gamma" = Ok (5/3) /\ scalar demo_prop (15/8) 1 1 "beta" = Ok (4/5) /\
  scalar demo_prop (15/8) 1 1 "p" = Ok 5.
Proof.
  assert (M : 0 < demo_prop "mass") by (cbn; lra). assert (C : 0 < 15/8) by lra.
  destruct (gamma_ok demo_prop (15/8) 1 1 M C) as (a & A & A1 & A2 & _).
  destruct (beta_ok demo_prop (15/8) 1 1 M C) as (a' & b & v & A' & B & _ & B0 & E & _).
  destruct (energy_ok demo_prop (15/8) 1 1 M C) as (p & ek & e0 & P & _ & _ & _ & _ & P2 & _).
  unfold psq in A2, P2. unfold demo_prop in A2, P2. simpl in A2, P2.
  assert (KA : a = 5/3). { assert (K : (a - 5/3) * (a + 5/3) = 0) by lra. apply Rmult_integral in K. lra. }
  split; [rewrite A; now f_equal|]. rewrite A in A'. injection A' as A'. split.
  - rewrite B. f_equal. rewrite <- A', KA in E.
    assert (b2 : 0 < 1 - b ^ 2). { assert (b ^ 2 < 1); [|lra]. simpl. rewrite Rmult_1_r. rewrite <- (Rmult_1_r 1). apply Rmult_le_0_lt_compat; lra. }
    assert (S := sqrt_lt_R0 _ b2).
    assert (E' : sqrt (1 - b ^ 2) = 3/5). { apply (Rmult_eq_reg_l (5/3)); [|lra]. rewrite E at 1. field. lra. }
    assert (Q : sqrt (1 - b ^ 2) ^ 2 = 1 - b ^ 2) by (apply sqrt_square; lra). rewrite E' in Q. simpl in Q.
    assert (K : (b - 4/5) * (b + 4/5) = 0) by lra. apply Rmult_integral in K. lra.
  - rewrite P. f_equal. assert (P0 : 0 <= p). { revert P. unfold scalar. lazy -[Rplus Rmult Rminus Rdiv Rinv sqrt pow IZR arctan2 Ropp Rle]. intro H. injection H as <-. apply sqrt_pos. }
    assert (K : (p - 5) * (p + 5) = 0) by lra. apply Rmult_integral in K. lra.
Qed.
Lemma demo_polar : linear2polar 0 2 = (PI / 2, 2) /\ linear2polar (-1) 0 = (PI, 1).
Proof.
  unfold linear2polar, arctan2. split; f_equal.
  - destruct (Rlt_dec 0 0); [lra|]. destruct (Rlt_dec 0 2); lra.
  - rewrite sqrt_axis, Rabs_pos_eq; lra.
  - destruct (Rlt_dec 0 (-1)); [lra|]. destruct (Rlt_dec (-1) 0); [|lra]. destruct (Rle_dec 0 0); [|lra].
    replace (0 / -1) with 0 by field. rewrite atan_0. lra.
  - replace ((-1)^2 + 0^2) with 1 by ring. apply sqrt_1.
Qed.
Lemma demo_radii : polar_radii [-1; 2] [0; 3] = Ok (1, sqrt 13).
Proof.
  unfold polar_radii. cbn [map rmin_list rmax_list fold_left bind]. rewrite (Rabs_left (-1)), (Rabs_pos_eq 2), (Rabs_pos_eq 0), (Rabs_pos_eq 3) by lra.
  rewrite (Rmin_left (- -1) 2), (Rmin_left 0 3), (Rmax_right (- -1) 2), (Rmax_right 0 3) by lra. f_equal. f_equal.
  - replace ((- -1) ^ 2 + 0 ^ 2) with 1 by ring. apply sqrt_1.
  - f_equal. ring.
Qed.
