(** Specification of the linear shift of grids (C91). *)
From Coq Require Import Reals String List ZArith.
From Verif Require Import PyBase NumpyModel NdModel CplxModel FftModel FftSpec UnstagModel MapSpec.
Import ListNotations.
Local Open Scope R_scope.

(** the position x, or the end of the grid which is nearest *)
Definition nearest (u : uni) (x : R) : R := Rmax (u_x0 u) (Rmin x (point u (Z.of_nat (u_n u) - 1))).
Definition nearest_index (n i : Z) : Z := Z.max 0 (Z.min i (n - 1)).
(** by how much dimension a is moved *)
Definition shift_of (A : list nat) (d : nat -> R) (a : nat) : R := if existsb (Nat.eqb a) A then d a else 0.
(** the grids are moved by d along the dimensions A; there, name and unit are empty *)
Definition moved_axes (A : list nat) (d : nat -> R) (U : nat -> uni) (f g : sfield) : Prop :=
  length (rf_axes (sf_field g)) = length (rf_axes (sf_field f)) /\
  forall a ax, nth_error (rf_axes (sf_field f)) a = Some ax -> exists ax', nth_error (rf_axes (sf_field g)) a = Some ax' /\
    (if existsb (Nat.eqb a) A
     then axis_is ax' (moved_by (d a) (U a)) /\ ra_name ax' = EmptyString /\ ra_unit ax' = EmptyString
     else ax' = ax).
Definition same_rest (f g : sfield) : Prop :=
  sf_real g = sf_real f /\ a_shape (rf_data (sf_field g)) = a_shape (rf_data (sf_field f)) /\ rf_ats (sf_field g) = rf_ats (sf_field f) /\ rf_tao (sf_field g) = rf_tao (sf_field f).
Definition value (f : sfield) (idx : list Z) : R := fst (a_at (rf_data (sf_field f)) idx).
(** sum of b_a x_a *)
Definition weighted (nd : nat) (b x : nat -> R) : R := fold_right Rplus 0 (map (fun a => b a * x a) (seq 0 nd)).
