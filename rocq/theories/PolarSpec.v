(** Specification of the transformation to polar coordinates (C90). *)
From Coq Require Import Reals String Ascii List ZArith.
From Verif Require Import PyBase NumpyModel NdModel CplxModel FftModel FftSpec UnstagModel MapModel MapSpec.
Import ListNotations.
Local Open Scope R_scope.

(** n points from a to b, both included *)
Definition from_to (a b : R) (n : Z) : uni := mkuni (Z.to_nat n) a ((b - a) / IZR (n - 1)).
(** the name of the radius: k if that of the first axis starts with k *)
Definition radius_name (s : string) : string := match s with String "k"%char _ => "k"%string | _ => "r"%string end.
Definition polar_axes (f g : sfield) (T Q : uni) : Prop :=
  exists ax theta r, nth_error (rf_axes (sf_field f)) 0 = Some ax /\ rf_axes (sf_field g) = [theta; r] /\ axis_is theta T /\ axis_is r Q /\
    ra_name theta = "theta"%string /\ ra_unit theta = "rad"%string /\ ra_name r = radius_name (ra_name ax) /\ ra_unit r = ra_unit ax.
Definition polar_rest (f g : sfield) (n m : Z) : Prop :=
  sf_real g = sf_real f /\ a_shape (rf_data (sf_field g)) = [n; m] /\ rf_tao (sf_field g) = [None; None] /\
  exists b, new_domain f b /\ rf_ats (sf_field g) = [Some b; Some b].
(** the distance of the grid point (i, j) from the origin *)
Definition distance (U : nat -> uni) (i j : Z) : R := sqrt (point (U 0%nat) i ^ 2 + point (U 1%nat) j ^ 2).
(** lo and hi are the smallest and the largest of these distances *)
Definition on_plane (U : nat -> uni) (i j : Z) : Prop := (0 <= i < Z.of_nat (u_n (U 0%nat)))%Z /\ (0 <= j < Z.of_nat (u_n (U 1%nat)))%Z.
Definition distances (U : nat -> uni) (lo hi : R) : Prop :=
  (forall i j, on_plane U i j -> lo <= distance U i j <= hi) /\ (exists i j, on_plane U i j /\ distance U i j = lo) /\ (exists i j, on_plane U i j /\ distance U i j = hi).
(** the interpolated value at the angle theta and the radius r *)
Definition polar_value (interp : nda R -> list R -> R) (unwrap : option (nda R -> nda R)) (f : sfield) (U : nat -> uni) (mode : cmode) (preserve : bool) (theta r : R) : C :=
  Cmul (value_at interp unwrap f mode [pixel (U 0%nat) (r * cos theta); pixel (U 1%nat) (r * sin theta)]) (RtoC (if preserve then r else 1)).
(** data which are c everywhere stay c inside the grid *)
Definition keeps_constants (interp : nda R -> list R -> R) : Prop :=
  forall a c p, Forall2 (fun n x => 0 <= x <= IZR (n - 1)) (a_shape a) p -> (forall idx, in_shape (a_shape a) idx = true -> a_at a idx = c) -> interp a p = c.
(** the largest whole number below x, but at most 1000 *)
Definition whole_below (x : R) (n : Z) : Prop := (n = 1000%Z /\ 1000 <= x) \/ ((n < 1000)%Z /\ IZR n <= x < IZR n + 1).
