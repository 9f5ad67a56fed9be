(** Specification of the interpolation to other grids (C89-C91): points of grids, positions in pixels,
    and what is asked of the interpolation of scipy and of the unwrapping of skimage. *)
From Coq Require Import Reals List ZArith.
From Verif Require Import PyBase NumpyModel NdModel CplxModel FftModel FftSpec UnstagModel RealModel MapModel.
Import ListNotations.
Local Open Scope R_scope.

(** nd dimensions with uniform axes U *)
Definition uniform_field (f : sfield) (nd : nat) (U : nat -> uni) : Prop :=
  consistent (sf_field f) /\ ndim (sf_field f) = nd /\ (0 < nd)%nat /\ on_grid (sf_field f) (seq 0 nd) U.
(** x are the coordinates of the point idx of the grid spanned by the axes *)
Definition at_point (axes : list raxis) (idx : list Z) (x : list R) : Prop :=
  length x = length axes /\ length idx = length axes /\
  (forall a ax, nth_error axes a = Some ax -> exists i, nth_error idx a = Some i /\ (0 <= i)%Z /\ nth_error (ra_grid ax) (Z.to_nat i) = nth_error x a).
(** the position of x on a uniform grid, in pixels *)
Definition pixel (u : uni) (x : R) : R := (x - u_x0 u) / u_dx u.
(** the grids of the new axes *)
Definition spans (axes : list raxis) (sh : list Z) : Prop := sh = map (fun ax => Z.of_nat (length (ra_grid ax))) axes.
(** the interpolation of one part of the data *)
Definition real_at (interp : nda R -> list R -> R) (h : C -> R) (d : nda C) (p : list R) : R :=
  interp (mkarr (a_shape d) (fun idx => h (a_at d idx))) p.
(** the interpolation goes through the data *)
Definition through_points (interp : nda R -> list R -> R) : Prop :=
  forall a idx, in_shape (a_shape a) idx = true -> interp a (map IZR idx) = a_at a idx.
(** mode='constant': zero beyond the first and the last point *)
Definition zero_outside (interp : nda R -> list R -> R) : Prop :=
  forall a p, (exists k x n, nth_error p k = Some x /\ nth_error (a_shape a) k = Some n /\ (x < 0 \/ IZR (n - 1) < x)) -> interp a p = 0.
(** unwrapping adds whole turns *)
Definition whole_turns (unwrap : option (nda R -> nda R)) : Prop :=
  forall u, unwrap = Some u -> forall a, a_shape (u a) = a_shape a /\
    forall idx, in_shape (a_shape a) idx = true -> exists k : Z, a_at (u a) idx = a_at a idx + IZR k * (2 * PI).

(** the domain of the result: that of all axes if they agree, otherwise the spatial domain *)
Definition new_domain (f : sfield) (b : bool) : Prop :=
  b = true <-> Forall (fun s => s = Some true) (rf_ats (sf_field f)).
(** the interpolated value of a field at the position p: real data as they are; complex data by real and
    imaginary part, or by modulus and phase *)
Definition modulus (z : C) : R := sqrt (fst z ^ 2 + snd z ^ 2).
Definition value_at (interp : nda R -> list R -> R) (unwrap : option (nda R -> nda R)) (f : sfield) (mode : cmode) (p : list R) : C :=
  let d := rf_data (sf_field f) in
  let angle := mkarr (a_shape d) (fun idx => arctan2 (snd (a_at d idx)) (fst (a_at d idx))) in
  if sf_real f then RtoC (real_at interp fst d p)
  else match mode with
       | Cartesian => (real_at interp fst d p, real_at interp snd d p)
       | Polar => Cmul (RtoC (real_at interp modulus d p)) (cis (interp (match unwrap with Some u => u angle | None => angle end) p))
       | _ => Cmul (RtoC (real_at interp modulus d p)) (cis (interp angle p))
       end.
Definition accepted (f : sfield) (mode : cmode) : Prop := sf_real f = true \/ mode <> OtherMode.
Definition same_shapes (unwrap : option (nda R -> nda R)) : Prop := forall u, unwrap = Some u -> forall a, a_shape (u a) = a_shape a.

(** the functions which are applied: those of the transform, or the coordinates themselves *)
Definition functions (T : option (list coord_fun)) (n : nat) : list coord_fun := match T with Some T => T | None => map (fun a x => nth a x 0) (seq 0 n) end.
(** the imaginary part of real data is zero *)
Definition real_data (f : sfield) : Prop := sf_real f = true -> forall idx, snd (a_at (rf_data (sf_field f)) idx) = 0.
(** strictly increasing or strictly decreasing *)
Definition ordered (x : list R) : Prop :=
  (forall i j, (i < j < length x)%nat -> nth i x 0 < nth j x 0) \/ (forall i j, (i < j < length x)%nat -> nth j x 0 < nth i x 0).
(** affine transforms: coordinate a is c_a + sum over b of A_ab x_b *)
Definition dot (r x : list R) : R := fold_right Rplus 0 (map2 Rmult r x).
Definition affine_map (m : nat) (T : list coord_fun) (A : list (list R)) (c : list R) : Prop :=
  length T = m /\ length A = m /\ length c = m /\
  forall a t row c0, nth_error T a = Some t -> nth_error A a = Some row -> nth_error c a = Some c0 ->
    length row = m /\ forall x, length x = m -> t x = c0 + dot row x.
(** the factor for the integral: nothing without transform, otherwise the determinant given *)
Definition weight (T : option (list coord_fun)) (jdet : option coord_fun) (x : list R) : R :=
  match T, jdet with Some _, Some d => d x | _, _ => 1 end.
(** one or more new axes with one point or more *)
Definition new_axes_ok (axes : list raxis) : Prop := axes <> [] /\ Forall (fun ax => ra_grid ax <> []) axes.
(** the result of an interpolation: kind of data, axes, shape, domain and remembered origins *)
Definition labelled (f g : sfield) (axes : list raxis) : Prop :=
  sf_real g = sf_real f /\ rf_axes (sf_field g) = axes /\ spans axes (a_shape (rf_data (sf_field g))) /\
  (exists b, new_domain f b /\ rf_ats (sf_field g) = repeat (Some b) (length axes)) /\ rf_tao (sf_field g) = repeat None (length axes).
(** the grids as functions of the dimension *)
Definition grids (axes : list raxis) (V : nat -> uni) : Prop := forall a ax, nth_error axes a = Some ax -> ra_grid ax = grid_of (V a) /\ proper (V a).
(** the sum of the data times the volume of a cell *)
Definition integral (h : C -> R) (f : sfield) (U : nat -> uni) : R :=
  total (a_shape (rf_data (sf_field f))) (fun idx => h (a_at (rf_data (sf_field f)) idx)) * volume U (seq 0 (length (a_shape (rf_data (sf_field f))))).
