(** Properties of the interpolation to other grids: map_coordinates (C89), topolar (C90) and the
    linear shift (C91). *)
From Coq Require Import Reals String List ZArith Lra Lia.
From Verif Require Import PyBase NumpyModel NdModel CplxModel FieldModel FftModel FftSpec FftDemo UnstagModel RealModel MapModel MapSpec MapFacts MapLaws MapMore LinShiftSpec LinShift PolarSpec PolarFacts MapDemo.
Import ListNotations.
Local Open Scope R_scope.

(** C89: the value at every point of the new axes is the one interpolated at the position to which the
    transform takes that point, times the given determinant if the integral is to be kept; the result
    has the new axes.  Missing: the integral is not kept without a transform, see below. *)
Theorem C89_values_partial : forall interp unwrap nonlin f nd U axes T mode preserve jac jdet, uniform_field f nd U -> same_shapes unwrap -> accepted f mode -> new_axes_ok axes ->
  match T with Some T => (nd <= length T)%nat | None => length axes = nd end -> (preserve = true -> length axes = nd /\ (T <> None -> jdet <> None)) ->
  exists g, map_coordinates interp unwrap nonlin f axes T mode preserve jac jdet = Ok g /\ labelled f g axes /\
    forall idx x, at_point axes idx x -> a_at (rf_data (sf_field g)) idx =
      Cmul (value_at interp unwrap f mode (map (fun a => pixel (U a) (nth a (functions T (length axes)) (fun _ => 0) x)) (seq 0 nd))) (RtoC (if preserve then weight T jdet x else 1)).
Proof. exact map_values. Qed.
Print Assumptions C89_values_partial.
Example C89_values_case : uniform_field (line false coarse (fun i => (IZR i, 1))) 1 (fun _ => coarse) /\ same_shapes None /\ accepted (line false coarse (fun i => (IZR i, 1))) PolarNoUnwrap /\ new_axes_ok [axis_of fine] /\
  length [axis_of fine] = 1%nat /\ at_point [axis_of fine] [2%Z] [3 / 4].
Proof.
  split; [exact (line_ok _ _ _ coarse_proper)|]. split; [exact (whole_same _ no_unwrap)|]. split; [right; discriminate|]. split; [exact (axis_new _ fine_proper)|]. split; [reflexivity|].
  replace (3 / 4) with (point fine 2) by (unfold point; cbn; lra). apply at_one. cbn. lia.
Qed.
(** an interpolation which goes through the data gives the data wherever the transform hits a point of
    the old grid, for real and for complex data in all modes *)
Theorem C89_points : forall interp unwrap nonlin f nd U axes T mode preserve jac jdet, uniform_field f nd U -> through_points interp -> whole_turns unwrap -> real_data f -> accepted f mode -> new_axes_ok axes ->
  match T with Some T => (nd <= length T)%nat | None => length axes = nd end -> (preserve = true -> length axes = nd /\ (T <> None -> jdet <> None)) ->
  exists g, map_coordinates interp unwrap nonlin f axes T mode preserve jac jdet = Ok g /\ labelled f g axes /\
    forall idx x j, at_point axes idx x -> in_shape (a_shape (rf_data (sf_field f))) j = true ->
      (forall a, (a < nd)%nat -> nth a (functions T (length axes)) (fun _ => 0) x = point (U a) (nth a j 0%Z)) ->
      a_at (rf_data (sf_field g)) idx = Cmul (a_at (rf_data (sf_field f)) j) (RtoC (if preserve then weight T jdet x else 1)).
Proof. exact map_points. Qed.
Print Assumptions C89_points.
(** the mirrored line *)
Example C89_points_case : through_points linear0 /\ whole_turns None /\ real_data (line true sym (fun i => RtoC (IZR i))) /\ at_point [axis_of sym] [0%Z] [point sym 0] /\
  in_shape (a_shape (rf_data (sf_field (line true sym (fun i => RtoC (IZR i)))))) [1%Z] = true /\ nth 0 (functions (Some mirror) 1) (fun _ => 0) [point sym 0] = point sym (nth 0 [1%Z] 0%Z).
Proof.
  split; [exact linear0_points|]. split; [exact no_unwrap|]. split; [intros _ idx; reflexivity|]. split; [apply at_one; cbn; lia|]. split; [reflexivity|]. unfold mirror, point. cbn. lra.
Qed.
(** zero wherever the transform leads out of the old grid *)
Theorem C89_outside : forall interp unwrap nonlin f nd U axes T mode preserve jac jdet, uniform_field f nd U -> zero_outside interp -> same_shapes unwrap -> accepted f mode -> new_axes_ok axes ->
  match T with Some T => (nd <= length T)%nat | None => length axes = nd end -> (preserve = true -> length axes = nd /\ (T <> None -> jdet <> None)) ->
  exists g, map_coordinates interp unwrap nonlin f axes T mode preserve jac jdet = Ok g /\
    forall idx x a, at_point axes idx x -> (a < nd)%nat ->
      (let y := nth a (functions T (length axes)) (fun _ => 0) x in y < u_x0 (U a) \/ point (U a) (Z.of_nat (u_n (U a)) - 1) < y) -> a_at (rf_data (sf_field g)) idx = C0.
Proof. exact map_outside. Qed.
Print Assumptions C89_outside.
Example C89_outside_case : zero_outside linear0 /\ at_point [axis_of fine] [0%Z] [point fine 0] /\ nth 0 (functions None 1) (fun _ => 0) [point fine 0] < u_x0 coarse.
Proof. split; [exact linear0_outside|]. split; [apply at_one; cbn; lia|]. unfold point. cbn. lra. Qed.
(** the axes of the field itself give the field back *)
Theorem C89_own_axes : forall interp unwrap nonlin f nd U mode preserve jac jdet, uniform_field f nd U -> through_points interp -> whole_turns unwrap -> real_data f -> accepted f mode ->
  exists g, map_coordinates interp unwrap nonlin f (rf_axes (sf_field f)) None mode preserve jac jdet = Ok g /\ labelled f g (rf_axes (sf_field f)) /\
    a_shape (rf_data (sf_field g)) = a_shape (rf_data (sf_field f)) /\
    forall idx, in_shape (a_shape (rf_data (sf_field f))) idx = true -> a_at (rf_data (sf_field g)) idx = a_at (rf_data (sf_field f)) idx.
Proof. exact own_axes. Qed.
Print Assumptions C89_own_axes.
Example C89_own_axes_case : uniform_field (plane five (fun idx => (IZR (nth 0 idx 0%Z), 0))) 2 (fun _ => five) /\ through_points linear0 /\ real_data (plane five (fun idx => (IZR (nth 0 idx 0%Z), 0))).
Proof. split; [exact (plane_ok _ _ five_proper)|]. split; [exact linear0_points|]. intros _ idx. reflexivity. Qed.
(** a transform which scales and moves every axis onto the old grid keeps the integral: the data are
    multiplied by the product of the scales, which the method finds out by itself *)
Theorem C89_scaled : forall interp unwrap nonlin f nd U V axes mode s t, uniform_field f nd U -> through_points interp -> whole_turns unwrap -> real_data f -> accepted f mode -> length axes = nd -> grids axes V ->
  (forall a, (a < nd)%nat -> u_n (V a) = u_n (U a) /\ t a + s a * u_x0 (V a) = u_x0 (U a) /\ s a * u_dx (V a) = u_dx (U a)) ->
  exists g, map_coordinates interp unwrap nonlin f axes (Some (map (fun a x => t a + s a * nth a x 0) (seq 0 nd))) mode true None None = Ok g /\ labelled f g axes /\
    a_shape (rf_data (sf_field g)) = a_shape (rf_data (sf_field f)) /\ integral fst g V = integral fst f U /\ integral snd g V = integral snd f U /\
    forall idx, in_shape (a_shape (rf_data (sf_field f))) idx = true -> a_at (rf_data (sf_field g)) idx = Cmul (a_at (rf_data (sf_field f)) idx) (RtoC (fold_right Rmult 1 (map s (seq 0 nd)))).
Proof. exact scaled_map. Qed.
Print Assumptions C89_scaled.
(** from metres to half metres *)
Example C89_scaled_case : let f := line true coarse (fun i => RtoC (IZR i)) in let V := fun _ : nat => mkuni 2 1 (1 / 2) in uniform_field f 1 (fun _ => coarse) /\ grids [axis_of (V 0%nat)] V /\
  u_n (V 0%nat) = u_n coarse /\ -2 + 2 * u_x0 (V 0%nat) = u_x0 coarse /\ 2 * u_dx (V 0%nat) = u_dx coarse /\ integral fst f (fun _ => coarse) = 1.
Proof.
  intros f V. split; [exact (line_ok _ _ _ coarse_proper)|]. split; [intros a ax E; destruct a as [|a]; cbn in E; [injection E as <-|destruct a; discriminate]; split; [reflexivity|split; cbn; [lia|lra]]|].
  cbn. split; [reflexivity|]. split; [lra|]. split; [lra|]. unfold integral, volume. cbn. change (Pos.to_nat 2) with 2%nat. cbn. lra.
Qed.
(** in the plane, every affine transform is weighted with the modulus of its determinant *)
Theorem C89_plane : forall interp unwrap nonlin f U axes V mode a b c d t0 t1, uniform_field f 2 U -> same_shapes unwrap -> accepted f mode -> length axes = 2%nat -> grids axes V ->
  exists g, map_coordinates interp unwrap nonlin f axes (Some [fun x => t0 + (a * nth 0 x 0 + b * nth 1 x 0); fun x => t1 + (c * nth 0 x 0 + d * nth 1 x 0)]) mode true None None = Ok g /\ labelled f g axes /\
    forall idx x y, in_shape (a_shape (rf_data (sf_field g))) idx = true -> at_point axes idx [x; y] -> a_at (rf_data (sf_field g)) idx =
      Cmul (value_at interp unwrap f mode [pixel (U 0%nat) (t0 + (a * x + b * y)); pixel (U 1%nat) (t1 + (c * x + d * y))]) (RtoC (Rabs (a * d - b * c))).
Proof. exact plane_map. Qed.
Print Assumptions C89_plane.
Example C89_plane_case : uniform_field (plane five (fun _ => C1)) 2 (fun _ => five) /\ accepted (plane five (fun _ => C1)) Polar /\ grids [axis_of fine; axis_of fine] (fun _ => fine).
Proof.
  split; [exact (plane_ok _ _ five_proper)|]. split; [now left|]. intros a ax E. destruct a as [|[|a]]; cbn in E; [injection E as <-|injection E as <-|destruct a; discriminate]; split; try reflexivity; exact fine_proper.
Qed.
(** what is refused: another number of axes, when the integral is to be kept; fewer coordinates than
    dimensions; unknown modes for complex data *)
Theorem C89_refused_dims : forall interp unwrap nonlin f axes T mode jac jdet, Z.of_nat (length axes) <> dims (a_shape (rf_data (sf_field f))) -> map_coordinates interp unwrap nonlin f axes T mode true jac jdet = Err ValueError.
Proof. exact map_refused_dims. Qed.
Print Assumptions C89_refused_dims.
Example C89_refused_dims_case : Z.of_nat (length [axis_of fine]) <> dims (a_shape (rf_data (sf_field (plane five (fun _ => C1))))).
Proof. intro K. unfold dims in K. cbn in K. discriminate K. Qed.
Theorem C89_refused_few : forall interp unwrap nonlin f nd U axes T mode preserve jac jdet, uniform_field f nd U -> accepted f mode -> (preserve = true -> length axes = nd) -> (length (functions T (length axes)) < nd)%nat ->
  map_coordinates interp unwrap nonlin f axes T mode preserve jac jdet = Err RuntimeError.
Proof. exact map_refused_few. Qed.
Print Assumptions C89_refused_few.
Example C89_refused_few_case : uniform_field (plane five (fun _ => C1)) 2 (fun _ => five) /\ (length (functions (Some mirror) 2) < 2)%nat.
Proof. split; [exact (plane_ok _ _ five_proper)|cbn; lia]. Qed.
Theorem C89_refused_mode : forall interp unwrap nonlin f nd U axes T preserve jac jdet, uniform_field f nd U -> sf_real f = false -> (preserve = true -> length axes = nd) ->
  map_coordinates interp unwrap nonlin f axes T OtherMode preserve jac jdet = Err ValueError.
Proof. exact map_refused_mode. Qed.
Print Assumptions C89_refused_mode.
Example C89_refused_mode_case : uniform_field (line false coarse (fun _ => C1)) 1 (fun _ => coarse) /\ sf_real (line false coarse (fun _ => C1)) = false /\ length [axis_of fine] = 1%nat.
Proof. split; [exact (line_ok _ _ _ coarse_proper)|split; reflexivity]. Qed.
(** without a transform the integral is not kept, even on the same extent: twice as many points lose
    half of the integral of a constant, because there is nothing beyond the outermost points *)
Theorem C89_border_refuted : forall interp nonlin, zero_outside interp -> keeps_constants interp -> exists f U axes V g, uniform_field f 1 U /\ grids axes V /\
  (exists ax ay, rf_axes (sf_field f) = [ax] /\ axes = [ay] /\ hd 0 (ra_node ax) = hd 0 (ra_node ay) /\ last (ra_node ax) 0 = last (ra_node ay) 0) /\
  map_coordinates interp None nonlin f axes None Polar true None None = Ok g /\ integral fst f U = 2 /\ integral fst g V = 1.
Proof. exact border_lost. Qed.
Print Assumptions C89_border_refuted.
Example C89_border_case : zero_outside linear0 /\ keeps_constants linear0.
Proof. exact (conj linear0_outside linear0_constants). Qed.
(** a mirror image: the sign of the determinant counts if it is given as such, and not if it is given
    as a Jacobian *)
Theorem C89_sign_refuted : forall interp nonlin, through_points interp -> exists f axes g h, uniform_field f 1 (fun _ => sym) /\
  map_coordinates interp None nonlin f axes (Some mirror) Polar true (Some [[fun _ => -1]]) None = Ok g /\
  map_coordinates interp None nonlin f axes (Some mirror) Polar true None (Some (fun _ => -1)) = Ok h /\
  a_at (rf_data (sf_field g)) [0%Z] = C1 /\ a_at (rf_data (sf_field h)) [0%Z] = (-1, 0).
Proof. exact sign_kept. Qed.
Print Assumptions C89_sign_refuted.
Example C89_sign_case : through_points linear0. Proof. exact linear0_points. Qed.
(** unknown modes pass for real data *)
Theorem C89_mode_refuted : forall interp nonlin, exists f axes g, uniform_field f 1 (fun _ => coarse) /\ map_coordinates interp None nonlin f axes None OtherMode true None None = Ok g.
Proof. exact mode_unchecked. Qed.
Print Assumptions C89_mode_refuted.
(** a new axis with one point is refused if the determinant is to be found out *)
Theorem C89_one_point_refuted : forall interp nonlin, exists f axes T, uniform_field f 1 (fun _ => coarse) /\ new_axes_ok axes /\ length axes = 1%nat /\ length T = 1%nat /\
  map_coordinates interp None nonlin f axes (Some T) Polar true None None = Err ValueError.
Proof. exact thin_refused. Qed.
Print Assumptions C89_one_point_refuted.

(** C90: polar coordinates: evenly spaced angles and radii as given, at each the value interpolated at
    (r cos theta, r sin theta) with the angle reduced by the offset, times r if the integral is to be
    kept.  Missing: the integral over a whole turn, see below. *)
Theorem C90_values_partial : forall interp unwrap nonlin spl f U e0 e1 e2 e3 n m off mode preserve, uniform_field f 2 U -> linear_spline spl -> same_shapes unwrap -> accepted f mode -> (2 <= n)%Z -> (2 <= m)%Z -> e0 < e1 -> e2 < e3 ->
  exists g, topolar interp unwrap nonlin spl f (Some [e0; e1; e2; e3]) (Some (n, m)) off mode preserve = Ok g /\ polar_axes f g (from_to e0 e1 n) (from_to e2 e3 m) /\ polar_rest f g n m /\
    forall i j, (0 <= i < n)%Z -> (0 <= j < m)%Z -> a_at (rf_data (sf_field g)) [i; j] = polar_value interp unwrap f U mode preserve (point (from_to e0 e1 n) i - off) (point (from_to e2 e3 m) j).
Proof. exact topolar_given. Qed.
Print Assumptions C90_values_partial.
Example C90_values_case : uniform_field (plane five (fun _ => C1)) 2 (fun _ => five) /\ linear_spline line_spline /\ same_shapes None /\ accepted (plane five (fun _ => C1)) Polar /\ 0 < PI.
Proof. split; [exact (plane_ok _ _ five_proper)|]. split; [exact line_spline_ok|]. split; [exact (whole_same _ no_unwrap)|]. split; [now left|exact PI_RGT_0]. Qed.
(** by default the angles make a whole turn, the radii go from the point nearest to the origin to the
    one farthest away, and the number of points is that of the finer spacing along the mean circle and
    along the radius, but at most 1000 *)
Theorem C90_defaults : forall interp unwrap nonlin spl f U angles off mode preserve, uniform_field f 2 U -> linear_spline spl -> same_shapes unwrap -> accepted f mode ->
  let e0 := match angles with Some (a, _) => a | None => - PI end in let e1 := match angles with Some (_, b) => b | None => PI end in e0 < e1 ->
  exists lo hi n m, distances U lo hi /\
    (let h := Rmin (u_dx (U 0%nat)) (u_dx (U 1%nat)) in whole_below ((e1 - e0) * ((lo + hi) / 2) / h) n /\ whole_below ((hi - lo) / h) m) /\
    ((2 <= n)%Z -> (2 <= m)%Z -> exists g, topolar interp unwrap nonlin spl f (match angles with Some (a, b) => Some [a; b] | None => None end) None off mode preserve = Ok g /\ polar_axes f g (from_to e0 e1 n) (from_to lo hi m) /\ polar_rest f g n m /\
      forall i j, (0 <= i < n)%Z -> (0 <= j < m)%Z -> a_at (rf_data (sf_field g)) [i; j] = polar_value interp unwrap f U mode preserve (point (from_to e0 e1 n) i - off) (point (from_to lo hi m) j)).
Proof. exact topolar_default. Qed.
Print Assumptions C90_defaults.
Example C90_defaults_case : exists g, topolar linear0 None no_nonlin line_spline (plane five (fun _ => C1)) None None 0 Polar true = Ok g.
Proof. exact five_polar. Qed.
(** a whole turn has its first direction twice, so that the sum of a constant over the angles is not
    the circumference *)
Theorem C90_turn_refuted : forall interp nonlin spl, keeps_constants interp -> linear_spline spl -> exists f U g, uniform_field f 2 U /\ (forall idx, in_shape (a_shape (rf_data (sf_field f))) idx = true -> a_at (rf_data (sf_field f)) idx = C1) /\
  topolar interp None nonlin spl f (Some [- PI; PI; 1; 2]) (Some (4, 2)%Z) 0 Polar true = Ok g /\ polar_axes f g (from_to (- PI) PI 4) (from_to 1 2 2) /\
  CplxModel.rsum 4 (fun i => fst (a_at (rf_data (sf_field g)) [Z.of_nat i; 0%Z])) * u_dx (from_to (- PI) PI 4) <> 2 * PI * point (from_to 1 2 2) 0.
Proof. exact turn_overlaps. Qed.
Print Assumptions C90_turn_refuted.
Example C90_turn_case : keeps_constants linear0 /\ linear_spline line_spline.
Proof. exact (conj linear0_constants line_spline_ok). Qed.
(** the defaults fail for points which are all at the same distance *)
Theorem C90_square_refuted : forall interp nonlin spl off mode preserve, uniform_field (plane sym (fun _ => C1)) 2 (fun _ => sym) /\ topolar interp None nonlin spl (plane sym (fun _ => C1)) None None off mode preserve = Err ValueError.
Proof. exact square_refused. Qed.
Print Assumptions C90_square_refuted.

(** C91: the linear shift of affine data is exact: at each point of the moved grid the value of the same
    affine function, at the nearest place of the old grid.  Missing: names and units of the moved axes
    are lost and complex data are refused, see below. *)
Theorem C91_affine_partial : forall spl f nd U A d c b, uniform_field f nd U -> (forall a, In a A -> (a < nd)%nat) -> sf_real f = true ->
  (forall idx, in_shape (a_shape (rf_data (sf_field f))) idx = true -> value f idx = c + weighted nd b (fun a => point (U a) (nth a idx 0%Z))) ->
  exists g, shift_grid_with spl f (map (fun a => (Z.of_nat a, d a)) A) Linear = Ok g /\ moved_axes A d U f g /\ same_rest f g /\
    forall idx, in_shape (a_shape (rf_data (sf_field f))) idx = true ->
      a_at (rf_data (sf_field g)) idx = RtoC (c + weighted nd b (fun a => nearest (U a) (point (moved_by (shift_of A d a) (U a)) (nth a idx 0%Z)))).
Proof. exact with_affine. Qed.
Print Assumptions C91_affine_partial.
Example C91_affine_case : let f := plane five (fun idx => RtoC (1 + (2 * point five (nth 0 idx 0%Z) + (3 * point five (nth 1 idx 0%Z) + 0)))) in uniform_field f 2 (fun _ => five) /\ sf_real f = true /\
  forall idx, value f idx = 1 + weighted 2 (fun a => match a with O => 2 | _ => 3 end) (fun a => point five (nth a idx 0%Z)).
Proof. intro f. split; [exact (plane_ok _ _ five_proper)|]. split; reflexivity. Qed.
(** shifts by whole cells move the data, and the outermost values are repeated *)
Theorem C91_cells : forall spl f nd U A d k, uniform_field f nd U -> (forall a, In a A -> (a < nd)%nat) -> sf_real f = true -> (forall a, In a A -> d a = IZR (k a) * u_dx (U a)) ->
  exists g, shift_grid_with spl f (map (fun a => (Z.of_nat a, d a)) A) Linear = Ok g /\ moved_axes A d U f g /\ same_rest f g /\
    forall idx, in_shape (a_shape (rf_data (sf_field f))) idx = true ->
      a_at (rf_data (sf_field g)) idx = RtoC (value f (map (fun a => nearest_index (Z.of_nat (u_n (U a))) (nth a idx 0%Z + (if existsb (Nat.eqb a) A then k a else 0%Z))) (seq 0 nd))).
Proof. exact with_cells. Qed.
Print Assumptions C91_cells.
Example C91_cells_case : uniform_field (line true coarse (fun i => RtoC (IZR i))) 1 (fun _ => coarse) /\ (forall a, In a [0%nat] -> (a < 1)%nat) /\ -3 = IZR (-3) * u_dx coarse.
Proof. split; [exact (line_ok _ _ _ coarse_proper)|]. split; [intros a [<-|[]]; lia|cbn; lra]. Qed.
(** no value beyond those of the data *)
Theorem C91_between : forall spl f nd U A d lo hi, uniform_field f nd U -> (forall a, In a A -> (a < nd)%nat) -> sf_real f = true ->
  (forall idx, in_shape (a_shape (rf_data (sf_field f))) idx = true -> lo <= value f idx <= hi) ->
  exists g, shift_grid_with spl f (map (fun a => (Z.of_nat a, d a)) A) Linear = Ok g /\ forall idx, in_shape (a_shape (rf_data (sf_field f))) idx = true -> lo <= value g idx <= hi.
Proof. exact with_between. Qed.
Print Assumptions C91_between.
Example C91_between_case : let f := plane five (fun idx => RtoC (if (nth 0 idx 0 =? nth 1 idx 0)%Z then 1 else 0)) in uniform_field f 2 (fun _ => five) /\ sf_real f = true /\ forall idx, 0 <= value f idx <= 1.
Proof. intro f. split; [exact (plane_ok _ _ five_proper)|]. split; [reflexivity|]. intro idx. unfold value, f. cbn. destruct (_ =? _)%Z; cbn; lra. Qed.
(** other methods are refused *)
Theorem C91_unknown_method : forall spl f dx, shift_grid_with spl f dx OtherMethod = Err ValueError.
Proof. reflexivity. Qed.
Print Assumptions C91_unknown_method.
(** names and units of the moved axes are lost *)
Theorem C91_names_refuted : exists f g ax ay, uniform_field f 1 (fun _ => coarse) /\ shift_grid_with line_spline f [(0%Z, 1 / 2)] Linear = Ok g /\
  rf_axes (sf_field f) = [ax] /\ rf_axes (sf_field g) = [ay] /\ ra_name ax = "x"%string /\ ra_unit ax = "m"%string /\ ra_name ay = EmptyString /\ ra_unit ay = EmptyString.
Proof. exact names_lost. Qed.
Print Assumptions C91_names_refuted.
(** complex data cannot be shifted linearly *)
Theorem C91_complex_refuted : exists f, uniform_field f 1 (fun _ => coarse) /\ shift_grid_with line_spline f [(0%Z, 1 / 2)] Linear = Err NameError.
Proof. exact complex_refused. Qed.
Print Assumptions C91_complex_refuted.
