(** What a correct axis is, stated only through its observable attributes
    (grid_node, grid, extent, len).  Independent of the constructor's code. *)
From Verif Require Import PyBase NumpyModel AxisModel.

(** Every grid point lies strictly inside its cell, cells are traversed upwards;
    one more node than grid points; extent and length describe the nodes. *)
Definition cells_up (node grid : list Q) : Prop :=
  length node = S (length grid) /\
  forall i, (i < length grid)%nat ->
    nth i node 0 < nth i grid 0 /\ nth i grid 0 < nth (S i) node 0.
(** The same for a descending axis. *)
Definition cells_down (node grid : list Q) : Prop :=
  length node = S (length grid) /\
  forall i, (i < length grid)%nat ->
    nth (S i) node 0 < nth i grid 0 /\ nth i grid 0 < nth i node 0.

Definition describes (ax : axis) : Prop :=
  fst (ax_extent ax) == nth 0 (ax_node ax) 0 /\
  snd (ax_extent ax) == nth (length (ax_grid ax)) (ax_node ax) 0 /\
  ax_n ax = Z.of_nat (length (ax_grid ax)).

Definition axis_up (ax : axis) : Prop := cells_up (ax_node ax) (ax_grid ax) /\ describes ax.
Definition axis_down (ax : axis) : Prop := cells_down (ax_node ax) (ax_grid ax) /\ describes ax.
Definition axis_proper (ax : axis) : Prop := axis_up ax \/ axis_down ax.

(** The axis tiles [a,b] uniformly with n cells (either orientation). *)
Definition axis_uniform (a b : Q) (n : nat) (ax : axis) : Prop :=
  length (ax_node ax) = S n /\ length (ax_grid ax) = n /\ ax_n ax = Z.of_nat n /\
  fst (ax_extent ax) == a /\ snd (ax_extent ax) == b /\
  (forall i, (i <= n)%nat ->
     nth i (ax_node ax) 0 == a + inject_Z (Z.of_nat i) * ((b - a) / inject_Z (Z.of_nat n))) /\
  (forall i, (i < n)%nat ->
     nth i (ax_grid ax) 0 == a + (inject_Z (Z.of_nat i) + (1 # 2)) * ((b - a) / inject_Z (Z.of_nat n))).

(** An interpolating spline of degree >= 1 reproduces straight lines: the only
    fact about scipy's UnivariateSpline(s=0) that is ever used. *)
Definition reproduces_lines (spl : spline_fn) : Prop :=
  forall xs ys c d t,
    length xs = length ys -> (4 <= length xs)%nat ->
    (forall i, (S i < length xs)%nat -> nth i xs 0 < nth (S i) xs 0) ->
    (forall i, (i < length xs)%nat -> nth i ys 0 == c + d * nth i xs 0) ->
    spl xs ys t == c + d * t.

(** A concrete interpolant with this property: the chord through the first two
    points (used to show that the hypothesis is satisfiable, and to compute examples). *)
Definition chord_spline : spline_fn := fun xs ys t =>
  match xs, ys with
  | x0 :: x1 :: _, y0 :: y1 :: _ => y0 + (t - x0) * ((y1 - y0) / (x1 - x0))
  | _, _ => 0
  end.

(** The sublist with positions i, i+1, ..., j-1. *)
Definition sublist {A} (i j : nat) (l : list A) : list A := firstn (j - i) (skipn i l).

(** numpy.round of a rational: half to even. *)
Definition np_round (x : Q) : Z :=
  let f := (Qnum (x - qhalf) / Zpos (Qden (x - qhalf)))%Z in   (* floor (x - 1/2) *)
  if (x - qhalf) ==?q inject_Z f
  then (if Z.even f then f else f + 1)%Z
  else (f + 1)%Z.

(** Bounds of a coordinate slice: None stands for the corresponding end of the axis. *)
Definition bound_lo (ax : axis) (a : option num) : Q :=
  match a with Some x => num_val x | None => nth 0 (ax_node ax) 0 end.
Definition bound_hi (ax : axis) (b : option num) : Q :=
  match b with Some x => num_val x | None => nth (length (ax_grid ax)) (ax_node ax) 0 end.
