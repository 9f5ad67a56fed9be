(** Specifications of integrals and derivatives on a grid and of the extent, stated
    through the samples of the field and the grid points of its axes. *)
From Verif Require Import PyBase QSum NumpyModel AxisModel AxisSpec NdModel FieldModel FieldSpec IntegModel.

(** grid point i of an axis, the number of its points, and its ends *)
Definition point (ax : axis) (i : Z) : Q := nth (Z.to_nat i) (ax_grid ax) 0.
(** neighbouring grid points differ, and all differences have the same sign *)
Definition goes_up (ax : axis) : Prop :=
  forall i, (0 <= i)%Z -> (i + 1 < Z.of_nat (length (ax_grid ax)))%Z -> point ax i < point ax (i + 1).
Definition goes_down (ax : axis) : Prop :=
  forall i, (0 <= i)%Z -> (i + 1 < Z.of_nat (length (ax_grid ax)))%Z -> point ax (i + 1) < point ax i.
(** all differences of neighbouring grid points are h *)
Definition evenly (h : Q) (ax : axis) : Prop :=
  forall i, (0 <= i)%Z -> (i + 1 < Z.of_nat (length (ax_grid ax)))%Z -> point ax (i + 1) - point ax i == h.

(** ** Integrals as sums: the share of sample i is the integral of the line of samples
    that is one there and zero elsewhere *)
Definition only (n : nat) (i : Z) : list Q := map (fun j => if (Z.of_nat j =? i)%Z then 1 else 0) (seq 0 n).
Definition share (m : line_method) (ax : axis) (i : Z) : Q :=
  line_integral m (ax_grid ax) (only (length (ax_grid ax)) i).
Definition shares (m : line_method) (axes : list axis) (p : list nat) (j : list Z) : Q :=
  fold_right Qmult 1 (map (fun k => share m (nth k axes axis0) (nth k j 0%Z)) p).
(** v is the sum over the samples along the dimensions p, at the index idx along the others *)
Definition is_line_integral (m : line_method) (f : field Q) (p : list nat) (idx : list Z) (v : Q) : Prop :=
  exists js, lists_fibre (f_shape f) p idx js /\
    v == fold_right Qplus 0 (map (fun j => a_at (f_data f) j * shares m (f_axes f) p j) js).

(** ** Polynomials of degree two along one dimension; their antiderivative *)
Definition quadratic (a b c x : Q) : Q := a * (x * x) + b * x + c.
Definition quadratic_area (a b c x : Q) : Q := a * (x * x * x) / 3 + b * (x * x) / 2 + c * x.
(** along dimension k the samples of f are those of polynomials, whose coefficients
    depend on the index along the other dimensions *)
Definition quadratic_along (f : field Q) (k : nat) (a b c : list Z -> Q) : Prop :=
  forall idx, in_shape (f_shape f) idx = true ->
    let o := entries_at 0%Z idx (others (length (f_shape f)) [k]) in
    a_at (f_data f) idx == quadratic (a o) (b o) (c o) (point (nth k (f_axes f) axis0) (nth k idx 0%Z)).

(** grids on which the weights of a method are not negative *)
Definition sign_free (m : line_method) (ax : axis) : Prop :=
  match m with MTrapezoid => goes_up ax | MSimpson => exists h, 0 < h /\ evenly h ax end.

(** ** The extent *)
(** ax' has the number of points, the name and the unit of ax, and the extent a .. b *)
Definition stretched_to (a b : Q) (ax ax' : axis) : Prop :=
  axis_uniform a b (Z.to_nat (ax_len ax)) ax' /\ ax_name ax' = ax_name ax /\ ax_unit ax' = ax_unit ax.
(** everything but the axes is the same *)
Definition same_but_axes {V} (f g : field V) : Prop :=
  f_data g = f_data f /\ f_ats g = f_ats f /\ f_tao g = f_tao f /\
  l_name (f_top g) = l_name (f_top f) /\ l_unit (f_top g) = l_unit (f_top f) /\ f_inner g = f_inner f.

(** ** Derivatives *)
(** sample i of the line through idx along dimension k, and the difference quotient of
    samples i and i + 1 *)
Definition value_at (f : field Q) (k : nat) (idx : list Z) (i : Z) : Q := a_at (f_data f) (upd idx k i).
Definition quotient (f : field Q) (k : nat) (idx : list Z) (i : Z) : Q :=
  (value_at f k idx (i + 1) - value_at f k idx i) / (point (nth k (f_axes f) axis0) (i + 1) - point (nth k (f_axes f) axis0) i).
(** g has the attributes of f except for a mark at its name *)
Definition marked {V} (f g : field V) : Prop :=
  f_shape g = f_shape f /\ f_axes g = f_axes f /\ f_ats g = f_ats f /\ f_tao g = f_tao f /\
  l_name (f_top g) = String.append (l_name (f_top f)) "'" /\ l_unit (f_top g) = l_unit (f_top f).
(** the samples and grid points of g along dimension k are those of f in reverse order *)
Definition backwards (k : nat) (f g : field Q) : Prop :=
  f_shape g = f_shape f /\
  (forall i, (0 <= i < nth k (f_shape f) 0)%Z ->
     point (nth k (f_axes g) axis0) i = point (nth k (f_axes f) axis0) (nth k (f_shape f) 0 - 1 - i)%Z) /\
  forall idx, in_shape (f_shape f) idx = true ->
    a_at (f_data g) idx = a_at (f_data f) (upd idx k (nth k (f_shape f) 0 - 1 - nth k idx 0)%Z).

(** ** Integrals piece by piece *)
(** trapezoids between neighbouring samples of the line through idx *)
Definition trapezoids (f : field Q) (k : nat) (idx : list Z) : Q :=
  let ax := nth k (f_axes f) axis0 in
  qsum (map (fun i => (point ax (Z.of_nat i + 1) - point ax (Z.of_nat i)) * ((value_at f k idx (Z.of_nat i) + value_at f k idx (Z.of_nat i + 1)) / 2))
            (seq 0 (Z.to_nat (nth k (f_shape f) 0 - 1)%Z))).
(** the parabola q goes through the samples i, i + 1 and i + 2 of the line through idx *)
Definition parabola : Type := Q * Q * Q.
Definition height (q : parabola) (x : Q) : Q := let '(a, b, c) := q in quadratic a b c x.
Definition below (q : parabola) (x x' : Q) : Q := let '(a, b, c) := q in quadratic_area a b c x' - quadratic_area a b c x.
Definition through (f : field Q) (k : nat) (idx : list Z) (q : parabola) (i : Z) : Prop :=
  forall j, (i <= j <= i + 2)%Z -> value_at f k idx j == height q (point (nth k (f_axes f) axis0) j).
(** the areas below the parabolas q 0, ..., q (m - 1), each over two intervals *)
Definition parabolas (ax : axis) (q : nat -> parabola) (m : nat) : Q :=
  qsum (map (fun i => below (q i) (point ax (2 * Z.of_nat i)) (point ax (2 * Z.of_nat i + 2))) (seq 0 m)).
