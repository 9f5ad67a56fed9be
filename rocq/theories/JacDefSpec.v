(** Specification of map_axis_grid with the numerical derivative (C71). *)
From Coq Require Import QArith.
From Verif Require Import PyBase AxisModel.
Local Open Scope Q_scope.

(** every grid point is in the middle of its cell *)
Definition midpoints (ax : axis) : Prop := forall i, (i < length (ax_grid ax))%nat -> 2 * nth i (ax_grid ax) 0 == nth i (ax_node ax) 0 + nth (S i) (ax_node ax) 0.
(** no grid point is -1 *)
Definition off_minus_one (ax : axis) : Prop := forall i, (i < length (ax_grid ax))%nat -> ~ nth i (ax_grid ax) 0 == -1.
(** t is strictly increasing, or decreasing, on the points and cell boundaries *)
Definition rising_on (ax : axis) (t : Q -> Q) : Prop := forall x y, In x (ax_node ax ++ ax_grid ax) -> In y (ax_node ax ++ ax_grid ax) -> x < y -> t x < t y.
Definition falling_on (ax : axis) (t : Q -> Q) : Prop := forall x y, In x (ax_node ax ++ ax_grid ax) -> In y (ax_node ax ++ ax_grid ax) -> x < y -> t y < t x.
