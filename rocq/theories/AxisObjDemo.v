(** A program with Axis objects, for the examples beside C115. *)
From Verif Require Import PyBase NumpyModel NdModel AxisModel AxisObjModel AxisObjSpec.
Open Scope string_scope.
Open Scope Q_scope.

Definition no_spline : spline_fn := fun _ _ _ => 0.
Definition uneven : op := New "x" "m" (Some [0; 1; 3; 6]) (Some [1#2; 2; 4]) None None.
Definition even : op := New "t" "s" (Some [0; 1; 2; 3]) (Some [1#2; 3#2; 5#2]) None None.
(** two axes, queries in between, copies, a write which is refused, a write which is not *)
Definition program : list op :=
  [uneven; Index 0 2; Copy 0; Rename 1 "k"; WriteGrid 1 0 (3#4); Deep 0; WriteNode 2 1 (2#1); even; Index 0 (5#1); Islinear 3 false].
(** asked once, copied by pickle, written to *)
Definition pickled : list op := [even; Islinear 0 false; Deep 0; WriteNode 1 1 (3#2)].
