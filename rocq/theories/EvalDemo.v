(** Examples for Field.evaluate. *)
From Verif Require Import PyBase NumpyModel NdModel AxisModel AxisSpec FieldModel IoDemo EvalModel.
Local Open Scope string_scope.

Definition xs : nda Q := mkarr [3%Z] (fun idx => inject_Z (nth 0 idx 0%Z)).
Definition two : nda Q := mkarr [] (fun _ => 2).
Definition a_field : field Q := demo_field [up3 "x"].
(** f * y + 1 *)
Definition some_expr : expr Q := Apply2 Qplus (Apply2 Qmult (Name "f") (Name "y")) (Number 1).
