(** The numerical derivative which Field.map_axis_grid uses when no jacobian is given,
    /repo/postpic/datahandling.py 1242-1250, helper.py 411-420.  No proofs in this file. *)
From Coq Require Import QArith Qabs.
From Verif Require Import PyBase NumpyModel AxisModel NdModel FieldModel.
Local Open Scope Q_scope.

(** helper.approx_1d_jacobian_det, 411-420, for one coordinate; [eps] is the square root of the
    machine epsilon.  At the coordinate -1 the step is zero and the code has nan, here 0 *)
Definition default_jac (eps : Q) (transform : Q -> Q) (x : Q) : Q :=
  let dx := eps + eps * x in Qabs ((transform (x + dx) - transform (x - dx)) / (2 * dx)).
(** map_axis_grid(axis, transform), 1243-1244 *)
Definition map_axis_default (spl : spline_fn) (eps : Q) (f : field Q) (axis : Z) (transform : Q -> Q) : res (field Q) :=
  map_axis_grid spl f axis transform (default_jac eps transform) true.
