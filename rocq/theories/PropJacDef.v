(** Theorems about map_axis_grid without a jacobian: C71. *)
From Coq Require Import QArith.
From Verif Require Import PyBase NumpyModel AxisModel AxisSpec NdModel FieldModel FieldSpec JacDefModel JacDefSpec JacDefFacts PropFieldGrid.
Local Open Scope Q_scope.

(** Without a jacobian, for a transformation which is affine, or quadratic on cells with the grid
    points in the middle: integrals over that axis are kept if it increases and change their sign if
    it decreases. *)
Theorem C71_default_partial :
  forall spl eps f k t a b c (rising : bool),
    consistent f -> Forall axis_proper (f_axes f) -> nonempty (f_shape f) -> (k < length (f_shape f))%nat -> (k < 3)%nat -> ~ eps == 0 ->
    (forall y, t y == a * (y * y) + b * y + c) -> off_minus_one (nth k (f_axes f) axis0) -> (a == 0 \/ midpoints (nth k (f_axes f) axis0)) ->
    (if rising then rising_on (nth k (f_axes f) axis0) t else falling_on (nth k (f_axes f) axis0) t) ->
    exists g, map_axis_default spl eps f (Z.of_nat k) t = Ok g /\
      forall p idx v, NoDup p -> In k p -> is_integral f p idx v <-> is_integral g p idx ((if rising then 1 else -1) * v).
Proof. exact default_integral. Qed.
Print Assumptions C71_default_partial.
Example C71_default_case : consistent plate /\ Forall axis_proper (f_axes plate) /\ nonempty (f_shape plate) /\ (forall y, y * y == 1 * (y * y) + 0 * y + 0) /\
  rising_on (nth 1 (f_axes plate) axis0) (fun y => y * y) /\ midpoints (nth 1 (f_axes plate) axis0) /\ off_minus_one (nth 1 (f_axes plate) axis0) /\ falling_on (nth 1 (f_axes plate) axis0) (fun y => - y).
Proof. destruct plate_ok as [(H1 & _ & _ & H2) H3]. do 3 (split; [assumption|]). split; [intro y; ring|exact plate_square]. Qed.
(** the absolute value in the numerical derivative: a strictly monotone transformation does not keep
    the integral when it decreases *)
Theorem C71_mirror_refuted : forall spl, exists f k t g idx v, consistent f /\ Forall axis_proper (f_axes f) /\ nonempty (f_shape f) /\ strictly_monotone_on (nth k (f_axes f) axis0) t /\
  map_axis_default spl (1 # 67108864) f (Z.of_nat k) t = Ok g /\ is_integral f [k] idx v /\ is_integral g [k] idx (- v) /\ ~ is_integral g [k] idx v.
Proof. exact mirror_refuted. Qed.
Print Assumptions C71_mirror_refuted.
