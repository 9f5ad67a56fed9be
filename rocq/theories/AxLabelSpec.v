(** What is said about the texts beside the axes of a plot; of AxLabelModel only the type of the calls is used. *)
From Verif Require Import PyBase NumpyModel NdModel AxisModel AxisSpec FieldModel FieldSpec IoSpec HistddModel PlotModel PlotSpec AxLabelModel.
Local Open Scope string_scope.

(** name and unit as they are shown *)
Definition text_of (a : axis) : string := if String.eqb (ax_unit a) "" then ax_name a else (ax_name a ++ " [" ++ ax_unit a ++ "]")%string.
(** the axes of a field along which there is more than one point *)
Definition long_axes {V} (f : field V) : list axis := entries_at axis0 (f_axes f) (long_dims (f_shape f)).
(** a field which can be drawn as a line *)
Definition line_field (f : field Q) : Prop := ready f /\ FieldSpec.nonempty (f_shape f) /\ length (long_dims (f_shape f)) = 1%nat.
(** a call which draws: a line, or an image, mesh or image of colors *)
Definition fits (spl : spline_fn) (c : ax_call) : Prop :=
  match c with
  | AddLine k f => plain_1d k /\ line_field f
  | AddImage k f => ready f /\ FieldSpec.nonempty (f_shape f) /\ (length (long_dims (f_shape f)) <= 3)%nat /\ exists ds, draw_2d spl k f = Ok ds
  end.
(** the field drawn *)
Definition call_field (c : ax_call) : field Q := match c with AddLine _ f => f | AddImage _ f => f end.
