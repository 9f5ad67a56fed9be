(** Theorems about the texts beside the axes of a plot: C127. *)
From Coq Require Import Lia.
From Verif Require Import PyBase NumpyModel NdModel AxisModel AxisSpec FieldModel FieldSpec HistddModel PlotModel PlotSpec IoSpec IoDemo PlotDemo LabelModel AxLabelModel AxLabelSpec AxLabelFacts.
Local Open Scope string_scope.

(** a line: the horizontal text is that of the only axis with more than one point, wherever it is
    among the axes; the vertical text stays *)
Theorem C127_line : forall spl k f t, plain_1d k -> ready f -> FieldSpec.nonempty (f_shape f) -> length (long_dims (f_shape f)) = 1%nat ->
  exists a, long_axes f = [a] /\ texts_1d spl k f t = Ok (Some (text_of a), snd t).
Proof. exact texts_line. Qed.
Print Assumptions C127_line.
Example C127_line_case : let f := demo_field [one_cell "x"; up3 "y"] in
  ready f /\ FieldSpec.nonempty (f_shape f) /\ length (long_dims (f_shape f)) = 1%nat /\ texts_1d chord_spline no_kwargs f (None, None) = Ok (Some "y [m]", None).
Proof. split; [apply pair_ready; [apply one_cell_proper|apply up3_proper]|]. split; [repeat constructor|]. split; [reflexivity|vm_compute; reflexivity]. Qed.
(** an image, a mesh or an image of colors which is drawn: the texts of the first two such axes, in order *)
Theorem C127_image : forall spl k f t ds, ready f -> FieldSpec.nonempty (f_shape f) -> draw_2d spl k f = Ok ds -> (length (long_dims (f_shape f)) <= 3)%nat ->
  exists a b r, long_axes f = a :: b :: r /\ texts_2d spl k f t = Ok (Some (text_of a), Some (text_of b)).
Proof. exact texts_image. Qed.
Print Assumptions C127_image.
Example C127_image_case : let f := demo_field [up3 "x"; up3 "y"] in
  ready f /\ FieldSpec.nonempty (f_shape f) /\ (exists ds, draw_2d chord_spline no_kwargs f = Ok ds) /\ texts_2d chord_spline no_kwargs f (None, None) = Ok (Some "x [m]", Some "y [m]").
Proof. split; [apply pair_ready; apply up3_proper|]. split; [repeat constructor|]. split; [eexists; vm_compute; reflexivity|vm_compute; reflexivity]. Qed.
(** several lines in one plot, any number of them: the horizontal text is that of the last *)
Theorem C127_lines : forall spl k fs f t, plain_1d k -> Forall line_field (fs ++ [f]) -> exists a, long_axes f = [a] /\ texts_fields spl k (fs ++ [f]) t = Ok (Some (text_of a), snd t).
Proof. exact texts_lines. Qed.
Print Assumptions C127_lines.
(** Full statement: the text beside the axis is that of every line drawn.  False: lines over different
    axes are drawn into one plot without complaint. *)
Theorem C127_lines_refuted : exists f g a b, line_field f /\ line_field g /\ long_axes f = [a] /\ long_axes g = [b] /\ text_of a <> text_of b /\
  forall t, texts_fields chord_spline no_kwargs [f; g] t = Ok (Some (text_of b), snd t).
Proof. exact lines_refuted. Qed.
Print Assumptions C127_lines_refuted.
(** any calls which draw, lines and images in any order, on the same axes: the horizontal text is that
    of the last call ... *)
Theorem C127_last : forall spl l c t, Forall (fits spl) (l ++ [c]) -> exists a r y, long_axes (call_field c) = a :: r /\ ax_run spl (l ++ [c]) t = Ok (Some (text_of a), y).
Proof. exact run_horizontal. Qed.
Print Assumptions C127_last.
(** ... and the vertical text that of the last image, whatever lines were drawn into it afterwards *)
Theorem C127_vertical : forall spl l k f m t, Forall (fits spl) (l ++ AddImage k f :: m) -> Forall (fun c => match c with AddLine _ _ => True | AddImage _ _ => False end) m ->
  exists a b r x, long_axes f = a :: b :: r /\ ax_run spl (l ++ AddImage k f :: m) t = Ok (x, Some (text_of b)).
Proof. exact run_vertical. Qed.
Print Assumptions C127_vertical.
Example C127_run_case : let l := [AddLine no_kwargs (demo_field [up3 "t"]); AddImage no_kwargs (demo_field [up3 "x"; up3 "y"]); AddLine no_kwargs (demo_field [one_cell "x"; up3 "z"])] in
  Forall (fits chord_spline) l /\ ax_run chord_spline l (None, None) = Ok (Some "z [m]", Some "y [m]").
Proof. exact run_case. Qed.
