(** The texts beside the axes of a plot: postpic/plotting/plotter_matplotlib.py, addaxislabels (207-213)
    and its calls in addField1d (228) and addField2d (356), addFields1d (242-248).  No proofs in this file.

    The labels are set after everything that can fail in PlotModel; the keyword arguments are those
    of PlotModel. *)
From Verif Require Import PyBase NumpyModel NdModel AxisModel FieldModel HistddModel PlotModel LabelModel.

(** what stands beside the horizontal and the vertical axis, [None] as long as nobody has set it *)
Definition ax_texts := (option string * option string)%type.
(** Axis.label, datahandling.py 286-292 *)
Definition axis_label (a : axis) : string := made_label (ax_name a) (ax_unit a).
(** 207-213 *)
Definition add_axis_labels (axes : list axis) (t : ax_texts) : ax_texts :=
  let x := match axes with a :: _ => Some (axis_label a) | [] => fst t end in
  let y := match axes with _ :: b :: _ => Some (axis_label b) | _ => snd t end in
  (x, y).
(** addField1d, 216-234 *)
Definition texts_1d (spl : spline_fn) (k : kwargs) (f : field Q) (t : ax_texts) : res ax_texts :=
  let! _ := draw_1d spl k f in
  let! g := field_squeeze spl f in
  Ok (add_axis_labels (f_axes g) t).
(** addField2d, 283-357 *)
Definition texts_2d (spl : spline_fn) (k : kwargs) (f : field Q) (t : ax_texts) : res ax_texts :=
  let! _ := draw_2d spl k f in
  let! g := field_squeeze spl f in
  Ok (add_axis_labels (f_axes g) t).
(** the loop of addFields1d, 242-248 *)
Fixpoint texts_fields (spl : spline_fn) (k : kwargs) (fs : list (field Q)) (t : ax_texts) : res ax_texts :=
  match fs with
  | [] => Ok t
  | f :: r => if (dims (f_shape f) <=? 0)%Z then texts_fields spl k r t
              else let! u := texts_1d spl k f t in texts_fields spl k r u
  end.
(** calls of addField1d and addField2d on the same axes, one after the other *)
Inductive ax_call := AddLine (k : kwargs) (f : field Q) | AddImage (k : kwargs) (f : field Q).
Definition do_ax_call (spl : spline_fn) (c : ax_call) (t : ax_texts) : res ax_texts :=
  match c with AddLine k f => texts_1d spl k f t | AddImage k f => texts_2d spl k f t end.
Fixpoint ax_run (spl : spline_fn) (l : list ax_call) (t : ax_texts) : res ax_texts :=
  match l with [] => Ok t | c :: r => let! u := do_ax_call spl c t in ax_run spl r u end.
