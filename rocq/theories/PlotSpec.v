(** Specifications for C99 and C100. *)
From Verif Require Import PyBase NumpyModel NdModel AxisModel AxisSpec FieldModel FieldSpec PlotModel.

(** imshow with origin lower: the pixels divide the extent e into n equal parts, whose edges are these *)
Definition pixel_edge (e : Q * Q) (n k : Z) : Q := fst e + inject_Z k * ((snd e - fst e) / inject_Z n).
(** the edges of the pixels are the edges of the cells of the axis, up to the tolerance with which an axis
    counts as linear *)
Definition near (a b : Q) : Prop := qabs (a - b) <= (1 # 100000000) + (1 # 100000) * qabs b.
Definition pixels_match (close : Q -> Q -> Prop) (ax : axis) : Prop :=
  forall k, (0 <= k <= ax_len ax)%Z -> close (nth (Z.to_nat k) (ax_node ax) 0) (pixel_edge (ax_extent ax) (ax_len ax) k).
(** the values can and shall be drawn logarithmically *)
Definition loggable (wanted : bool) (a : nda Q) : Prop :=
  wanted = true /\ (forall i, in_shape (a_shape a) i = true -> 0 <= a_at a i) /\ exists i, in_shape (a_shape a) i = true /\ 0 < a_at a i.
(** the array m, drawn in rows from the bottom, is the data with x to the right and y upwards *)
Definition upright (data m : nda Q) (nx ny : Z) : Prop :=
  a_shape m = [ny; nx] /\ forall i j, (0 <= i < nx)%Z -> (0 <= j < ny)%Z -> a_at m [j; i] = a_at data [i; j].
(** the color scale from -b to b just contains all values *)
Definition scale_for (a : nda Q) (b : Q) : Prop :=
  (forall i, in_shape (a_shape a) i = true -> qabs (a_at a i) <= b) /\ exists i, in_shape (a_shape a) i = true /\ qabs (a_at a i) == b.
Fixpoint sum_below (f : nat -> Q) (n : nat) : Q := match n with O => 0 | S n => sum_below f n + f n end.
(** none of the arguments which the one-dimensional plot does not know *)
Definition plain_1d (k : kwargs) : Prop := k_clim k = None /\ k_lineoutx k = None /\ k_lineouty k = None /\ k_savecsv k = None.
(** Squeezing the field leaves two dimensions with these axes. *)
Definition two_dim {V} (spl : spline_fn) (f g : field V) (nx ny : Z) (ax ay : axis) : Prop :=
  field_squeeze spl f = Ok g /\ consistent g /\ f_shape g = [nx; ny] /\ (0 < nx)%Z /\ (0 < ny)%Z /\ f_axes g = [ax; ay].
