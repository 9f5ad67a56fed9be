(** Property theorems about what a plot shows (C99) and what plotting does with its arguments (C100). *)
From Coq Require Import Lia Lqa.
From Verif Require Import PyBase NumpyModel NdModel AxisModel AxisSpec FieldModel FieldSpec HistddModel PlotModel PlotSpec PlotFacts IoSpec IoDemo PlotDemo.
Local Open Scope Q_scope.

(** ** C99 *)
(** A field with one dimension of more than one point is drawn as a line through its points, each value
    at its grid point, logarithmically exactly if that is wanted and possible. *)
Theorem C99_line : forall fuel spl maxlen k (f : field Q), plain_1d k -> ready f -> FieldSpec.nonempty (f_shape f) -> length (long_dims (f_shape f)) = 1%nat ->
  exists g n ax y log, squeezed f g /\ f_shape g = [n] /\ f_axes g = [ax] /\ draw_1d spl k f = Ok [Line (ax_grid ax) y log] /\ length y = Z.to_nat n /\ (forall i, (0 <= i < n)%Z -> nth (Z.to_nat i) y 0 = a_at (f_data g) [i])
    /\ (log = true <-> loggable (orelse (k_log10plot k) true) (f_data g)) /\ plot_field fuel spl false maxlen k (Some f) = draw_1d spl k g.
Proof. exact line_all. Qed.
Print Assumptions C99_line.
Example C99_line_case : plain_1d no_kwargs /\ ready (demo_field [one_cell "x"; up3 "y"]) /\ long_dims (f_shape (demo_field [one_cell "x"; up3 "y"])) = [1%nat] /\ draw_1d chord_spline no_kwargs (demo_field [up3 "y"]) = Ok [Line [1 # 2; 3 # 2; 5 # 2] [0; 1; 2] true].
Proof. split; [repeat split|]. split; [apply pair_ready; [apply one_cell_proper|apply up3_proper]|]. split; [reflexivity|vm_compute; reflexivity]. Qed.
(** Every field with two dimensions of more than one point can be squeezed to these. *)
Theorem C99_squeezed : forall spl (f : field Q), ready f -> FieldSpec.nonempty (f_shape f) -> length (long_dims (f_shape f)) = 2%nat ->
  exists g nx ny ax ay, two_dim spl f g nx ny ax ay /\ squeezed f g /\ axis_proper ax /\ axis_proper ay /\ (1 < nx)%Z /\ (1 < ny)%Z.
Proof. exact squeezed_2d. Qed.
Print Assumptions C99_squeezed.
(** If both axes count as linear, it is drawn as an image, the first axis to the right and the second
    upwards, on the extents of the axes. *)
Theorem C99_image : forall spl k (f g : field Q) nx ny ax ay, two_dim spl f g nx ny ax ay -> islinear ax = Ok true -> islinear ay = Ok true ->
  exists m log rest, draw_2d spl k f = Ok (Image m log (ax_extent ax) (ax_extent ay) :: rest) /\ upright (f_data g) m nx ny /\ (log = true <-> loggable (orelse (k_log10plot k) true) (f_data g)).
Proof. exact image_drawn. Qed.
Print Assumptions C99_image.
(** The pixels of the image are then the cells of the field, as closely as the axis is linear ... *)
Theorem C99_pixels : forall ax, axis_proper ax -> islinear ax = Ok true -> (3 <= ax_len ax)%Z -> pixels_match near ax.
Proof. exact pixels_near. Qed.
Print Assumptions C99_pixels.
(** ... and exactly, if it has cells of one width. *)
Theorem C99_pixels_exact : forall ax a b n, axis_uniform a b n ax -> (1 <= n)%nat -> islinear ax = Ok true /\ pixels_match Qeq ax.
Proof. exact pixels_uniform. Qed.
Print Assumptions C99_pixels_exact.
Example C99_image_case : exists g ax ay, ready (flat 0) /\ two_dim chord_spline (flat 0) g 3 3 ax ay /\ axis_proper ax /\ islinear ax = Ok true /\ islinear ay = Ok true /\ pixels_match near ax /\
  exists m log rest, draw_2d chord_spline no_kwargs (flat 0) = Ok (Image m log (ax_extent ax) (ax_extent ay) :: rest) /\ upright (f_data g) m 3 3.
Proof.
  destruct (flat_case 0) as (g & ax & ay & R & T & P1 & P2 & L1 & L2 & S). exists g, ax, ay. split; [exact R|]. split; [exact T|]. split; [exact P1|]. split; [exact L1|]. split; [exact L2|]. split.
  - apply pixels_near; [exact P1|exact L1|]. destruct T as (_ & C & E & _ & _ & A). destruct (two_axes g 3 3 C E) as (ax2 & ay2 & A2 & B2 & _). rewrite A in A2. injection A2 as <- <-. rewrite B2. lia.
  - destruct (image_drawn chord_spline no_kwargs _ g 3 3 ax ay T L1 L2) as (m & log & rest & D & U & _). exists m, log, rest. auto.
Qed.
(** If an axis is not linear, the cells are drawn where they are, ... *)
Theorem C99_mesh_partial : forall spl k (f g : field Q) nx ny ax ay lx ly, two_dim spl f g nx ny ax ay -> islinear ax = Ok lx -> islinear ay = Ok ly -> lx && ly = false -> k_clim k <> None \/ loggable (orelse (k_log10plot k) true) (f_data g) ->
  exists m log rest, draw_2d spl k f = Ok (Mesh (ax_node ax) (ax_node ay) m log :: rest) /\ upright (f_data g) m nx ny /\ (log = true <-> loggable (orelse (k_log10plot k) true) (f_data g)).
Proof. exact mesh_drawn. Qed.
Print Assumptions C99_mesh_partial.
Example C99_mesh_case : exists f g ax ay, ready f /\ two_dim chord_spline f g 3 3 ax ay /\ islinear ax = Ok false /\ islinear ay = Ok true /\ loggable true (f_data g).
Proof. exact curved_case. Qed.
(** ... but only if the values are drawn logarithmically or limits are given.  Full statement: the field
    is drawn.  False without: *)
Theorem C99_mesh_fails : forall spl k (f g : field Q) nx ny ax ay lx ly, two_dim spl f g nx ny ax ay -> islinear ax = Ok lx -> islinear ay = Ok ly -> lx && ly = false -> k_clim k = None -> ~ loggable (orelse (k_log10plot k) true) (f_data g) -> draw_2d spl k f = Err IndexError.
Proof. exact mesh_fails. Qed.
Print Assumptions C99_mesh_fails.
Theorem C99_mesh_refuted : exists (f : field Q) g ax ay, ready f /\ two_dim chord_spline f g 3 3 ax ay /\ islinear ax = Ok false /\ islinear ay = Ok true /\ draw_2d chord_spline no_kwargs f = Err IndexError.
Proof. exact signed_mesh. Qed.
Print Assumptions C99_mesh_refuted.
(** The colors of values which are not drawn logarithmically reach from -b to b, where b is the largest
    absolute value; with limits given, these are used. *)
Theorem C99_scale : forall spl k (f g : field Q) nx ny ax ay, two_dim spl f g nx ny ax ay -> islinear ax = Ok true -> islinear ay = Ok true -> k_clim k = None -> ~ loggable (orelse (k_log10plot k) true) (f_data g) ->
  exists im b rest, draw_2d spl k f = Ok (im :: Limits (- b) b :: rest) /\ scale_for (f_data g) b.
Proof. exact scale_drawn. Qed.
Print Assumptions C99_scale.
Theorem C99_limits : forall spl k (f g : field Q) nx ny ax ay lo hi, two_dim spl f g nx ny ax ay -> islinear ax = Ok true -> islinear ay = Ok true -> k_clim k = Some (lo, hi) -> exists im rest, draw_2d spl k f = Ok (im :: Limits lo hi :: rest).
Proof. exact clim_drawn. Qed.
Print Assumptions C99_limits.
Example C99_scale_case : exists g ax ay, two_dim chord_spline (flat 100) g 3 3 ax ay /\ islinear ax = Ok true /\ islinear ay = Ok true /\ ~ loggable true (f_data g) /\ exists im b rest, draw_2d chord_spline no_kwargs (flat 100) = Ok (im :: Limits (- b) b :: rest) /\ scale_for (f_data g) b.
Proof.
  destruct (flat_case 100) as (g & ax & ay & R & T & P1 & P2 & L1 & L2 & S). exists g, ax, ay. pose proof (flat_signed g 3 3 ax ay T) as N. split; [exact T|]. split; [exact L1|]. split; [exact L2|]. split; [exact N|]. exact (scale_drawn chord_spline no_kwargs (flat 100) g 3 3 ax ay T L1 L2 eq_refl N).
Qed.
(** Full statement: the pixels are the cells of the field.  False for two cells, which always count as
    linear, ... *)
Theorem C99_two_refuted : exists (f : field Q) g ax ay, ready f /\ two_dim chord_spline f g 2 3 ax ay /\ axis_proper ax /\ axis_proper ay /\
  (exists m log rest, draw_2d chord_spline no_kwargs f = Ok (Image m log (ax_extent ax) (ax_extent ay) :: rest)) /\ ~ pixels_match near ax.
Proof. exact two_unequal. Qed.
Print Assumptions C99_two_refuted.
(** ... and for every axis not longer than 1e-8, for example nanometers in units of meters: *)
Theorem C99_small : forall ax, axis_proper ax -> qabs (snd (ax_extent ax) - fst (ax_extent ax)) <= 1 # 100000000 -> islinear ax = Ok true.
Proof. exact small_islinear. Qed.
Print Assumptions C99_small.
(** an edge may be drawn at three times its position. *)
Theorem C99_small_refuted : exists (f : field Q) g ax ay, ready f /\ two_dim chord_spline f g 3 3 ax ay /\ axis_proper ax /\ axis_proper ay /\
  (exists m log rest, draw_2d chord_spline no_kwargs f = Ok (Image m log (ax_extent ax) (ax_extent ay) :: rest)) /\ pixel_edge (ax_extent ax) 3 1 == 3 * nth 1 (ax_node ax) 0 /\ 0 < nth 1 (ax_node ax) 0.
Proof. exact small_unequal. Qed.
Print Assumptions C99_small_refuted.

(** A field whose third axis has three or four entries is drawn as an image of colors, if all its axes count as linear ... *)
Theorem C99_color : forall spl k (f g : field Q) a b n, field_squeeze spl f = Ok g -> f_shape g = [a; b; n] -> (0 < a)%Z -> (0 < b)%Z -> n = 3%Z \/ n = 4%Z ->
  Forall (fun ax => islinear ax = Ok true) (f_axes g) -> draw_2d spl k f = Ok [Color].
Proof. exact color_image. Qed.
Print Assumptions C99_color.
(** ... by plotField as well, which squeezes twice. *)
Theorem C99_color_plot : forall fuel spl maxlen k (f g h : field Q) a b n, field_squeeze spl f = Ok g -> field_squeeze spl g = Ok h -> f_shape g = [a; b; n] -> f_shape h = [a; b; n] -> (0 < a)%Z -> (0 < b)%Z -> n = 3%Z \/ n = 4%Z ->
  Forall (fun ax => islinear ax = Ok true) (f_axes h) -> plot_field fuel spl false maxlen k (Some f) = Ok [Color].
Proof. exact color_plot. Qed.
Print Assumptions C99_color_plot.
Example C99_color_case : exists g h, field_squeeze chord_spline (demo_field [up3 "x"; up3 "y"; up3 "c"]) = Ok g /\ field_squeeze chord_spline g = Ok h /\ f_shape g = [3; 3; 3]%Z /\ f_shape h = [3; 3; 3]%Z /\ Forall (fun ax => islinear ax = Ok true) (f_axes h) /\
  draw_2d chord_spline no_kwargs (demo_field [up3 "x"; up3 "y"; up3 "c"]) = Ok [Color] /\ plot_field 0 chord_spline false 4000 no_kwargs (Some (demo_field [up3 "x"; up3 "y"; up3 "c"])) = Ok [Color].
Proof.
  destruct (field_squeeze chord_spline (demo_field [up3 "x"; up3 "y"; up3 "c"])) as [g|] eqn:E; [|vm_compute in E; discriminate E].
  destruct (field_squeeze chord_spline g) as [h|] eqn:F; [|vm_compute in E; injection E as <-; vm_compute in F; discriminate F].
  exists g, h. split; [reflexivity|]. split; [exact F|].
  split; [vm_compute in E; injection E as <-; reflexivity|].
  split; [vm_compute in E; injection E as <-; vm_compute in F; injection F as <-; reflexivity|].
  split; [vm_compute in E; injection E as <-; vm_compute in F; injection F as <-; repeat constructor|].
  split; vm_compute; reflexivity.
Qed.

(** ** C100 *)
(** A lineout along an axis shows for each of its points the mean over the other axis, ... *)
Theorem C100_lineout_x : forall spl k (f g : field Q) nx ny ax ay, two_dim spl f g nx ny ax ay -> islinear ax = Ok true -> islinear ay = Ok true -> k_lineoutx k = Some true -> (2 <= nx)%Z ->
  exists ds x y log, draw_2d spl k f = Ok ds /\ In (LineoutX x y log) ds /\ length x = Z.to_nat nx /\ length y = Z.to_nat nx /\ forall i, (0 <= i < nx)%Z ->
    nth (Z.to_nat i) y 0 == sum_below (fun j => a_at (f_data g) [i; Z.of_nat j]) (Z.to_nat ny) / inject_Z ny
    /\ nth (Z.to_nat i) x 0 == fst (ax_extent ax) + inject_Z i * ((snd (ax_extent ax) - fst (ax_extent ax)) / inject_Z (nx - 1)).
Proof. exact lineout_x_drawn. Qed.
Print Assumptions C100_lineout_x.
Theorem C100_lineout_y : forall spl k (f g : field Q) nx ny ax ay, two_dim spl f g nx ny ax ay -> islinear ax = Ok true -> islinear ay = Ok true -> k_lineouty k = Some true -> (2 <= ny)%Z ->
  exists ds x y log, draw_2d spl k f = Ok ds /\ In (LineoutY x y log) ds /\ length x = Z.to_nat ny /\ length y = Z.to_nat ny /\ forall j, (0 <= j < ny)%Z ->
    nth (Z.to_nat j) y 0 == sum_below (fun i => a_at (f_data g) [Z.of_nat i; j]) (Z.to_nat nx) / inject_Z nx
    /\ nth (Z.to_nat j) x 0 == fst (ax_extent ay) + inject_Z j * ((snd (ax_extent ay) - fst (ax_extent ay)) / inject_Z (ny - 1)).
Proof. exact lineout_y_drawn. Qed.
Print Assumptions C100_lineout_y.
Example C100_lineout_case : exists g ax ay, two_dim chord_spline (flat 100) g 3 3 ax ay /\ islinear ax = Ok true /\ islinear ay = Ok true.
Proof. destruct (flat_case 100) as (g & ax & ay & R & T & P1 & P2 & L1 & L2 & S). exists g, ax, ay. auto. Qed.
(** ... but the positions given above run from end to end of the axis, not from point to point.  They are
    shifted against the points by up to half a cell: *)
Theorem C100_positions : forall ax a b n i, axis_uniform a b n ax -> (2 <= n)%nat -> (i < n)%nat ->
  fst (ax_extent ax) + inject_Z (Z.of_nat i) * ((snd (ax_extent ax) - fst (ax_extent ax)) / inject_Z (Z.of_nat n - 1)) - nth i (ax_grid ax) 0
  == (inject_Z (Z.of_nat i) / inject_Z (Z.of_nat n - 1) - (1 # 2)) * ((b - a) / inject_Z (Z.of_nat n)).
Proof. exact lineout_shift. Qed.
Print Assumptions C100_positions.
(** Full statement: each value is at its grid point.  False for every axis: *)
Theorem C100_positions_refuted : forall ax a b n, axis_uniform a b n ax -> (2 <= n)%nat -> fst (ax_extent ax) - nth 0 (ax_grid ax) 0 == - (1 # 2) * ((b - a) / inject_Z (Z.of_nat n)).
Proof. exact positions_off. Qed.
Print Assumptions C100_positions_refuted.
Example C100_positions_case : axis_uniform 0 3 3 (up3 "x").
Proof.
  split; [reflexivity|]. split; [reflexivity|]. split; [reflexivity|]. split; [reflexivity|]. split; [reflexivity|]. split; intros i Hi; do 4 (destruct i as [|i]; [reflexivity || (exfalso; lia)|]); exfalso; lia.
Qed.
(** plotFields1d leaves the infos of the fields alone if they are all the same. *)
Theorem C100_infos_partial : forall spl k fs ds is, (forall f g, In f fs -> In g fs -> snd f = snd g) -> plot_fields_1d spl k fs = Ok (ds, is) -> is = map snd fs.
Proof. exact infos_kept. Qed.
Print Assumptions C100_infos_partial.
(** Full statement: it always does.  False: if they differ, all are lost. *)
Theorem C100_infos_lost : forall spl k fs ds is, (exists f g, In f fs /\ In g fs /\ snd f <> snd g) -> (forall f, In f fs -> (0 < dims (f_shape (fst f)))%Z) -> plot_fields_1d spl k fs = Ok (ds, is) -> is = map (fun _ => []) fs.
Proof. exact infos_lost. Qed.
Print Assumptions C100_infos_lost.
Theorem C100_infos_refuted : exists (f g : field Q) ds is, plot_fields_1d chord_spline no_kwargs [(f, ["a"%string]); (g, ["b"%string])] = Ok (ds, is) /\ is = [[]; []].
Proof. exact infos_gone. Qed.
Print Assumptions C100_infos_refuted.
(** Full statement: large fields are drawn reduced to the length wanted.  False: whatever the reduction
    gives is not used, ... *)
Theorem C100_reduced_unused : forall fuel spl maxlen k f g r, field_squeeze spl f = Ok g -> field_autoreduce fuel spl g maxlen = Ok r -> plot_field fuel spl true maxlen k (Some f) = plot_field fuel spl false maxlen k (Some f).
Proof. exact autoreduce_dropped. Qed.
Print Assumptions C100_reduced_unused.
(** ... so five points are drawn where two were left. *)
Theorem C100_reduced_refuted : exists (f : field Q), ready f /\ length_is 5 (Ok f) = true /\ length_is 2 (field_autoreduce 10 chord_spline f 3) = true /\ line_length 5 (plot_field 10 chord_spline true 3 no_kwargs (Some f)) = true.
Proof. exact not_reduced. Qed.
Print Assumptions C100_reduced_refuted.
(** Full statement: the arguments of plotField are those of the plots of one and two dimensions.  False:
    none of these can be given for a line ... *)
Theorem C100_arguments_refuted : forall fuel spl maxlen k (f : field Q), ready f -> FieldSpec.nonempty (f_shape f) -> length (long_dims (f_shape f)) = 1%nat -> k_savecsv k <> None \/ k_clim k <> None \/ k_lineoutx k <> None \/ k_lineouty k <> None -> plot_field fuel spl false maxlen k (Some f) = Err TypeError.
Proof. exact plotted_1d. Qed.
Print Assumptions C100_arguments_refuted.
Example C100_arguments_case : ready (demo_field [up3 "x"]) /\ FieldSpec.nonempty (f_shape (demo_field [up3 "x"])) /\ length (long_dims (f_shape (demo_field [up3 "x"]))) = 1%nat /\ plot_field 1 chord_spline false 4000 (mkkw None None None None (Some true)) (Some (demo_field [up3 "x"])) = Err TypeError.
Proof. split; [apply single_ready, up3_proper|]. split; [repeat constructor|]. split; [reflexivity|vm_compute; reflexivity]. Qed.
(** ... and savecsv does nothing in two dimensions. *)
Theorem C100_savecsv_refuted : forall spl f a b c d, draw_2d spl (mkkw a b c d (Some true)) f = draw_2d spl (mkkw a b c d None) f.
Proof. exact savecsv_2d. Qed.
Print Assumptions C100_savecsv_refuted.
(** Full statement: a field with a value is drawn.  False for a single value: *)
Theorem C100_single_refuted : exists f : field Q, ready f /\ f_shape f = [1%Z] /\ a_at (f_data f) [0%Z] == 42 /\ plot_field 0 chord_spline false 4000 no_kwargs (Some f) = Ok [NoData].
Proof. exact single_sample. Qed.
Print Assumptions C100_single_refuted.
(** A field of three dimensions is refused, unless the last is that of colors. *)
Theorem C100_cube : forall fuel spl maxlen k f g a b c, field_squeeze spl f = Ok g -> f_shape g = [a; b; c] -> (0 < a)%Z -> (0 < b)%Z -> (0 < c)%Z -> c <> 3%Z -> c <> 4%Z -> plot_field fuel spl false maxlen k (Some f) = Err BareException.
Proof. exact plot_3d. Qed.
Print Assumptions C100_cube.
Example C100_cube_case : plot_field 0 chord_spline false 4000 no_kwargs (Some (demo_field [up3 "x"; up3 "y"; up2 "z"])) = Err BareException.
Proof. vm_compute. reflexivity. Qed.
