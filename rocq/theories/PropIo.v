(** Theorems about files: C52, C53, C54, C55, C80, C81, C82. *)
From Coq Require Import String Ascii List ZArith QArith Lia.
From Verif Require Import PyBase AxisModel AxisSpec NdModel FieldModel FieldSpec IoModel IoSpec IoFacts IoText IoVtk IoDemo CaseSpec CaseFacts.
Import ListNotations.
Open Scope list_scope.
Local Close Scope Q_scope.

(** * C52: npz *)
Theorem C52_roundtrip_partial : forall V spl (f : field V), consistent f -> Forall axis_proper (f_axes f) -> f_axes f <> [] -> length (f_axes f) <= 3 -> Forall (fun ax => short (ax_name ax) /\ short (ax_unit ax)) (f_axes f) ->
  exists z g, export_npz f = Ok z /\ import_npz spl z = Ok g /\ same_but_names f g /\ map ax_name (f_axes g) = map ax_name (f_axes f) /\ map ax_unit (f_axes g) = map ax_unit (f_axes f).
Proof. exact @npz_short. Qed.
Print Assumptions C52_roundtrip_partial.
(** whatever the names of the axes are, their first characters come back *)
Theorem C52_any_names_partial : forall V spl (f : field V), consistent f -> Forall axis_proper (f_axes f) -> f_axes f <> [] -> length (f_axes f) <= 3 ->
  exists z g, export_npz f = Ok z /\ import_npz spl z = Ok g /\ same_but_names f g /\ f_inner g = [] /\
    map ax_name (f_axes g) = map (fun ax => String.substring 0 1 (ax_name ax)) (f_axes f) /\ map ax_unit (f_axes g) = map (fun ax => String.substring 0 1 (ax_unit ax)) (f_axes f).
Proof. exact @npz_general. Qed.
Print Assumptions C52_any_names_partial.
(** through a file whose name ends with .npz *)
Theorem C52_file_partial : forall spl unstag fmt disk stem (f : field Q), consistent f -> Forall axis_proper (f_axes f) -> f_axes f <> [] -> length (f_axes f) <= 3 -> Forall (fun ax => short (ax_name ax) /\ short (ax_unit ax)) (f_axes f) ->
  exists p g, export_field spl unstag fmt (stem ++ ".npz") f = Ok p /\ load_field spl (fun n => if String.eqb n (fst p) then Some (snd p) else disk n) (stem ++ ".npz") = Ok g /\
    same_but_names f g /\ map ax_name (f_axes g) = map ax_name (f_axes f) /\ map ax_unit (f_axes g) = map ax_unit (f_axes f).
Proof. exact npz_file. Qed.
Print Assumptions C52_file_partial.
Example C52_case : let f := demo_field [up2 "x"; bent "y"; up3 "z"] in
  ready f /\ f_axes f <> [] /\ length (f_axes f) <= 3 /\ Forall (fun ax => short (ax_name ax) /\ short (ax_unit ax)) (f_axes f) /\ a_at (f_data f) [1; 2; 0]%Z = inject_Z 120.
Proof.
  split; [apply demo_ready, Forall_cons; [apply up2_proper|apply Forall_cons; [apply bent_proper|apply Forall_cons; [apply up3_proper|apply Forall_nil]]]|]. split; [discriminate|]. split; [cbn; lia|]. split; [|reflexivity]. repeat constructor.
Qed.
Theorem C52_long_names_refuted : exists f : field Q, consistent f /\ Forall axis_proper (f_axes f) /\ length (f_axes f) = 1 /\
  forall spl, exists z g, export_npz f = Ok z /\ import_npz spl z = Ok g /\ map ax_name (f_axes f) = ["px"%string] /\ map ax_name (f_axes g) = ["p"%string].
Proof. exact npz_long_names. Qed.
Print Assumptions C52_long_names_refuted.
Theorem C52_no_axes_refuted : forall V (f : field V), f_axes f = [] -> export_npz f = Err ValueError.
Proof. exact @npz_scalar. Qed.
Print Assumptions C52_no_axes_refuted.
Theorem C52_four_axes_refuted : exists f : field Q, consistent f /\ Forall axis_proper (f_axes f) /\ length (f_axes f) = 4 /\ forall spl, exists z, export_npz f = Ok z /\ import_npz spl z = Err KeyError.
Proof. exact npz_four. Qed.
Print Assumptions C52_four_axes_refuted.
(** the name is accepted in capitals, but the file gets another one *)
Theorem C52_capitals_refuted : exists f : field Q, ready f /\ f_axes f <> [] /\ length (f_axes f) <= 3 /\ Forall (fun ax => short (ax_name ax) /\ short (ax_unit ax)) (f_axes f) /\
  forall spl unstag fmt disk, disk "a.NPZ"%string = None -> exists p, export_field spl unstag fmt "a.NPZ" f = Ok p /\ load_field spl (fun n => if String.eqb n (fst p) then Some (snd p) else disk n) "a.NPZ" = Err IOError.
Proof. exact npz_capital. Qed.
Print Assumptions C52_capitals_refuted.

(** * C53: csv *)
(** with a blank as delimiter the matrix comes back *)
Theorem C53_blank_partial : forall spl fmt parse base a n m, reproduces_lines spl -> a_shape a = [Z.of_nat n; Z.of_nat m] -> 2 <= n -> 2 <= m ->
  (forall i j, (0 <= i < Z.of_nat n)%Z -> (0 <= j < Z.of_nat m)%Z -> readable fmt parse " " (a_at a [i; j])) ->
  exists file g, export_csv fmt a = Ok file /\ import_csv spl parse base " " file = Ok g /\ f_shape g = a_shape a /\
    (forall i j, (0 <= i < Z.of_nat n)%Z -> (0 <= j < Z.of_nat m)%Z -> a_at (f_data g) [i; j] = Some (a_at a [i; j])) /\
    l_name (f_top g) = base /\ exists x y, f_axes g = [x; y] /\ pixels "x" "px" n x /\ pixels "y" "px" m y.
Proof. exact csv_space_ok. Qed.
Print Assumptions C53_blank_partial.
(** with the delimiter import_field takes by itself no matrix comes back *)
Theorem C53_comma_refuted : forall spl fmt parse base a n m, reproduces_lines spl -> a_shape a = [Z.of_nat n; Z.of_nat m] -> 1 <= n -> 1 <= m ->
  (forall i j, (0 <= i < Z.of_nat n)%Z -> (0 <= j < Z.of_nat m)%Z -> readable fmt parse "," (a_at a [i; j])) ->
  exists file, export_csv fmt a = Ok file /\ import_csv spl parse base "," file = Err IndexError.
Proof. exact csv_default_fails. Qed.
Print Assumptions C53_comma_refuted.
Theorem C53_load_field_refuted : forall spl disk stem, load_field spl disk (stem ++ ".csv") = Err ValueError.
Proof. exact csv_load. Qed.
Print Assumptions C53_load_field_refuted.
(** other numbers of dimensions are refused *)
Theorem C53_dimensions : forall fmt a, (length (a_shape a) = 0 \/ 3 <= length (a_shape a)) -> export_csv fmt a = Err ValueError.
Proof. exact csv_dims. Qed.
Print Assumptions C53_dimensions.
Example C53_case : let a := mkarr [2; 3]%Z (fun i => match i with [x; y] => if (x =? y)%Z then 1%Q else 0%Q | _ => 0%Q end) in
  (forall i j d, d = " "%char \/ d = ","%char -> readable demo_fmt demo_parse d (a_at a [i; j])) /\ export_csv demo_fmt a = Ok ["1 0 0"; "0 1 0"]%string.
Proof. split; [|reflexivity]. intros i j d Hd. apply demo_readable; [|exact Hd]. cbn [a_at]. destruct (i =? j)%Z; tauto. Qed.

(** * C54: VTK *)
Theorem C54_scalars : forall V (zero : V) spl unstag unstagger skip (f0 : field V) rest, on_one_grid f0 (f0 :: rest) -> nonempty (f_shape f0) -> 2 <= length (f_shape f0) <= 3 -> length rest <= 3 ->
  exists v, export_scalars spl unstag unstagger skip (f0 :: rest) = Ok v /\ v_kind v = Scalars /\ lists_values zero (f0 :: rest) (S (length rest)) (f_shape f0) v /\
    (Forall ascending_even (f_axes f0) \/ Exists (fun ax => islinear ax = Ok false) (f_axes f0) -> locates_points f0 v).
Proof. exact @vtk_scalars. Qed.
Print Assumptions C54_scalars.
Theorem C54_vectors : forall V (zero : V) spl unstag unstagger skip (f0 : field V) rest, on_one_grid f0 (f0 :: rest) -> nonempty (f_shape f0) -> 2 <= length (f_shape f0) <= 3 -> length rest <= 2 ->
  exists v, export_vector spl unstag zero unstagger skip (f0 :: rest) = Ok v /\ v_kind v = Vectors /\ lists_values zero (f0 :: rest) 3 (f_shape f0) v /\
    (Forall ascending_even (f_axes f0) \/ Exists (fun ax => islinear ax = Ok false) (f_axes f0) -> locates_points f0 v).
Proof. exact @vtk_vector. Qed.
Print Assumptions C54_vectors.
Example C54_case : let f := demo_field [up2 "x"; up3 "y"] in on_one_grid f [f; f] /\ nonempty (f_shape f) /\ Forall ascending_even (f_axes f) /\ three (f_shape f) = [2; 3; 1]%Z /\ position 2 2 3 1 2 0 1 = 11.
Proof.
  split; [|split; [repeat constructor|split; [apply Forall_cons; [apply up2_even|apply Forall_cons; [apply up3_even|apply Forall_nil]]|split; reflexivity]]].
  intros g I. assert (g = demo_field [up2 "x"; up3 "y"]) as -> by (destruct I as [<- | [<- | []]]; reflexivity). split; [|split; reflexivity]. apply demo_ready, Forall_cons; [apply up2_proper|apply Forall_cons; [apply up3_proper|apply Forall_nil]].
Qed.
Example C54_bent_case : Exists (fun ax => islinear ax = Ok false) (f_axes (demo_field [up2 "x"; bent "y"])).
Proof. right. left. reflexivity. Qed.
(** fields on different grids (python's comparison of their axes) are brought together first, or refused *)
Theorem C54_staggered : forall V (zero : V) spl unstag (f0 : field V) rest l0 l, (forall f, In f rest -> exists b, same_axes (f_axes f) (f_axes f0) = Ok b) -> (exists f, In f rest /\ same_axes (f_axes f) (f_axes f0) = Ok false) -> length rest <= 3 ->
  (forall skip, unstag (f0 :: rest) = Ok (l0 :: l) -> on_one_grid l0 (l0 :: l) -> nonempty (f_shape l0) -> 2 <= length (f_shape l0) <= 3 -> length l <= 3 ->
     exists v, export_scalars spl unstag true skip (f0 :: rest) = Ok v /\ lists_values zero (l0 :: l) (S (length l)) (f_shape l0) v) /\
  (forall skip e, unstag (f0 :: rest) = Err e -> export_scalars spl unstag true skip (f0 :: rest) = Err e) /\
  export_scalars spl unstag false false (f0 :: rest) = Err ValueError.
Proof. exact @vtk_staggered. Qed.
Print Assumptions C54_staggered.
Theorem C54_descending_refuted : exists f : field Q, ready f /\ nonempty (f_shape f) /\ length (f_shape f) = 2 /\ forall spl unstag, exists v, export_scalars spl unstag true false [f] = Ok v /\ ~ locates_points f v.
Proof. exact vtk_descending. Qed.
Print Assumptions C54_descending_refuted.
(** two points always count as evenly spaced *)
Theorem C54_two_points_refuted : exists f : field Q, ready f /\ nonempty (f_shape f) /\ length (f_shape f) = 2 /\ forall spl unstag, exists v, export_scalars spl unstag true false [f] = Ok v /\ ~ locates_points f v.
Proof. exact vtk_two_points. Qed.
Print Assumptions C54_two_points_refuted.
Theorem C54_one_dimension : forall V spl unstag u s (f : field V) n, f_shape f = [n] -> export_scalars spl unstag u s [f] = Err ValueError.
Proof. exact @vtk_one_dim. Qed.
Print Assumptions C54_one_dimension.

(** * C55: images *)
Theorem C55_orientation : forall spl open3 base hot a h w rest, reproduces_lines spl -> a_shape a = Z.of_nat h :: Z.of_nat w :: rest -> 1 <= h -> 1 <= w -> (rest = [] \/ exists n, 1 <= n /\ rest = [Z.of_nat n] /\ (hot = false \/ 5 <= n)) ->
  exists g, import_image spl open3 base hot a = Ok g /\ f_shape g = Z.of_nat w :: Z.of_nat h :: rest /\
    (forall r c k, (0 <= r < Z.of_nat h)%Z -> (0 <= c < Z.of_nat w)%Z -> a_at (f_data g) (c :: (Z.of_nat h - 1 - r)%Z :: k) = a_at a (r :: c :: k)) /\
    (exists x y axs, f_axes g = x :: y :: axs /\ pixels "x" "px" w x /\ pixels "y" "px" h y /\ length axs = length rest) /\ l_name (f_top g) = base.
Proof. exact image_ok. Qed.
Print Assumptions C55_orientation.
Example C55_case : exists g, import_image chord_spline (fun a => a) "a.png" false (mkarr [2; 3; 3]%Z (fun i => inject_Z (hd 0%Z i))) = Ok g /\ a_at (f_data g) [0; 0; 0]%Z = 1%Q /\ a_at (f_data g) [0; 1; 0]%Z = 0%Q.
Proof. eexists. split; [vm_compute; reflexivity|]. split; reflexivity. Qed.

(** * C80: counts of png files *)
Theorem C80_counts_partial : forall b (a : nda Z), (0 <= b <= 16)%Z -> exists c, png_counts true (Some [b]) a = Ok c /\ a_shape c = a_shape a /\ forall i v, a_at a i = (v * 2 ^ (16 - b))%Z -> a_at c i = v.
Proof. exact png_ok. Qed.
Print Assumptions C80_counts_partial.
Example C80_case : exists c, png_counts true (Some [12%Z]) (mkarr [1]%Z (fun _ => 65520%Z)) = Ok c /\ a_at c [0%Z] = 4095%Z.
Proof. eexists. split; reflexivity. Qed.
(** a file of eight bits that says so becomes black *)
Theorem C80_eight_bits_refuted : forall b (a c : nda Z) i, (0 <= b <= 8)%Z -> png_counts true (Some [b]) a = Ok c -> (0 <= a_at a i < 256)%Z -> a_at c i = 0%Z.
Proof. exact png_eight. Qed.
Print Assumptions C80_eight_bits_refuted.
Theorem C80_colour_refuted : forall b1 b2 bs (a : nda Z), png_counts true (Some (b1 :: b2 :: bs)) a = Err TypeError.
Proof. exact (fun _ _ _ _ => eq_refl). Qed.
Print Assumptions C80_colour_refuted.

(** * C81: removing hot pixels *)
(** images of up to four channels cannot be read with it *)
Theorem C81_colour_refuted : forall spl open3 base a h w n, a_shape a = [h; w; n] -> (0 <= n < 5)%Z -> (forall b, a_shape (open3 b) = a_shape b) -> import_image spl open3 base true a = Err RuntimeError.
Proof. exact hot_colour. Qed.
Print Assumptions C81_colour_refuted.
(** to grey images nothing is done *)
Theorem C81_grey_refuted : forall spl open3 base a h w, a_shape a = [h; w] -> import_image spl open3 base true a = import_image spl open3 base false a.
Proof. exact hot_grey. Qed.
Print Assumptions C81_grey_refuted.

(** * C82: the ending of the name chooses the format *)
Theorem C82_export_partial : forall spl unstag fmt fname f,
  (ends_as fname "csv" -> forall l, export_csv fmt (f_data f) = Ok l -> export_field spl unstag fmt fname f = Ok (fname, FText l)) /\
  (ends_as fname "vtk" -> forall v, export_scalars spl unstag true false [f] = Ok v -> export_field spl unstag fmt fname f = Ok (fname, FVtk v)) /\
  (ends_as fname "npz" -> forall z, export_npz f = Ok z ->
     ((exists stem, fname = (stem ++ ".npz")%string) -> export_field spl unstag fmt fname f = Ok (fname, FNpz z)) /\
     ((~ exists stem, fname = (stem ++ ".npz")%string) -> export_field spl unstag fmt fname f = Ok ((fname ++ ".npz")%string, FNpz z))).
Proof. exact export_dispatch. Qed.
Print Assumptions C82_export_partial.
(** The full claim, that the file has the name given, is false: np.savez appends .npz to names which do not
    end with exactly these letters. *)
Theorem C82_name_refuted : forall spl unstag fmt f z, export_npz f = Ok z -> export_field spl unstag fmt "a.NPZ" f = Ok ("a.NPZ.npz"%string, FNpz z) /\ export_field spl unstag fmt "npz" f = Ok ("npz.npz"%string, FNpz z).
Proof. exact capital_name. Qed.
Print Assumptions C82_name_refuted.
Example C82_name_case : exists z, export_npz (demo_field [up2 "x"]) = Ok z.
Proof. eexists. reflexivity. Qed.
Theorem C82_load : forall spl disk fname z, ends_as fname "npz" -> disk fname = Some (FNpz z) -> load_field spl disk fname = import_npz spl z.
Proof. exact load_dispatch. Qed.
Print Assumptions C82_load.
(** names of any length with none of the endings *)
Theorem C82_others : forall spl unstag fmt disk fname f, ~ ends_as fname "npz" -> load_field spl disk fname = Err ValueError /\
  (~ ends_as fname "csv" -> ~ ends_as fname "vtk" -> export_field spl unstag fmt fname f = Err ValueError).
Proof. exact other_names. Qed.
Print Assumptions C82_others.
Example C82_others_case : ~ ends_as "pz" "npz" /\ ~ ends_as "pz" "csv" /\ ~ ends_as "pz" "vtk" /\ ends_as "a.nPz" "npz".
Proof. repeat split; try (intro H; apply ends_lower in H; [discriminate H|reflexivity]). apply ends_lower; reflexivity. Qed.
Example C82_case : ends_as "a.CsV" "csv" /\ ends_as "vtk" "vtk" /\ ends_as "b.Npz" "npz".
Proof. repeat split; apply ends_lower; reflexivity. Qed.
