(** Saving, loading and importing: /repo/postpic/io/*.py.  No proofs in this file.

    Files are values: what numpy writes into them and reads from them is not modelled bit by
    bit.  Numbers are exact (the rounding of VTK's 'float' and of text is left out); strings
    hold no NUL character; label and infostring are left out. *)
From Coq Require Import String Ascii List ZArith QArith Bool.
From Verif Require Import PyBase NumpyModel AxisModel NdModel FieldModel.
Import ListNotations.

(** * Names of files, io/__init__.py *)
Definition lower_char (c : ascii) : ascii :=
  let n := nat_of_ascii c in if ((65 <=? n) && (n <=? 90))%nat then ascii_of_nat (n + 32) else c.
Fixpoint lower (s : string) : string := match s with EmptyString => EmptyString | String c r => String (lower_char c) (lower r) end.
Fixpoint endswith (s suffix : string) : bool :=
  if String.eqb s suffix then true else match s with EmptyString => false | String _ r => endswith r suffix end.
(** np.savez(file): '.npz' is appended to a name that does not end so *)
Definition savez_name (fname : string) : string := if endswith fname ".npz" then fname else (fname ++ ".npz")%string.

(** * npz, io/npy.py *)
Record npz (V : Type) := mkNpz {
  z_matrix : nda V; z_name : string; z_unit : string;
  z_edges : list (list Q); z_grids : list (list Q);
  z_axnames : list string; z_axunits : list string; z_lengths : list Z;
  z_ats : list (option bool); z_tao : list (option Q) }.
Arguments mkNpz {V}. Arguments z_matrix {V}. Arguments z_name {V}. Arguments z_unit {V}. Arguments z_edges {V}. Arguments z_grids {V}.
Arguments z_axnames {V}. Arguments z_axunits {V}. Arguments z_lengths {V}. Arguments z_ats {V}. Arguments z_tao {V}.
(** a row of zeros of the given length, of which the entries 0:k are assigned; one value is
    repeated *)
Definition assign_row (total k : Z) (vals : list Q) : res (list Q) :=
  let n := Z.to_nat (Z.max 0 (Z.min k total)) in
  let rest := repeat (0%Q) (Z.to_nat total - n) in
  if (length vals =? n)%nat then Ok (vals ++ rest)
  else match vals with [v] => Ok (repeat v n ++ rest) | _ => Err ValueError end.
(** an entry of np.array(['', ..]), which has room for one character *)
Definition one_char (s : string) : string := match s with EmptyString => EmptyString | String c _ => String c EmptyString end.
Fixpoint zmax_list (l : list Z) : res Z :=
  match l with [] => Err ValueError | [x] => Ok x | x :: r => let! m := zmax_list r in Ok (Z.max x m) end.
(** _export_field_npy, 32-75.  A Field inside a Field is saved as the array it holds *)
Definition export_npz {V} (f : field V) : res (npz V) :=
  let lens := map (fun ax => Z.of_nat (length (ax_node ax))) (f_axes f) in
  let! top := zmax_list lens in
  let! edges := mapM (fun ax => assign_row top (Z.of_nat (length (ax_node ax))) (ax_node ax)) (f_axes f) in
  let! grids := mapM (fun ax => assign_row (top - 1) (Z.of_nat (length (ax_node ax)) - 1) (ax_grid ax)) (f_axes f) in
  Ok (mkNpz (f_data f) (l_name (f_top f)) (l_unit (f_top f)) edges grids
        (map (fun ax => one_char (ax_name ax)) (f_axes f)) (map (fun ax => one_char (ax_unit ax)) (f_axes f)) lens (f_ats f) (f_tao f)).
(** _import_field_npy, 78-119 *)
Definition import_npz {V} (spl : spline_fn) (z : npz V) : res (field V) :=
  let! axes := mapM (fun nax =>
      let! len := getidx (z_lengths z) nax in
      let! edges := getidx (z_edges z) nax in
      let! grids := getidx (z_grids z) nax in
      let! g := getslice grids (mkslice (Some 0%Z) (Some (len - 1)%Z) None) in
      let! nm := getidx (z_axnames z) nax in
      let! un := getidx (z_axunits z) nax in
      let! nd := getslice edges (mkslice (Some 0%Z) (Some len) None) in
      mk_axis spl nm un (Some nd) (Some g) None None) (zrange (Z.of_nat (length (z_lengths z)))) in
  field_of (z_matrix z) (z_name z) (z_unit z) (map Some axes) (z_ats z) (z_tao z).

(** * csv, io/csv.py *)
(** [fmt]: how np.savetxt writes a number; [parse]: what np.genfromtxt reads from a token, None
    for nan *)
Fixpoint joined (d : string) (l : list string) : string :=
  match l with [] => ""%string | [x] => x | x :: r => (x ++ d ++ joined d r)%string end.
(** _export_field_csv, 33-42: np.savetxt takes one or two dimensions; a row of a one
    dimensional array holds one number.  The header is a comment and not kept *)
Definition export_csv (fmt : Q -> string) (a : nda Q) : res (list string) :=
  match a_shape a with
  | [n] => Ok (map (fun i => fmt (a_at a [i])) (zrange n))
  | [n; m] => Ok (map (fun i => joined " " (map (fun j => fmt (a_at a [i; j])) (zrange m))) (zrange n))
  | _ => Err ValueError
  end.
(** str.split(delimiter) for a delimiter of one character *)
Fixpoint split_at (d : ascii) (s : string) : list string :=
  match s with
  | EmptyString => [EmptyString]
  | String c r => if Ascii.eqb c d then EmptyString :: split_at d r
                  else match split_at d r with w :: ws => String c w :: ws | [] => [String c EmptyString] end
  end.
Fixpoint all_len {A} (n : nat) (l : list (list A)) : bool := match l with [] => true | x :: r => (length x =? n)%nat && all_len n r end.
(** np.genfromtxt(filename, delimiter): rows of unequal length are an error; at the end the
    array is squeezed.  Tokens are read without surrounding blanks by [parse]; empty lines are skipped *)
Definition genfromtxt (parse : string -> option Q) (d : ascii) (file : list string) : res (nda (option Q)) :=
  let rows := map (split_at d) (filter (fun l => negb (String.eqb l "")) file) in
  match rows with
  | [] => Ok (mkarr [0%Z] (fun _ => None))
  | r0 :: _ =>
      if all_len (length r0) rows
      then
        let v i j := match nth_error rows (Z.to_nat i) with Some r => match nth_error r (Z.to_nat j) with Some w => parse w | None => None end | None => None end in
        let n := Z.of_nat (length rows) in let m := Z.of_nat (length r0) in
        Ok (if (n =? 1)%Z then (if (m =? 1)%Z then mkarr [] (fun _ => v 0 0)%Z else mkarr [m] (fun i => match i with [j] => v 0 j | _ => None end)%Z)
            else if (m =? 1)%Z then mkarr [n] (fun i => match i with [k] => v k 0 | _ => None end)%Z
            else mkarr [n; m] (fun i => match i with [k; j] => v k j | _ => None end))
      else Err ValueError
  end.
(** Axis(name=, unit=, grid=np.linspace(0, n-1, n)) *)
Definition pixel_axis (spl : spline_fn) (name unit : string) (n : Z) : res axis :=
  let! g := np_linspace 0 (inject_Z (n - 1)) n in mk_axis spl name unit None (Some g) None None.
(** _import_field_csv, 45-63; the name is that of the file without its directory *)
Definition import_csv (spl : spline_fn) (parse : string -> option Q) (base : string) (d : ascii) (file : list string) : res (field (option Q)) :=
  let! ret := genfromtxt parse d file in
  let! axes := mapM (fun p => let! n := getidx (a_shape ret) (fst p) in pixel_axis spl (snd p) "px" n) [(0%Z, "x"%string); (1%Z, "y"%string)] in
  field_of ret base "?" (map Some axes) (repeat (Some false) (length (a_shape ret))) (repeat None (length (a_shape ret))).

(** * Images, io/image.py *)
(** _readpng, 60-95, without the reading: the samples are unsigned integers; without PyPNG or
    without an sBIT chunk they are kept.  [sbit]: the bytes of that chunk; ord wants one.  The
    shift of unsigned integers by a negative number is not defined: the model refuses it *)
Definition png_counts (pypng : bool) (sbit : option (list Z)) (data : nda Z) : res (nda Z) :=
  if negb pypng then Ok data
  else match sbit with
       | None => Ok data
       | Some [b] => if (16 <? b)%Z then Err ValueError else Ok (np_map (fun v => Z.shiftr v (16 - b)) data)
       | Some _ => Err TypeError
       end.
(** scipy.ndimage.grey_opening(data, size=(3, 3)) wants two dimensions; [open3] is what it
    does to an array of two *)
Definition grey_opening (open3 : nda Q -> nda Q) (a : nda Q) : res (nda Q) :=
  match a_shape a with [_; _] => Ok (open3 a) | _ => Err RuntimeError end.
Definition channel (a : nda Q) (i : Z) : nda Q :=
  match a_shape a with [h; w; _] => mkarr [h; w] (fun p => a_at a (p ++ [i])) | _ => a end.
Definition set_channel (a : nda Q) (i : Z) (b : nda Q) : nda Q :=
  mkarr (a_shape a) (fun p => match p with [r; c; k] => if (k =? i)%Z then a_at b [r; c] else a_at a p | _ => a_at a p end).
(** 39-46.  The [else] belongs to the [for]: it follows the loop over the channels, and nothing
    is done to images of one channel *)
Definition hotpixels (open3 : nda Q -> nda Q) (a : nda Q) : res (nda Q) :=
  match a_shape a with
  | [_; _; n] =>
      if (n <? 5)%Z
      then let! b := fold_left (fun b i => let! a := b in let! c := grey_opening open3 (channel a i) in Ok (set_channel a i c)) (zrange n) (Ok a) in
           grey_opening open3 b
      else Ok a
  | _ => Ok a
  end.
(** 48-50: np.moveaxis(data, 0, 1)[:, ::-1, ...] *)
Definition upright (a : nda Q) : res (nda Q) :=
  match a_shape a with
  | h :: w :: rest => Ok (mkarr (w :: h :: rest) (fun p => match p with c :: r :: k => a_at a ((h - 1 - r)%Z :: c :: k) | _ => 0%Q end))
  | _ => Err ValueError
  end.
(** _import_field_image, 31-61.  [data]: what the reader of the file format returns *)
Definition import_image (spl : spline_fn) (open3 : nda Q -> nda Q) (base : string) (hot : bool) (data : nda Q) : res (field Q) :=
  let! data := (if hot then hotpixels open3 data else Ok data) in
  let! data := upright data in
  let! axes := mapM (fun p => pixel_axis spl (fst (fst p)) (snd (fst p)) (snd p)) (combine [("x", "px"); ("y", "px"); ("channel", "")]%string (a_shape data)) in
  field_of data base "counts" (map Some axes) (repeat (Some false) (length (a_shape data))) (repeat None (length (a_shape data))).

(** * VTK, io/vtk.py *)
(** indices of an array in order 'F': the first runs fastest *)
Fixpoint indicesF (sh : list Z) : list (list Z) :=
  match sh with [] => [[]] | n :: r => flat_map (fun rest => map (fun i => i :: rest) (zrange n)) (indicesF r) end.
Definition ravelF {V} (a : nda V) : list V := map (a_at a) (indicesF (a_shape a)).
(** ArrayData.transform_data, 217-220: vstack wants rows of equal length; then column by column *)
Definition transform_data {V} (fields : list (nda V)) : res (list V) :=
  match map ravelF fields with
  | [] => Err ValueError
  | (r0 :: _) as rows =>
      if all_len (length r0) rows
      then Ok (flat_map (fun p => flat_map (fun r => match nth_error r p with Some v => [v] | None => [] end) rows) (seq 0 (length r0)))
      else Err ValueError
  end.
Inductive dataset := Structured (dimensions : list Z) (origin spacing : list Q) | Rectilinear (grid : list (list Q)).
Inductive vtk_kind := Scalars | Vectors.
(** what is in the file: the data set, the announced number of points, the kind, the number of
    components per point and the values *)
Record vtk (V : Type) := mkVtk { v_set : dataset; v_points : Z; v_kind : vtk_kind; v_comps : nat; v_values : list V }.
Arguments mkVtk {V}. Arguments v_set {V}. Arguments v_points {V}. Arguments v_kind {V}. Arguments v_comps {V}. Arguments v_values {V}.
(** StructuredPoints.from_field, 85-91 *)
Definition structured_of {V} (f : field V) : res dataset :=
  if negb (dims (f_shape f) =? 3)%Z then Err ValueError
  else
    let! origin := mapM (fun ax => getidx (ax_grid ax) 0) (f_axes f) in
    let! sp := mapM spacing (f_axes f) in
    if (length (f_axes f) =? 3)%nat then Ok (Structured (map ax_len (f_axes f)) origin sp) else Err ValueError.
(** RectilinearGrid.from_field, 110-112; Field.grid of one axis is that axis' grid *)
Definition rectilinear_of {V} (f : field V) : res dataset :=
  if (length (f_axes f) =? 3)%nat then Ok (Rectilinear (map ax_grid (f_axes f))) else Err ValueError.
(** list equality: lengths, then entry by entry up to the first difference *)
Fixpoint axes_eqb (l m : list axis) : res bool :=
  match l, m with
  | [], [] => Ok true
  | a :: l', b :: m' => let! e := axis_eqb a b in if e then axes_eqb l' m' else Ok false
  | _, _ => Ok false
  end.
Definition same_axes (l m : list axis) : res bool := if (length l =? length m)%nat then axes_eqb l m else Ok false.
(** _export_arraydata_vtk, 258-304; [unstag] is helper.unstagger_fields *)
Definition export_arraydata {V} (spl : spline_fn) (unstag : list (field V) -> res (list (field V))) (kind : vtk_kind) (unstagger skip : bool) (fields : list (field V)) : res (vtk V) :=
  match fields with
  | [] => Err IndexError
  | f0 :: rest =>
      let! same := mapM (fun f => same_axes (f_axes f) (f_axes f0)) rest in
      let! fields := (if forallb (fun b => b) same then Ok fields
                      else if unstagger then unstag fields
                      else if skip then Ok fields else Err ValueError) in
      let! g0 := getidx fields 0 in
      if (3 <? length (f_shape g0))%nat then Err ValueError
      else if (length (f_shape g0) =? 1)%nat then Err ValueError
      else
        let! fields := mapM (fun f => field_atleast_nd spl f 3) fields in
        let! g0 := getidx fields 0 in
        let! lin := mapM islinear (f_axes g0) in
        let! ds := (if forallb (fun b => b) lin then structured_of g0 else rectilinear_of g0) in
        if (match kind with Vectors => negb (length fields =? 3)%nat | Scalars => (4 <? length fields)%nat end) then Err ValueError
        else
          let! vals := transform_data (map f_data fields) in
          Ok (mkVtk ds (zprod (f_shape g0)) kind (length fields) vals)
  end.
(** export_scalars_vtk, 337-349 *)
Definition export_scalars {V} spl unstag (unstagger skip : bool) (fields : list (field V)) : res (vtk V) :=
  if (4 <? length fields)%nat then Err ValueError else export_arraydata spl unstag Scalars unstagger skip fields.
(** export_vector_vtk, 316-334: missing components are zero fields on the axes of the first *)
Definition zero_like {V} (zero : V) (f : field V) : field V := mkField (np_map (fun _ => zero) (f_data f)) (f_top f) [].
Definition export_vector {V} spl unstag (zero : V) (unstagger skip : bool) (fields : list (field V)) : res (vtk V) :=
  if (3 <? length fields)%nat then Err ValueError
  else match fields with
       | [] => Err IndexError
       | f0 :: _ => export_arraydata spl unstag Vectors unstagger skip (fields ++ repeat (zero_like zero f0) (3 - length fields))
       end.

(** * Choice of the format, io/__init__.py *)
Inductive file (V : Type) := FNpz (z : npz V) | FText (l : list string) | FVtk (v : vtk V).
Arguments FNpz {V}. Arguments FText {V}. Arguments FVtk {V}.
(** export_field, 62-80: the name of the file written and its contents *)
Definition export_field spl unstag fmt (fname : string) (f : field Q) : res (string * file Q) :=
  if endswith (lower fname) "npz" then let! z := export_npz f in Ok (savez_name fname, FNpz z)
  else if endswith (lower fname) "csv" then let! l := export_csv fmt (f_data f) in Ok (fname, FText l)
  else if endswith (lower fname) "vtk" then let! v := export_scalars spl unstag true false [f] in Ok (fname, FVtk v)
  else Err ValueError.
(** load_field, 34-41; [disk] maps names to files, what is not an npz file is refused by np.load *)
Definition load_field spl (disk : string -> option (file Q)) (fname : string) : res (field Q) :=
  if negb (endswith (lower fname) "npz") then Err ValueError
  else match disk fname with Some (FNpz z) => import_npz spl z | Some _ => Err ValueError | None => Err IOError end.
