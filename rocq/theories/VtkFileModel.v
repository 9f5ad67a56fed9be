(** The bytes of a VTK file, /repo/postpic/io/vtk.py 94-98, 114-180, 193-200, 205-272.
    No proofs in this file.

    Simplifications: a string is a list of bytes, so the characters of a name are those below 256;
    two functions which are not modelled write numbers: text is '{}'.format of a float, bin is
    astype(dtype).tobytes() of one number for a size of 4 or 8 bytes.  Everything up to the data
    (IoModel.export_scalars, export_vector) comes before the file is opened; that includes np.vstack in
    transform_data, which in the code comes after the header has been written and fails for arrays of
    different sizes (skip_axes_check=True only). *)
From Coq Require Import String Ascii List ZArith QArith DecimalString.
From Verif Require Import PyBase FieldModel IoModel.
Import ListNotations.
Local Open Scope string_scope.

Definition nl : string := String "010" "".
Fixpoint concat_all (l : list string) : string := match l with [] => "" | s :: r => s ++ concat_all r end.
(** '{}'.format of an integer *)
Definition dec (z : Z) : string := NilEmpty.string_of_int (Z.to_int z).
(** s.encode('ascii') *)
Fixpoint ascii_only (s : string) : bool := match s with "" => true | String c r => (nat_of_ascii c <? 128)%nat && ascii_only r end.
Definition encode (s : string) : res string := if ascii_only s then Ok s else Err ValueError.
(** s.replace(' ', '_') *)
Fixpoint underscores (s : string) : string :=
  match s with "" => "" | String c r => String (if Ascii.eqb c " " then "_" else c)%char (underscores r) end.
(** VtkFile.__init__, 136-150: the size of a number *)
Definition size_of (type : string) : res nat :=
  if String.eqb type "double" then Ok 8%nat else if String.eqb type "float" then Ok 4%nat else Err ValueError.
(** ArrayData.__init__, 208-215, after 270-272: an empty name given becomes 'Field', no name given the
    name of the first field *)
Definition array_name (given : option string) (field_name : string) : string :=
  let given := match given with Some n => if String.eqb n "" then Some "Field" else Some n | None => None end in
  underscores (match given with Some n => n | None => field_name end).

(** 'KEY {} {} {}\n'.format( *l ) *)
Definition line3 (key : string) (l : list string) : res string :=
  match l with
  | a :: b :: c :: _ => encode (key ++ " " ++ a ++ " " ++ b ++ " " ++ c ++ nl)
  | _ => Err IndexError
  end.
(** VtkFile.__enter__, 151-156 *)
Definition head_chunks : list (res string) :=
  [Ok ("# vtk DataFile Version 2.0" ++ nl); Ok ("PostPic exported data" ++ nl); encode ("BINARY" ++ nl)].
(** RectilinearGrid.tofile, 118-128: one axis *)
Definition axis_chunks (bin : nat -> Q -> string) (size : nat) (type : string) (axname : string) (g : list Q) : list (res string) :=
  [encode (axname ++ "_COORDINATES " ++ dec (Z.of_nat (length g)) ++ " " ++ type ++ nl); Ok (concat_all (map (bin size) g)); Ok nl].
(** StructuredPoints.tofile, 94-98; RectilinearGrid.tofile, 114-128 *)
Definition set_chunks (text : Q -> string) (bin : nat -> Q -> string) (size : nat) (type : string) (ds : dataset) : list (res string) :=
  match ds with
  | Structured d o s =>
      [Ok ("DATASET STRUCTURED_POINTS" ++ nl); line3 "DIMENSIONS" (map dec d); line3 "ORIGIN" (map text o); line3 "SPACING" (map text s)]
  | Rectilinear g =>
      [Ok ("DATASET RECTILINEAR_GRID" ++ nl); line3 "DIMENSIONS" (map (fun ax => dec (Z.of_nat (length ax))) g)]
      ++ flat_map (fun p => axis_chunks bin size type (fst p) (snd p)) (combine ["X"; "Y"; "Z"] g)
  end.
(** PointData.tofile, 198-200; Vectors.tofile, 254-256; Scalars.tofile, 268-272; ArrayData.tofile, 231-239 *)
Definition data_chunks (bin : nat -> Q -> string) (size : nat) (type name : string) (v : vtk Q) : list (res string) :=
  [encode ("POINT_DATA " ++ dec (v_points v) ++ nl)]
  ++ match v_kind v with
     | Vectors => [encode ("VECTORS " ++ name ++ " " ++ type ++ nl)]
     | Scalars => [encode ("SCALARS " ++ name ++ " " ++ type ++ " " ++ dec (Z.of_nat (v_comps v)) ++ nl); Ok ("LOOKUP_TABLE default" ++ nl)]
     end
  ++ [Ok (concat_all (map (bin size) (v_values v)))].
(** what has been written, and the error if there is one *)
Fixpoint write_chunks (l : list (res string)) : string * res unit :=
  match l with
  | [] => ("", Ok tt)
  | Err e :: _ => ("", Err e)
  | Ok s :: r => let (t, x) := write_chunks r in (s ++ t, x)
  end.
(** VtkData.tofile, 176-180: what is in the file afterwards (None: as before) *)
Definition write_vtk text bin (type name : string) (v : vtk Q) : option string * res unit :=
  match size_of type with
  | Err e => (None, Err e)
  | Ok size =>
      let (s, x) := write_chunks (head_chunks ++ set_chunks text bin size type (v_set v) ++ data_chunks bin size type name v) in
      (Some s, x)
  end.
(** export_scalars_vtk and export_vector_vtk: the name of the first field and the data are given;
    [old] is what the file held before *)
Definition export_file text bin (old : option string) (type : string) (given : option string) (field_name : string) (data : res (vtk Q))
  : option string * res unit :=
  match data with
  | Err e => (old, Err e)
  | Ok v =>
      let (s, x) := write_vtk text bin type (array_name given field_name) v in
      (match s with Some s => Some s | None => old end, x)
  end.
