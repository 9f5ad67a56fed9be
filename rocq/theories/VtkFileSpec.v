(** A reader of the legacy VTK format, after the documentation of the format: lines of words, and
    blocks of numbers.  It knows nothing about the writer. *)
From Coq Require Import String Ascii List ZArith QArith DecimalString.
From Verif Require Import PyBase AxisModel NdModel FieldModel IoModel IoSpec.
Import ListNotations.
Local Open Scope string_scope.

(** words are separated by space, tab, newline, vertical tab, form feed and return *)
Definition blank (c : ascii) : bool := let n := nat_of_ascii c in (n =? 32)%nat || ((9 <=? n) && (n <=? 13))%nat.
(** the first line and what follows *)
Fixpoint line (s : string) : option (string * string) :=
  match s with
  | "" => None
  | String c r => if (nat_of_ascii c =? 10)%nat then Some ("", r) else match line r with Some (a, b) => Some (String c a, b) | None => None end
  end.
(** the words of a line; [w] is the word being read *)
Fixpoint words_from (w : string) (s : string) : list string :=
  match s with
  | "" => if String.eqb w "" then [] else [w]
  | String c r => if blank c then (if String.eqb w "" then words_from "" r else w :: words_from "" r) else words_from (w ++ String c "") r
  end.
Definition words (s : string) : list string := words_from "" s.
Definition word_line (s : string) : option (list string * string) := match line s with Some (a, b) => Some (words a, b) | None => None end.
Definition integer (s : string) : option Z := option_map Z.of_int (NilEmpty.int_of_string s).
Fixpoint take (n : nat) (s : string) : option (string * string) :=
  match n, s with
  | O, _ => Some ("", s)
  | S n', String c r => match take n' r with Some (a, b) => Some (String c a, b) | None => None end
  | S _, "" => None
  end.
Notation "'do?' p := e 'in' k" := (match e with Some p => k | None => None end) (at level 200, p pattern, e at level 100, k at level 200).
(** n numbers of [size] bytes each *)
Fixpoint block (number : string -> option Q) (size n : nat) (s : string) : option (list Q * string) :=
  match n with
  | O => Some ([], s)
  | S n' => do? (a, s) := take size s in do? x := number a in do? (l, s) := block number size n' s in Some (x :: l, s)
  end.
Definition number_size (type : string) : option nat :=
  if String.eqb type "float" then Some 4%nat else if String.eqb type "double" then Some 8%nat else None.
Definition three_words (key : string) (s : string) : option (string * string * string * string) :=
  do? (ws, s) := word_line s in
  match ws with [k; a; b; c] => if String.eqb k key then Some (a, b, c, s) else None | _ => None end.
Section reader.
  (** how numbers are read from words and from 4 or 8 bytes *)
  Variables (real : string -> option Q) (number : nat -> string -> option Q).
  (** X_COORDINATES and so on: the announced number has to be the dimension *)
  Definition coordinates (key : string) (n : Z) (s : string) : option (list Q * string) :=
    do? (ws, s) := word_line s in
    match ws with
    | [k; c; type] =>
        if String.eqb k key then
          do? m := integer c in do? size := number_size type in
          if (m =? n)%Z then
            do? (l, s) := block (number size) size (Z.to_nat n) s in
            do? (e, s) := line s in if String.eqb e "" then Some (l, s) else None
          else None
        else None
    | _ => None
    end.
  Definition read_set (s : string) : option (Z * dataset * string) :=
    do? (ws, s) := word_line s in
    match ws with
    | [d; k] =>
        if negb (String.eqb d "DATASET") then None
        else if String.eqb k "STRUCTURED_POINTS" then
          do? (a, b, c, s) := three_words "DIMENSIONS" s in
          do? a := integer a in do? b := integer b in do? c := integer c in
          do? (x, y, z, s) := three_words "ORIGIN" s in
          do? x := real x in do? y := real y in do? z := real z in
          do? (u, v, w, s) := three_words "SPACING" s in
          do? u := real u in do? v := real v in do? w := real w in
          Some ((a * b * c)%Z, Structured [a; b; c] [x; y; z] [u; v; w], s)
        else if String.eqb k "RECTILINEAR_GRID" then
          do? (a, b, c, s) := three_words "DIMENSIONS" s in
          do? a := integer a in do? b := integer b in do? c := integer c in
          do? (x, s) := coordinates "X_COORDINATES" a s in
          do? (y, s) := coordinates "Y_COORDINATES" b s in
          do? (z, s) := coordinates "Z_COORDINATES" c s in
          Some ((a * b * c)%Z, Rectilinear [x; y; z], s)
        else None
    | _ => None
    end.
  (** one attribute for [n] points, which ends the file *)
  Definition read_attribute (n : Z) (s : string) : option (vtk_kind * string * nat * list Q) :=
    do? (ws, s) := word_line s in
    match ws with
    | [k; name; type] =>
        if String.eqb k "VECTORS" then
          do? size := number_size type in
          do? (l, s) := block (number size) size (Z.to_nat n * 3) s in
          if String.eqb s "" then Some (Vectors, name, 3%nat, l) else None
        else None
    | [k; name; type; comps] =>
        if String.eqb k "SCALARS" then
          do? size := number_size type in
          do? m := integer comps in
          if ((m <? 1) || (4 <? m))%Z then None
          else
            do? (ws, s) := word_line s in
            match ws with
            | [t; _] =>
                if String.eqb t "LOOKUP_TABLE" then
                  do? (l, s) := block (number size) size (Z.to_nat n * Z.to_nat m) s in
                  if String.eqb s "" then Some (Scalars, name, Z.to_nat m, l) else None
                else None
            | _ => None
            end
        else None
    | _ => None
    end.
  (** the whole file: name of the data, and data set, number of points, kind, components and values *)
  Definition read_vtk (s : string) : option (string * vtk Q) :=
    do? (l1, s) := line s in
    if negb (String.prefix "# vtk DataFile Version " l1) then None
    else
      do? (_, s) := line s in
      do? (ws, s) := word_line s in
      match ws with
      | [m] =>
          if negb (String.eqb m "BINARY") then None
          else
            do? (n, ds, s) := read_set s in
            do? (ws, s) := word_line s in
            match ws with
            | [k; p] =>
                if negb (String.eqb k "POINT_DATA") then None
                else
                  do? p := integer p in
                  if negb (p =? n)%Z then None
                  else do? (kind, name, comps, l) := read_attribute p s in Some (name, mkVtk ds p kind comps l)
            | _ => None
            end
      | _ => None
      end.
End reader.

(** a word: at least one character, none of them blank and all of them ascii *)
Fixpoint no_blank (s : string) : Prop := match s with "" => True | String c r => blank c = false /\ (nat_of_ascii c < 128)%nat /\ no_blank r end.
Definition is_word (s : string) : Prop := s <> "" /\ no_blank s.
(** numbers written as text can be read, numbers written as bytes are read as rounded to the size *)
Definition reads_text (text : Q -> string) (real : string -> option Q) : Prop := forall q, is_word (text q) /\ real (text q) = Some q.
Definition reads_bytes (bin : nat -> Q -> string) (number : nat -> string -> option Q) (round : nat -> Q -> Q) : Prop :=
  forall size q, size = 4%nat \/ size = 8%nat -> String.length (bin size q) = size /\ number size (bin size q) = Some (round size q).
(** data set, number of points, components and values belong together *)
Definition fits (v : vtk Q) : Prop :=
  (match v_set v with
   | Structured d o s => length d = 3%nat /\ length o = 3%nat /\ length s = 3%nat /\ (forall n, In n d -> (0 <= n)%Z) /\
                         v_points v = fold_right Z.mul 1%Z d
   | Rectilinear g => length g = 3%nat /\ v_points v = fold_right Z.mul 1%Z (map (fun ax => Z.of_nat (length ax)) g)
   end) /\
  Z.of_nat (length (v_values v)) = (v_points v * Z.of_nat (v_comps v))%Z /\
  match v_kind v with Scalars => (1 <= v_comps v <= 4)%nat | Vectors => v_comps v = 3%nat end.
(** the same with numbers rounded to what the file can hold *)
Definition rounded (r : Q -> Q) (v : vtk Q) : vtk Q :=
  mkVtk (match v_set v with Structured d o s => Structured d o s | Rectilinear g => Rectilinear (map (map r) g) end)
    (v_points v) (v_kind v) (v_comps v) (map r (v_values v)).

(** the name asked for: the one given ('Field' if it is empty), or the one of the field *)
Definition wanted (given : option string) (field_name : string) : string :=
  match given with Some "" => "Field" | Some n => n | None => field_name end.
(** what a name may consist of: ascii without blanks other than spaces *)
Fixpoint plain_name (s : string) : Prop :=
  match s with "" => True | String c r => (c = " "%char \/ blank c = false) /\ (nat_of_ascii c < 128)%nat /\ plain_name r end.
(** the same with underscores for spaces *)
Fixpoint underscored (s t : string) : Prop :=
  match s, t with
  | "", "" => True
  | String c r, String d u => (c = " "%char /\ d = "_"%char \/ c <> " "%char /\ d = c) /\ underscored r u
  | _, _ => False
  end.
Fixpoint has_char (P : ascii -> bool) (s : string) : Prop := match s with "" => False | String c r => P c = true \/ has_char P r end.
(** blanks that stay in a name *)
Definition breaking (c : ascii) : bool := blank c && negb (Ascii.eqb c " ").

(** what is read has the components and points, and every value, rounded, where the format wants it;
    components beyond the fields given are zero *)
Definition lists_rounded (r : Q -> Q) (fields : list (field Q)) (ncomp : nat) (sh : list Z) (w : vtk Q) : Prop :=
  v_comps w = ncomp /\ v_points w = zprod sh /\ Z.of_nat (length (v_values w)) = (v_points w * Z.of_nat ncomp)%Z /\
  forall nx ny nz c i j k, three sh = [Z.of_nat nx; Z.of_nat ny; Z.of_nat nz] -> (c < ncomp)%nat -> (i < nx)%nat -> (j < ny)%nat -> (k < nz)%nat ->
    nth_error (v_values w) (position ncomp nx ny i j k c) =
    Some (r (match nth_error fields c with Some f => a_at (f_data f) (firstn (length sh) [Z.of_nat i; Z.of_nat j; Z.of_nat k]) | None => 0%Q end)).
(** the coordinates of all points, up to rounding *)
Definition locates_rounded (r : Q -> Q) (f0 : field Q) (w : vtk Q) : Prop :=
  forall a i, (a < 3)%nat -> exists x, oeq x (coordinate f0 a i) /\ located (v_set w) a i = option_map r x.
