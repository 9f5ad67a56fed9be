(** What the theorems about readers speak of. *)
From Coq Require Import QArith String Ascii List ZArith Bool.
From Verif Require Import PyBase AxisModel AxisSpec NdModel ReaderModel.
Import ListNotations.
Local Open Scope Z_scope.

(** the decimal digits of n, w of them *)
Fixpoint padded (w n : nat) : string :=
  match w with
  | O => EmptyString
  | S w => String (ascii_of_nat (48 + n / 10 ^ w)) (padded w (n mod 10 ^ w))
  end.
(** without line ends *)
Definition plain (s : string) : Prop := forall i c, String.get i s = Some c -> c <> lf /\ c <> cr.
(** a text with the given lines, each ended by [e] *)
Definition text_of (e : string) (names : list string) : string := fold_right (fun n s => (n ++ e ++ s)%string) ""%string names.
(** the lines of a text: ended by LF, by CR LF or by CR alone; the last one need not be ended *)
Inductive has_lines : list string -> string -> Prop :=
| lines_end : has_lines [] ""
| lines_open n : plain n -> n <> ""%string -> has_lines [n] n
| lines_lf n ns t : plain n -> has_lines ns t -> has_lines (n :: ns) (n ++ String lf t)
| lines_crlf n ns t : plain n -> has_lines ns t -> has_lines (n :: ns) (n ++ String cr (String lf t))
| lines_cr n ns t : plain n -> (forall r, t <> String lf r) -> has_lines ns t -> has_lines (n :: ns) (n ++ String cr t).
(** the file named [n] of the directory [dir] *)
Definition file_in (dir n p : string) : Prop :=
  ((exists t, n = String "/" t) /\ p = n) \/
  ((forall t, n <> String "/" t) /\
   ((dir = ""%string /\ p = n) \/ ((exists t, dir = (t ++ "/")%string) /\ p = (dir ++ n)%string) \/
    (dir <> ""%string /\ (forall t, dir <> (t ++ "/")%string) /\ p = (dir ++ "/" ++ n)%string))).
(** python's order of strings *)
Definition sle (a b : string) : Prop := String.compare a b <> Gt.
(** the dump describes n cells of size s beginning at o *)
Definition regular (g : greader) (key : string) (a : akey) (o s : Q) (n : nat) : Prop :=
  g_off g key a = Ok o /\ g_sp g key a = Ok s /\ g_pts g key a = Ok (Z.of_nat n).
(** keys before the first usable one are missing altogether *)
Definition first_key (g : greader) (a : akey) (key : string) : Prop :=
  exists pre post, g_keys g = pre ++ key :: post /\ forall k, In k pre -> g_off g k a = Err KeyError /\ g_pts g k a = Err KeyError.
(** the axes of a field *)
Definition full_axis (g : greader) (key : string) (a : akey) (sh : list Z) (k : nat) (ax : axis + Z) : Prop :=
  exists x o s n, regular g key a o s n /\ nth_error sh k = Some (Z.of_nat n) /\ ax = inl x /\ axis_uniform o (o + s * inject_Z (Z.of_nat n)) n x.
(** the readers of the supported codes: module, dump reader, simulation reader *)
Definition presets : list (string * (string * string * string)) :=
  [("epoch", ("epochsdf", "Sdfreader", "Visitreader")); ("epoch1d", ("epochsdf", "Sdfreader", "Visitreader"));
   ("epoch2d", ("epochsdf", "Sdfreader", "Visitreader")); ("epoch3d", ("epochsdf", "Sdfreader", "Visitreader"));
   ("openpmd", ("openPMDh5", "OpenPMDreader", "FileSeries")); ("openpmdh5", ("openPMDh5", "OpenPMDreader", "FileSeries"));
   ("picongpu", ("openPMDh5", "OpenPMDreader", "FileSeries")); ("fbpic", ("openPMDh5", "FbpicReader", "FbpicFileSeries"));
   ("smilei", ("smileih5", "SmileiReader", "SmileiSeries")); ("dummy", ("dummy", "Dummyreader", "Dummysim"))]%string.
Fixpoint preset (l : list (string * (string * string * string))) (c : string) : option (string * string * string) :=
  match l with [] => None | (k, v) :: r => if String.eqb c k then Some v else preset r c end.
Definition usable (avail : string -> bool) (code : string) : option (string * string) :=
  match preset presets (lower code) with Some (m, d, k) => if avail m then Some (d, k) else None | None => None end.
(** the state after a sequence of calls of chooseCode, whatever they raise *)
Definition chosen (avail : string -> bool) (s : rstate) (codes : list string) : rstate := fold_left (fun s c => fst (choose avail s c)) codes s.
(** the last of the codes that can be used *)
Definition last_usable (avail : string -> bool) (codes : list string) : option (string * string) :=
  fold_left (fun r c => match usable avail c with Some p => Some p | None => r end) codes None.
(** the readers a call asks for, if it succeeds *)
Definition wants_dump (avail : string -> bool) (c : rcall) : option rcls :=
  match c with
  | ChooseCode code => match usable avail code with Some (d, _) => Some (D d) | None => None end
  | SetDump (Some c) => if c_dump c then Some c else None
  | _ => None
  end.
Definition wants_sim (avail : string -> bool) (c : rcall) : option rcls :=
  match c with
  | ChooseCode code => match usable avail code with Some (_, k) => Some (Sm k) | None => None end
  | SetSim (Some c) => if c_sim c then Some c else None
  | _ => None
  end.
(** [x] is what the last call wants that wants something *)
Definition latest {A B} (want : A -> option B) (l : list A) (x : option B) : Prop :=
  match x with
  | None => forall c, In c l -> want c = None
  | Some v => exists pre c post, l = (pre ++ c :: post)%list /\ want c = Some v /\ forall d, In d post -> want d = None
  end.
(** the value of a record at one entry, in SI units *)
Definition stored (r : h5rec) (i : list Z) : Q := match h_value r with Some v => v | None => match h_array r with Some a => a_at a i | None => 0%Q end end.
Definition readable (r : h5rec) : Prop := h_value r <> None \/ h_array r <> None.
Definition value_at (p : pvalue) (i : list Z) : Q := match p with PScalar q => q | PArr a => a_at a i end.
Definition shape_of (p : pvalue) : list Z := match p with PScalar _ => [] | PArr a => a_shape a end.
Definition rec_shape (r : h5rec) : list Z := match h_value r with Some _ => [] | None => match h_array r with Some a => a_shape a | None => [] end end.
(** the names of the records of the positions *)
Definition pos_axis (k : nat) : string := nth k ["x"; "y"; "z"]%string ""%string.
(** the records of the other attributes *)
Definition record_name (w : string) (id : Z) : option string :=
  if id =? 3 then Some "momentum/x"%string else if id =? 4 then Some "momentum/y"%string else if id =? 5 then Some "momentum/z"%string
  else if id =? 9 then Some w else if id =? 10 then Some "id"%string else if id =? 11 then Some "mass"%string else if id =? 12 then Some "charge"%string else None.
(** the grid of a record: its own attributes, or those of the group it is in *)
Definition described (r : h5rec) (off sp : list Q) (u : Q) : Prop :=
  (h_attrs r = mkga (Some off) (Some sp) (Some u)) \/ (ga_unit (h_attrs r) = None /\ h_parent r = mkga (Some off) (Some sp) (Some u)).
(** the ways to name an axis *)
Definition axis_keys : list (akey * string) :=
  [(KS "x", "x"); (KS "X", "x"); (KI 0, "x"); (KS "y", "y"); (KS "Y", "y"); (KI 1, "y"); (KS "z", "z"); (KS "Z", "z"); (KI 2, "z"); (KS "r", "r"); (KS "R", "r"); (KI 90, "r"); (KS "theta", "theta"); (KS "t", "theta"); (KI 91, "theta")]%string.
(** EPOCH: electric field and current are shifted along their own axis, the magnetic field along
    the two others *)
Inductive epoch_family := Electric | Magnetic | Current.
Definition epoch_key (f : epoch_family) (c : nat) (averaged : bool) : string :=
  (match f with Electric => "Electric Field/E" | Magnetic => "Magnetic Field/B" | Current => "Current/J" end ++ nth c ["x"; "y"; "z"] "" ++ if averaged then "_averaged" else "")%string.
Definition epoch_shifted (f : epoch_family) (c axis : nat) : bool := match f with Magnetic => negb (Nat.eqb c axis) | _ => Nat.eqb c axis end.
(** the names of the axes: x, y, z, r and theta with their numbers *)
Definition names_axis (a : akey) (id : Z) : Prop :=
  match a with
  | KI z => z = id /\ (0 <= id <= 2 \/ 90 <= id <= 91)
  | KS s => (id = 0 /\ (s = "x" \/ s = "X") \/ id = 1 /\ (s = "y" \/ s = "Y") \/ id = 2 /\ (s = "z" \/ s = "Z") \/ id = 90 /\ (s = "r" \/ s = "R") \/ id = 91 /\ (s = "theta" \/ s = "t"))%string
  end.
(** and of the attributes of particles: momenta, weights, numbers, masses and charges *)
Definition names_attribute (a : akey) (id : Z) : Prop :=
  names_axis a id \/
  match a with
  | KI z => z = id /\ (id = 3 \/ id = 4 \/ id = 9 \/ id = 10)
  | KS s => (id = 3 /\ (s = "px" \/ s = "Px" \/ s = "PX") \/ id = 4 /\ (s = "py" \/ s = "Py" \/ s = "PY") \/ id = 5 /\ (s = "pz" \/ s = "Pz" \/ s = "PZ") \/
             id = 9 /\ (s = "weight" \/ s = "w") \/ id = 10 /\ (s = "id" \/ s = "ID") \/ id = 11 /\ (s = "mass" \/ s = "m" \/ s = "Mass") \/ id = 12 /\ (s = "charge" \/ s = "c" \/ s = "Charge" \/ s = "q"))%string
  end.
(** The axes of the dummy reader: dimensions, axis, ends and number of points (dummy.py 140-175) *)
Inductive dummy_axis : Z -> Z -> Q -> Q -> nat -> Prop :=
| da1x : dummy_axis 1 0 (-2) 10 600
| da2x : dummy_axis 2 0 (-2) 10 300
| da2y : dummy_axis 2 1 (-5) 5 400
| da3x : dummy_axis 3 0 (-2) 10 100
| da3y : dummy_axis 3 1 (-5) 5 80
| da3z : dummy_axis 3 2 (-4) 4 60.
(** n points at equal distances from lo to hi *)
Definition even_from (lo hi : Q) (n : nat) (l : list Q) : Prop :=
  length l = n /\ forall i, (i < n)%nat -> (nth i l 0 == lo + inject_Z (Z.of_nat i) * ((hi - lo) / inject_Z (Z.of_nat n - 1)))%Q.
