(** Model of what dumps list: epochsdf.py, simdimensions (146-147), listSpecies (185-193), getSpecies
    (195-222), getderived (224-234); openPMDh5.py, getderived (184-193); _field_calc.py, the components of
    the fields (138-223) and _kspace (227-250).  Texts are ascii.  Regular expressions are written as
    functions: no character which ends a part of a name can be in it, so that every part is as long as
    possible.  No proofs in this file. *)
From Coq Require Import Ascii.
From Verif Require Import PyBase NumpyModel NdModel ReaderModel IoModel.
Local Open Scope string_scope.

Definition between (a b : ascii) (c : ascii) : bool := (Nat.leb (nat_of_ascii a) (nat_of_ascii c) && Nat.leb (nat_of_ascii c) (nat_of_ascii b))%bool.
(** \w, [\w-], [\w/ ] and \d *)
Definition is_word (c : ascii) : bool := between "a" "z" c || between "A" "Z" c || between "0" "9" c || Ascii.eqb c "_".
Definition is_name (c : ascii) : bool := is_word c || Ascii.eqb c "-".
Definition is_derived (c : ascii) : bool := is_word c || Ascii.eqb c "/" || Ascii.eqb c " ".
(** the longest start of s of such characters, and what follows *)
Fixpoint run (p : ascii -> bool) (s : string) : string * string :=
  match s with
  | EmptyString => ("", "")
  | String c r => if p c then let (a, b) := run p r in (String c a, b) else ("", s)
  end.
Fixpoint strip (p s : string) : option string :=
  match p, s with
  | EmptyString, _ => Some s
  | String a p, String b s => if Ascii.eqb a b then strip p s else None
  | _, EmptyString => None
  end.
(** re.match(r'Particles/\w+/([\w-]+(/[\w-]+)?)', key).group(1) *)
Definition species_of (key : string) : option string :=
  match strip "Particles/" key with
  | None => None
  | Some r =>
      let (w, r) := run is_word r in
      if String.eqb w "" then None
      else match strip "/" r with
           | None => None
           | Some r =>
               let (a, r) := run is_name r in
               if String.eqb a "" then None
               else match strip "/" r with
                    | None => Some a
                    | Some r => let (b, _) := run is_name r in if String.eqb b "" then Some a else Some (a ++ "/" ++ b)
                    end
           end
  end.
Fixpoint somes {X} (l : list (option X)) : list X :=
  match l with [] => [] | Some x :: r => x :: somes r | None :: r => somes r end.
(** 185-193 *)
Definition list_species (keys : list string) : list string := sort_str (nodup string_dec (somes (map species_of keys))).
(** re.match(r'Derived/[\w/ ]*', key).group(0), 224-234 *)
Definition derived_of (key : string) : option string :=
  match strip "Derived/" key with None => None | Some r => Some ("Derived/" ++ fst (run is_derived r)) end.
Definition list_derived (keys : list string) : list string := sort_str (somes (map derived_of keys)).
(** 195-222; [scalar] and [grid]: self[key].data of particle data and of particle positions *)
Definition scalars : list (Z * string) := [(9, "Weight"); (3, "Px"); (4, "Py"); (5, "Pz"); (10, "ID"); (11, "Mass"); (12, "Charge")]%Z.
Fixpoint assoc {X} (d : list (Z * X)) (k : Z) : option X := match d with [] => None | (i, x) :: r => if (i =? k)%Z then Some x else assoc r k end.
Definition get_species {X} (scalar : string -> res X) (grid : string -> res (list X)) (species : string) (attrib : akey) : res X :=
  let! id := attribid attrib in
  let r := match assoc scalars id with
           | Some w => scalar ("Particles/" ++ w ++ "/" ++ species)
           | None => if ((0 <=? id) && (id <=? 2))%Z then let! l := grid ("Grid/Particles/" ++ species) in getidx l id else Err KeyError
           end in
  match r with Err IndexError => Err KeyError | r => r end.
(** int(re.match(r'Epoch(\d)d', code_name).group(1)), 146-147 *)
Definition epoch_dimensions (code_name : string) : res Z :=
  match strip "Epoch" code_name with
  | Some (String c (String d _)) => if between "0" "9" c && Ascii.eqb d "d" then Ok (Z.of_nat (nat_of_ascii c - 48)) else Err AttributeError
  | _ => Err AttributeError
  end.
(** openPMDh5.py 184-193; the names below 'fields' with whether they have an attribute 'value', which the
    data sets of h5py before version 3 have *)
Definition pmd_derived (names : list (string * bool)) : list string :=
  sort_str (map (fun n => "fields/" ++ fst n) (filter (fun n => negb (String.prefix "E" (fst n) || String.prefix "B" (fst n)) && snd n) names)).
(** * Components of the fields *)
Inductive comp := X | Y | Z_ | R_ | Theta.
Inductive reader := Epoch | OpenPMD | Smilei | Fbpic.
Definition comp_name (c : comp) : string := match c with X => "x" | Y => "y" | Z_ => "z" | R_ => "r" | Theta => "theta" end.
(** the keywords of Ex, ..., Btheta which readers know: average of EPOCH, theta and Ntheta of FBPIC.  Keywords
    replacing the other grids are left out *)
Record opts P := mkopts { o_average : option bool; o_theta : option (list P); o_Ntheta : option Z }.
Arguments mkopts {P} _ _ _. Arguments o_average {P} _. Arguments o_theta {P} _. Arguments o_Ntheta {P} _.
Definition given {A} (o : option A) : bool := match o with Some _ => true | None => false end.
(** _keyE and _keyB: epochsdf.py 149-161, openPMDh5.py 138-144 (also FBPIC), smileih5.py 303-311 *)
Definition field_key {P} (r : reader) (magnetic : bool) (c : comp) (o : opts P) : res string :=
  let l := if magnetic then "B" else "E" in
  match r with
  | Epoch =>
      if given (o_theta o) || given (o_Ntheta o) then Err TypeError
      else let! sfx := match c with X => Ok "x" | Y => Ok "y" | Z_ => Ok "z" | _ => Err KeyError end in
           Ok ((if magnetic then "Magnetic Field/B" else "Electric Field/E") ++ sfx ++ match o_average o with Some true => "_averaged" | _ => "" end)
  | OpenPMD | Fbpic => Ok ("fields/" ++ l ++ "/" ++ match c with Theta => "t" | c => comp_name c end)
  | Smilei => Ok (l ++ match c with Theta => "t" | c => comp_name c end)
  end.
(** what self.data is called with: key, theta, Ntheta.  dataE and dataB of datareader.py 198-208 and of
    openPMDh5.py 332-336, where Ntheta is not a name in dataB *)
Definition data_args {P} (r : reader) (magnetic : bool) (c : comp) (o : opts P) : res (string * option (list P) * option Z) :=
  let! k := field_key r magnetic c o in
  match r with
  | Fbpic => if magnetic then Err NameError else Ok (k, o_theta o, o_Ntheta o)
  | _ => Ok (k, None, None)
  end.
(** getaxisobj, _field_calc.py 73-91: an Axis over the grid of the key, an Axis over points given, or an array
    of angles *)
Inductive axobj P := AxKey (name key : string) | AxPoints (name : string) (p : list P) | Bare (n : Z).
Arguments AxKey {P} _ _. Arguments AxPoints {P} _ _. Arguments Bare {P} _.
Definition getaxisobj {P} (o : opts P) (key name : string) : axobj P :=
  if String.eqb name "theta"
  then match o_Ntheta o with
       | Some n => Bare n
       | None => match o_theta o with Some l => AxPoints name l | None => AxKey name key end
       end
  else AxKey name key.
Record shown D P := mkshown { sh_data : D; sh_axes : list (axobj P); sh_unit : string; sh_name : string }.
Arguments mkshown {D P} _ _ _ _. Arguments sh_data {D P} _. Arguments sh_axes {D P} _. Arguments sh_unit {D P} _. Arguments sh_name {D P} _.
(** _defaultaxisorder, _field_calc.py 93-94 and openPMDh5.py 320-321 *)
Definition axis_order (r : reader) : list string := match r with Fbpic => ["r"; "theta"; "z"] | _ => ["x"; "y"; "z"] end.
(** Ex, ..., Btheta, _field_calc.py 109-223, with _createfieldfromdata (55-58) and setgridtofield (96-104).
    [data]: the array read; [shape] its shape, [points]: gridpoints of a key.  The axes set are the first three;
    setaxisobj (datahandling.py 914-926) compares numbers of points *)
Definition component {D P} (data : string * option (list P) * option Z -> res D) (shape : D -> list Z) (points : string -> string -> res Z)
    (r : reader) (magnetic : bool) (c : comp) (o : opts P) : res (shown D P) :=
  let! a := data_args r magnetic c o in
  let! d := data a in
  let! gridkey := field_key r magnetic c o in
  let sh := shape d in
  let one (i : nat) (name : string) : res (axobj P) :=
    let ax := getaxisobj o gridkey name in
    let! n := match ax with AxKey name key => points key name | AxPoints _ p => Ok (Z.of_nat (length p)) | Bare n => Ok n end in
    let! m := getidx sh (Z.of_nat i) in
    if (n =? m)%Z then Ok ax else Err ValueError in
  let names := firstn (Nat.max 1 (length sh)) (axis_order r) in
  let! axes := mapM (fun p => one (fst p) (snd p)) (combine (seq 0 (length names)) names) in
  Ok (mkshown d axes
        (if magnetic then match c with X | Y | Z_ => "T" | R_ | Theta => "V/m" end else "V/m")
        ((if magnetic then "B" else "E") ++ comp_name c)).
(** * _kspace, 227-250: which function is called; [dt] is time / timestep, without a value for timestep 0 *)
Inductive omega := Given | Free | Yee (dx : list Q) (dt : option Q).
Inductive call := Kspace (om : omega) | EpochLike (dt : option Q) (final : bool) (om : omega).
Definition quotient (time : Q) (timestep : Z) : option Q := if (timestep =? 0)%Z then None else Some (time / inject_Z timestep).
Definition kspace_call (name alignment : string) (solver : option string) (omega_given : bool) (dx : list Q) (time : Q) (timestep : Z) : res call :=
  if negb (existsb (String.eqb alignment) ["auto"; "default"; "epoch"; "epoch-final"]) then Err ValueError
  else
    let alignment := if String.eqb alignment "auto" then (if endswith (lower name) ".sdf" then "epoch" else "default") else alignment in
    let dt := quotient time timestep in
    let om := if omega_given then Given else Free in
    if String.eqb alignment "default" then Ok (Kspace om)
    else
      let om := match solver with Some "yee" => if omega_given then Given else Yee dx dt | _ => om end in
      if String.eqb alignment "epoch" then Ok (EpochLike dt false om) else Ok (EpochLike dt true om).
