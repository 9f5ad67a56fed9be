(** Decoding of species names, /repo/postpic/particles/_routines.py 153-321 (SpeciesIdentifier), and
    the part of python's re which it uses.  No proofs in this file.

    Names are strings of ascii characters (python's \w and \d know more letters and digits).
    float("12") is the number 12; products of floats are exact.  me and qe, the mass and charge of
    the electron (helper.py 160-162), are arguments. *)
From Coq Require Import Ascii String List.
From Verif Require Import PyBase.
Open Scope string_scope.
Open Scope list_scope.

(** * Regular expressions: backtracking, greedy unless stated, as documented for module re *)
Inductive regex :=
| REps
| RChar (p : ascii -> bool)                  (* one character: x, [..], \d, \w, . *)
| RSeq (a b : regex)
| RAlt (a b : regex)                         (* a|b *)
| ROpt (a : regex)                           (* a? *)
| RStar (a : regex)                          (* a* *)
| RLazy (a : regex)                          (* a*? *)
| RNot (a : regex)                           (* (?!a) *)
| RGroup (name : string) (a : regex)         (* (?P<name>a) *)
| REnd.                                      (* $ *)
Definition groups := list (string * list ascii).
Definition setgroup (g : string) (v : list ascii) (c : groups) : groups := (g, v) :: c.
Fixpoint getgroup (g : string) (c : groups) : option (list ascii) :=
  match c with [] => None | (n, v) :: r => if String.eqb g n then Some v else getgroup g r end.
Definition newline : ascii := "010"%char.
(** [k] is what has to match afterwards.  In the expressions used, the body of a repetition never
    matches the empty string, so the number of turns is bounded by the length of the rest. *)
Fixpoint rmatch (r : regex) (s : list ascii) (c : groups) (k : list ascii -> groups -> option groups) : option groups :=
  match r with
  | REps => k s c
  | RChar p => match s with x :: s' => if p x then k s' c else None | [] => None end
  | RSeq a b => rmatch a s c (fun s' c' => rmatch b s' c' k)
  | RAlt a b => match rmatch a s c k with Some x => Some x | None => rmatch b s c k end
  | ROpt a => match rmatch a s c k with Some x => Some x | None => k s c end
  | RStar a =>
      (fix loop (n : nat) (s : list ascii) (c : groups) : option groups :=
         match n with
         | O => k s c
         | S n' => match rmatch a s c (loop n') with Some x => Some x | None => k s c end
         end) (length s) s c
  | RLazy a =>
      (fix loop (n : nat) (s : list ascii) (c : groups) : option groups :=
         match k s c with
         | Some x => Some x
         | None => match n with O => None | S n' => rmatch a s c (loop n') end
         end) (length s) s c
  | RNot a => match rmatch a s c (fun _ c' => Some c') with Some _ => None | None => k s c end
  | RGroup g a => rmatch a s c (fun s' c' => k s' (setgroup g (firstn (length s - length s') s) c'))
  | REnd => match s with
            | [] => k s c
            | [x] => if Ascii.eqb x newline then k s c else None
            | _ => None
            end
  end.
Definition re_match (r : regex) (s : string) : option groups := rmatch r (list_ascii_of_string s) [] (fun _ c => Some c).

(** ** Character classes *)
Definition between (a b : nat) (x : ascii) : bool := Nat.leb a (nat_of_ascii x) && Nat.leb (nat_of_ascii x) b.
Definition is_digit : ascii -> bool := between 48 57.
Definition is_upper : ascii -> bool := between 65 90.
Definition is_lower : ascii -> bool := between 97 122.
Definition is_word (x : ascii) : bool := is_digit x || is_upper x || is_lower x || Ascii.eqb x "_".
Definition any_char (x : ascii) : bool := negb (Ascii.eqb x newline).
Definition RLit (x : ascii) : regex := RChar (Ascii.eqb x).
Fixpoint RWord (w : list ascii) : regex :=
  match w with [] => REps | x :: w' => RSeq (RLit x) (RWord w') end.
Definition lits (w : string) : regex := RWord (list_ascii_of_string w).
(** \d+ *)
Definition digits1 : regex := RSeq (RChar is_digit) (RStar (RChar is_digit)).

(** * The expression, 262-268 *)
Definition r_prae := RGroup "prae" (RStar (RSeq (RStar (RChar any_char)) (RLit "_"))).
Definition r_elem := RSeq (RGroup "elem" (RSeq (RNot (lits "El")) (RSeq (RChar is_upper) (ROpt (RChar is_lower))))) (RGroup "elem_c" (RStar (RChar is_digit))).
Definition r_ioncm := RSeq (lits "ionc") (RSeq (RGroup "c1" digits1) (RSeq (RLit "m") (RGroup "m2" digits1))).
Definition r_ionmc := RSeq (lits "ionm") (RSeq (RGroup "m1" digits1) (RSeq (RLit "c") (RGroup "c2" digits1))).
Definition r_base := ROpt (RAlt r_elem (RGroup "ionmc" (RAlt r_ioncm r_ionmc))).
Definition r_plus := RGroup "plus" (RStar (lits "Plus")).
Definition r_electron := ROpt (RGroup "electron" (RSeq (RChar (fun x => Ascii.eqb x "E" || Ascii.eqb x "e")) (RSeq (lits "le") (RChar (fun x => Ascii.eqb x "c" || Ascii.eqb x "k"))))).
Definition r_suffix := RSeq (RGroup "suffix" (RLazy (RChar is_word))) REnd.
Definition species_regex := RSeq r_prae (RSeq r_base (RSeq r_plus (RSeq r_electron r_suffix))).

(** * Tables *)
Definition mp : Q := 9181 # 5.      (* 1836.2 *)
(** _defaults, 168-191: mass in me, charge in qe, ision *)
Definition defaults : list (string * (Q * Q * bool)) := [
  ("electrongold", (1, (-1), false));
  ("proton", (mp * 1, 1, true));
  ("Proton", (mp * 1, 1, true));
  ("ionp", (mp, 1, true));
  ("ion", (mp * 12, 1, true));
  ("c6", (mp * 12, 1, true));
  ("ionf", (mp * 19, 1, true));
  ("Palladium", (mp * 106, 0, true));
  ("Palladium1", (mp * 106, 1, true));
  ("Palladium2", (mp * 106, 2, true));
  ("Ion", (mp, 1, true));
  ("Photon", (0, 0, false));
  ("Positron", (1, 1, false));
  ("positron", (1, 1, false));
  ("bw_positron", (1, 1, false));
  ("bw_electron", (1, (-1), false));
  ("photon", (0, 0, false));
  ("gold1", (mp * 197, 1, true));
  ("gold3", (mp * 197, 3, true));
  ("gold4", (mp * 197, 4, true));
  ("gold2", (mp * 197, 2, true));
  ("gold7", (mp * 197, 7, true));
  ("gold10", (mp * 197, 10, true));
  ("gold20", (mp * 197, 20, true))].
(** _masslistelement, 194-220, unit amu; 'Sm' is there twice, and the later entry counts *)
Definition masslist : list (string * Q) := [
  ("H", 1008 # 1000); ("He", 4003 # 1000); ("Li", 6941 # 1000); ("Be", 9012 # 1000); ("B", 10811 # 1000);
  ("C", 12011 # 1000); ("N", 14007 # 1000); ("O", 15999 # 1000); ("F", 18998 # 1000); ("Ne", 20180 # 1000);
  ("Na", 22990 # 1000); ("Mg", 24305 # 1000); ("Al", 26982 # 1000); ("Si", 28086 # 1000);
  ("P", 30974 # 1000); ("S", 32066 # 1000); ("Cl", 35453 # 1000); ("Ar", 39948 # 1000); ("K", 39098 # 1000);
  ("Ca", 40078 # 1000); ("Sc", 44956 # 1000); ("Ti", 47867 # 1000); ("V", 50942 # 1000);
  ("Cr", 51996 # 1000); ("Mn", 54938 # 1000); ("Ff", 55845 # 1000); ("Co", 58933 # 1000);
  ("Ni", 58693 # 1000); ("Cu", 63546 # 1000); ("Zn", 6538 # 100); ("Ga", 69723 # 1000); ("Ge", 72631 # 1000);
  ("As", 74922 # 1000); ("Se", 78971 # 1000); ("Br", 79904 # 1000); ("Kr", 84798 # 1000);
  ("Rb", 84468 # 1000); ("Sr", 8762 # 100); ("Y", 88906 # 1000); ("Zr", 91224 # 1000); ("Nb", 92906 # 1000);
  ("Mo", 9595 # 100); ("Tc", 98907 # 1000); ("Ru", 10107 # 100); ("Rh", 102906 # 1000); ("Pd", 10642 # 100);
  ("Ag", 107868 # 1000); ("Cd", 112414 # 1000); ("In", 114818 # 1000); ("Sm", 118711 # 1000);
  ("Sb", 121760 # 1000); ("Te", 1267 # 10); ("I", 126904 # 1000); ("Xe", 131294 # 1000);
  ("Cs", 132905 # 1000); ("Ba", 137328 # 1000); ("La", 138905 # 1000); ("Ce", 140116 # 1000);
  ("Pr", 140908 # 1000); ("Nd", 144243 # 1000); ("Pm", 144913 # 1000); ("Sm", 15036 # 100);
  ("Eu", 151964 # 1000); ("Gd", 15725 # 100); ("Tb", 158925 # 1000); ("Dy", 162500 # 1000);
  ("Ho", 164930 # 1000); ("Er", 167259 # 1000); ("Tm", 168934 # 1000); ("Yb", 173055 # 1000);
  ("Lu", 174967 # 1000); ("Hf", 17849 # 100); ("Ta", 180948 # 1000); ("W", 18384 # 100);
  ("Rr", 186207 # 1000); ("Os", 19023 # 100); ("Ir", 192217 # 1000); ("Pt", 195085 # 1000);
  ("Au", 196967 # 1000); ("Hg", 200592 # 1000); ("Tl", 204383 # 1000); ("Pb", 2072 # 10);
  ("Bi", 208980 # 1000); ("Po", 208982 # 1000); ("At", 209987 # 1000); ("Rn", 222081 # 1000);
  ("Fr", 223020 # 1000); ("Ra", 226025 # 1000); ("Ac", 227028 # 1000); ("Th", 232038 # 1000);
  ("Pa", 231036 # 1000); ("U", 238029 # 1000); ("Np", 237); ("Pu", 244); ("Am", 243); ("Cm", 247);
  ("Bk", 247); ("Ct", 251); ("Es", 252); ("Fm", 257); ("Md", 258); ("No", 259); ("Lr", 262); ("Rf", 261);
  ("Db", 262); ("Sg", 266); ("Bh", 264); ("Hs", 269); ("Mt", 268); ("Ds", 271); ("Rg", 272); ("Cn", 285);
  ("Nh", 284); ("Fl", 289); ("Mc", 288); ("Lv", 292); ("Ts", 294); ("Og", 294)].
Fixpoint dict_get {A} (k : string) (l : list (string * A)) : option A :=
  match l with
  | [] => None
  | (n, v) :: r => match dict_get k r with Some x => Some x | None => if String.eqb k n then Some v else None end
  end.

(** * identifyspecies, 233-321 *)
Inductive sval := SBool (b : bool) | SNum (q : Q) | SStr (s : string).
Definition sdict := list (string * sval).
(** d[k] = v; the entries are found from the end *)
Definition put (k : string) (v : sval) (d : sdict) : sdict := d ++ [(k, v)].
Definition has (k : string) (d : sdict) : bool := match dict_get k d with Some _ => true | None => false end.
(** s.replace(a, b) for one character, s.replace(a, '') *)
Definition replace_char (a b : ascii) (s : list ascii) : list ascii := map (fun x => if Ascii.eqb x a then b else x) s.
Definition remove_char (a : ascii) (s : list ascii) : list ascii := filter (fun x => negb (Ascii.eqb x a)) s.
(** s.split('_') *)
Fixpoint split_on (a : ascii) (s : list ascii) : list (list ascii) :=
  match s with
  | [] => [[]]
  | x :: s' => if Ascii.eqb x a then [] :: split_on a s' else match split_on a s' with w :: ws => (x :: w) :: ws | [] => [[x]] end
  end.
(** float(s) of digits *)
Definition number (ds : list ascii) : Q := inject_Z (fold_left (fun n d => (10 * n + (Z.of_nat (nat_of_ascii d) - 48))%Z) ds 0%Z).
Definition str (s : list ascii) : string := string_of_list_ascii s.
(** the text of a group, '' if it did not take part: None and '' are both false *)
Definition text (g : string) (c : groups) : list ascii := match getgroup g c with Some v => v | None => [] end.
Definition nonempty (s : list ascii) : bool := match s with [] => false | _ => true end.

(** 279-283 *)
Definition add_prefixes (prae : list ascii) (d : sdict) : sdict :=
  fold_left (fun d w => if nonempty w then put (str w) (SBool true) d else d) (map (remove_char "_") (split_on "_" prae)) d.
(** 287-305 *)
Definition add_base (me qe : Q) (c : groups) (d : sdict) : res sdict :=
  if nonempty (text "elem" c) then
    match dict_get (str (text "elem" c)) masslist with
    | None => Err KeyError
    | Some m => Ok (put "ision" (SBool true) (put "charge" (SNum (if nonempty (text "elem_c" c) then number (text "elem_c" c) * qe else 0)) (put "mass" (SNum (m * mp * me)) d)))
    end
  else if nonempty (text "ionmc" c) then
    let one g1 g2 d := if nonempty (text g2 c) then put "ision" (SBool true) (put "charge" (SNum (number (text g2 c) * qe)) (put "mass" (SNum (number (text g1 c) * mp * me)) d)) else d in
    Ok (one "m1" "c2" (one "m2" "c1" d))
  else Ok d.
(** value == 0 *)
Definition is_zero (v : sval) : bool := match v with SBool b => negb b | SNum q => q ==?q 0 | SStr _ => false end.
(** 308-311 *)
Definition add_plus (qe : Q) (c : groups) (d : sdict) : res sdict :=
  if nonempty (text "plus" c) then
    match dict_get "charge" d with
    | None => Err KeyError
    | Some v => Ok (if is_zero v then put "charge" (SNum (inject_Z (Z.of_nat (length (text "plus" c))) / 4 * qe)) d else d)
    end
  else Ok d.
(** 314-317 *)
Definition add_electron (me qe : Q) (c : groups) (d : sdict) : sdict :=
  if nonempty (text "electron" c) then put "ision" (SBool false) (put "charge" (SNum (-1 * qe)) (put "mass" (SNum me) d)) else d.

Definition identifyspecies (me qe : Q) (species : string) : res sdict :=
  let ret := [("tracer", SBool false); ("ejected", SBool false); ("name", SStr species)] in
  let s := str (replace_char "/" "_" (list_ascii_of_string species)) in
  match dict_get s defaults with
  | Some (m, q, i) => Ok (put "ision" (SBool i) (put "charge" (SNum (q * qe)) (put "mass" (SNum (m * me)) ret)))
  | None =>
      match re_match species_regex s with
      | None => Err BareException
      | Some c =>
          let! d := add_base me qe c (add_prefixes (text "prae" c) ret) in
          let! d := add_plus qe c d in
          let d := add_electron me qe c d in
          if has "mass" d && has "charge" d && has "ision" d then Ok d else Err BareException
      end
  end.
(** ision, 228-230 *)
Definition ision (me qe : Q) (species : string) : res sval :=
  let! d := identifyspecies me qe species in
  match dict_get "ision" d with Some v => Ok v | None => Err KeyError end.
(** isejected, 222-226 *)
Definition isejected (species : string) : bool :=
  match re_match (RSeq (RGroup "1" (lits "ejected_")) (RGroup "2" (RStar (RChar any_char)))) (str (remove_char "/" (list_ascii_of_string species))) with
  | Some _ => true
  | None => false
  end.
