(** The grammar of species names (C32). *)
From Coq Require Import Ascii String List.
From Verif Require Import PyBase SpeciesModel.
Open Scope string_scope.
Open Scope list_scope.

(** ** Pieces *)
Definition chars := list ascii.
Definition all_of (p : ascii -> bool) (s : chars) : Prop := Forall (fun x => p x = true) s.
Definition starts (p : ascii -> bool) (s : chars) : Prop := match s with x :: _ => p x = true | [] => False end.
Definition begins (w s : chars) : Prop := exists t, s = w ++ t.
Definition txt (s : string) : chars := list_ascii_of_string s.
(** a word of a prefix: no separator, no line end *)
Definition prefix_word (w : chars) : Prop := Forall (fun x => x <> "_"%char /\ x <> "/"%char /\ x <> newline) w.
(** words, each with the separator which follows it: '_' or '/' *)
Definition prefix_text (ps : list (chars * bool)) : chars := List.concat (map (fun p : chars * bool => fst p ++ [if snd p then "/"%char else "_"%char]) ps).
(** the word part of a name *)
Definition plain_word (v : chars) : Prop := Forall (fun x => is_word x = true /\ x <> "_"%char) v.
(** ** What a name can spell: an element with the digits of its charge; ion with the digits of charge
    and mass in either order; nothing *)
Inductive base := BElem (sym ds : chars) | BCharge (c m : chars) | BMass (m c : chars) | BNone.
Definition base_text (b : base) : chars :=
  match b with
  | BElem sym ds => sym ++ ds
  | BCharge c m => txt "ionc" ++ c ++ txt "m" ++ m
  | BMass m c => txt "ionm" ++ m ++ txt "c" ++ c
  | BNone => []
  end.
Definition pluses (n : nat) : chars := List.concat (repeat (txt "Plus") n).
Definition electron_word (e : chars) : Prop := e = txt "Elec" \/ e = txt "elec" \/ e = txt "Elek" \/ e = txt "elek".
Definition opt_text (e : option chars) : chars := match e with Some t => t | None => [] end.
Definition digits (ds : chars) : Prop := all_of is_digit ds.
(** a base followed by [rest] is read with the longest symbol and the longest numbers *)
Definition base_spelled (b : base) (rest : chars) : Prop :=
  match b with
  | BElem sym ds => digits ds /\ ~ starts is_digit rest /\
      ((exists U, sym = [U] /\ is_upper U = true /\ ~ starts is_lower (ds ++ rest)) \/ (exists U l, sym = [U; l] /\ is_upper U = true /\ is_lower l = true /\ sym <> txt "El"))
  | BCharge c m => c <> [] /\ digits c /\ m <> [] /\ digits m /\ ~ starts is_digit rest
  | BMass m c => m <> [] /\ digits m /\ c <> [] /\ digits c /\ ~ starts is_digit rest
  | BNone => (~ starts is_upper rest \/ begins (txt "El") rest) /\
      (forall c m t, c <> [] -> digits c -> m <> [] -> digits m -> rest <> txt "ionc" ++ c ++ txt "m" ++ m ++ t) /\
      (forall m c t, m <> [] -> digits m -> c <> [] -> digits c -> rest <> txt "ionm" ++ m ++ txt "c" ++ c ++ t)
  end.
Record spelling := mkspell { sp_base : base; sp_plus : nat; sp_electron : option chars; sp_suffix : chars }.
Definition tail_text (p : spelling) : chars := pluses (sp_plus p) ++ opt_text (sp_electron p) ++ sp_suffix p.
Definition spells (p : spelling) (v : chars) : Prop :=
  v = base_text (sp_base p) ++ tail_text p /\ plain_word v /\
  base_spelled (sp_base p) (tail_text p) /\
  ~ begins (txt "Plus") (opt_text (sp_electron p) ++ sp_suffix p) /\
  match sp_electron p with Some e => electron_word e | None => forall e, electron_word e -> ~ begins e (sp_suffix p) end.
(** ** What it stands for, in units of the electron mass and of the elementary charge *)
Definition value_of_digits (ds : chars) : Z := fold_left (fun n d => (10 * n + (Z.of_nat (nat_of_ascii d) - 48))%Z) ds 0%Z.
Definition spelled_mass (p : spelling) : option Q :=
  match sp_electron p, sp_base p with
  | Some _, _ => Some 1
  | None, BElem sym _ => option_map (fun m => m * (9181 # 5)) (dict_get (string_of_list_ascii sym) masslist)
  | None, BCharge _ m | None, BMass m _ => Some (inject_Z (value_of_digits m) * (9181 # 5))
  | None, BNone => None
  end.
Definition spelled_charge (p : spelling) : option Z :=
  match sp_electron p, sp_base p with
  | Some _, _ => Some (-1)%Z
  | None, BElem _ ds => Some (if (value_of_digits ds =? 0)%Z then Z.of_nat (sp_plus p) else value_of_digits ds)
  | None, BCharge c _ | None, BMass _ c => Some (if (value_of_digits c =? 0)%Z then Z.of_nat (sp_plus p) else value_of_digits c)
  | None, BNone => None
  end.
Definition spelled_ion (p : spelling) : bool := match sp_electron p with Some _ => false | None => true end.
Definition known_base (b : base) : Prop := match b with BElem sym _ => dict_get (string_of_list_ascii sym) masslist <> None | _ => True end.
(** ** Reading results *)
Definition field_is (d : sdict) (k : string) (P : sval -> Prop) : Prop := exists v, dict_get k d = Some v /\ P v.
Definition num_is (q : Q) (v : sval) : Prop := match v with SNum x => x == q | _ => False end.
(** the name with these prefixes and this word *)
Definition name_of (ps : list (chars * bool)) (v : chars) : string := string_of_list_ascii (prefix_text ps ++ v).
Definition proper_prefixes (ps : list (chars * bool)) : Prop := Forall (fun p => prefix_word (fst p)) ps.
Definition has_prefix (k : string) (ps : list (chars * bool)) : Prop := k <> "" /\ In k (map (fun p => string_of_list_ascii (fst p)) ps).
(** names which are looked up as a whole, with '/' for '_' *)
Definition is_default (name : string) : Prop := dict_get (string_of_list_ascii (replace_char "/" "_" (list_ascii_of_string name))) defaults <> None.
(** what is said about a decoded name *)
Definition decoded (me qe : Q) (ps : list (chars * bool)) (v : chars) (p : spelling) (d : sdict) : Prop :=
  (exists m, spelled_mass p = Some m /\ field_is d "mass" (num_is (m * me))) /\
  (exists q, spelled_charge p = Some q /\ field_is d "charge" (num_is (inject_Z q * qe))) /\
  dict_get "ision" d = Some (SBool (spelled_ion p)) /\
  (forall k, has_prefix k ps -> k <> "mass" -> k <> "charge" -> k <> "ision" -> dict_get k d = Some (SBool true)) /\
  (~ has_prefix "tracer" ps -> dict_get "tracer" d = Some (SBool false)) /\
  (~ has_prefix "ejected" ps -> dict_get "ejected" d = Some (SBool false)) /\
  (~ has_prefix "name" ps -> dict_get "name" d = Some (SStr (name_of ps v))) /\
  (forall k, ~ has_prefix k ps -> ~ In k ["mass"; "charge"; "ision"; "tracer"; "ejected"; "name"] -> dict_get k d = None).
(** the character does not occur *)
Definition no_char (x : ascii) (s : chars) : Prop := Forall (fun z => z <> x) s.
