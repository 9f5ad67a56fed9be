(** Model of the names of saved plots: postpic/plotting/plotter_matplotlib.py, __init__ (62-74), __len__
    (76-77), project (79-81), savename (83-99), lastsavename (101-110).  Texts are ascii.  Every call gets
    the attributes the plotter and its reader have at that time, because they can be assigned.
    No proofs in this file. *)
From Coq Require Import DecimalString Ascii.
From Verif Require Import PyBase.
Local Open Scope string_scope.

(** str(n) *)
Definition dec (n : nat) : string := NilEmpty.string_of_uint (Nat.to_uint n).
(** the attributes outdir, _project, reader.name and _ext *)
Record attrs := mkattrs { p_outdir : string; p_project : option string; p_reader : string; p_ext : string }.
(** 81: None and '' both give '' *)
Definition project (a : attrs) : string := match p_project a with Some p => p | None => "" end.
(** 88: .replace('/', '_').replace(' ', '') *)
Fixpoint clean (s : string) : string :=
  match s with
  | EmptyString => EmptyString
  | String c r => if Ascii.eqb c "/" then String "_" (clean r) else if Ascii.eqb c " " then clean r else String c (clean r)
  end.
(** * template % i for one integer, left to right.  [taken]: the integer is used already *)
Definition flag_char (c : ascii) : bool := existsb (Ascii.eqb c) (list_ascii_of_string "#0- +").
Definition digit_char (c : ascii) : bool := existsb (Ascii.eqb c) (list_ascii_of_string "0123456789").
Definition conversion (c : ascii) : bool := existsb (Ascii.eqb c) (list_ascii_of_string "diouxXeEfFgGcrsa").
(** what stands between '%' and the letter; [dot]: a precision has begun, [long]: h, l or L was seen *)
Inductive mode := Plain | Spec (width dot long bare : bool).
Fixpoint format (m : mode) (taken : bool) (i : nat) (s : string) : res string :=
  match s with
  | EmptyString => match m with
                   | Plain => if taken then Ok "" else Err TypeError       (* not all arguments converted *)
                   | _ => Err ValueError                                  (* incomplete format *)
                   end
  | String c r =>
      match m with
      | Plain => if Ascii.eqb c "%" then format (Spec false false false true) taken i r
                 else rmap (String c) (format Plain taken i r)
      | Spec width dot long bare =>
          if Ascii.eqb c "%" then rmap (String c) (format Plain taken i r)
          else if Ascii.eqb c "d" then
            if taken then Err TypeError                                   (* not enough arguments *)
            else if bare then rmap (append (dec i)) (format Plain true i r)
            else rmap (fun t => "?" ++ t) (format Plain true i r)         (* padded: the text is not modelled *)
          else if conversion c then
            if taken then Err TypeError else rmap (fun t => "?" ++ t) (format Plain true i r)
          else if flag_char c && negb width && negb dot && negb long then format (Spec false false false false) taken i r
          else if digit_char c && negb long then format (Spec true dot long false) taken i r
          else if Ascii.eqb c "." && negb dot && negb long then format (Spec width true long false) taken i r
          else if existsb (Ascii.eqb c) (list_ascii_of_string "hlL") && negb long then format (Spec width dot true false) taken i r
          else if Ascii.eqb c "(" && bare then Err TypeError              (* needs a mapping *)
          else if Ascii.eqb c "*" then Err TypeError                      (* takes the integer, %d is left without *)
          else if taken then Err TypeError else Err ValueError            (* unsupported character *)
      end
  end.
(** nametmp % i *)
Definition percent (template : string) (i : nat) : res string := format Plain false i template.
Definition used_in (used : list string) (name : string) : bool := existsb (String.eqb name) used.
(** 90-94: while name in used; [fuel] bounds the number of rounds *)
Fixpoint search (fuel : nat) (used : list string) (nametmp : string) (i : nat) (name : string) : res string :=
  if used_in used name then
    match fuel with
    | O => Err Diverges
    | S fuel => let i := S i in let! name := percent nametmp i in search fuel used nametmp i name
    end
  else Ok name.
(** 84-89 *)
Definition base_name (a : attrs) (used : list string) (key : string) : string :=
  p_outdir a ++ clean (project a ++ "_" ++ p_reader a ++ "_" ++ dec (length used) ++ "_" ++ key).
(** 83-99; the state is _savenamesused.  [ext]: None and '' both mean _ext *)
Definition extension (a : attrs) (ext : option string) : string :=
  match ext with Some e => if String.eqb e "" then p_ext a else e | None => p_ext a end.
Definition savename (a : attrs) (key : string) (ext : option string) (used : list string) : list string * res string :=
  let name := base_name a used key in
  match search (S (length used)) used (name ++ "_%d") 0 name with
  | Ok name => ((used ++ [name])%list, Ok (name ++ "." ++ extension a ext))
  | Err e => (used, Err e)
  end.
(** 101-110 *)
Definition lastsavename (a : attrs) (used : list string) : list string * res string :=
  match rev used with
  | [] => savename a "lastsavename" None used
  | n :: _ => (used, Ok n)
  end.
(** a history of calls of savename: the names returned *)
Fixpoint saved (calls : list (attrs * (string * option string))) (used : list string) : list (res string) :=
  match calls with
  | [] => []
  | (a, (key, ext)) :: r => let (used, f) := savename a key ext used in f :: saved r used
  end.
Definition used_after (calls : list (attrs * (string * option string))) (used : list string) : list string :=
  fold_left (fun u c => fst (savename (fst c) (fst (snd c)) (snd (snd c)) u)) calls used.
