(** What dumps list, said without the functions of the model. *)
From Coq Require Import Ascii Sorting.
From Verif Require Import PyBase ListModel.
Local Open Scope string_scope.

Fixpoint chars (s : string) : list ascii := match s with EmptyString => [] | String c r => c :: chars r end.
Definition letters : list ascii := chars "abcdefghijklmnopqrstuvwxyzABCDEFGHIJKLMNOPQRSTUVWXYZ0123456789_".
(** texts of such characters which are not empty *)
Definition text_of (l : list ascii) (s : string) : Prop := s <> "" /\ forall c, In c (chars s) -> In c l.
Definition word (s : string) : Prop := text_of letters s.
Definition part (s : string) : Prop := text_of ("-"%char :: letters) s.
(** a species, or a species of a subset of particles *)
Definition species_name (s : string) : Prop := part s \/ exists a b, part a /\ part b /\ s = a ++ "/" ++ b.
(** data of the species s is under the key, perhaps with more characters behind *)
Definition fits (key s : string) : Prop := exists w r, word w /\ species_name s /\ key = "Particles/" ++ w ++ "/" ++ s ++ r.
(** the longest such s *)
Definition named (key s : string) : Prop := fits key s /\ forall s', fits key s' -> (String.length s' <= String.length s)%nat.
(** the keys of a dump are sound for a list of species: data of particles is that of one of them *)
Definition particle_key (q s : string) : string := "Particles/" ++ q ++ "/" ++ s.
Definition sound_keys (keys species : list string) : Prop :=
  (forall s, In s species -> species_name s /\ exists q, word q /\ In (particle_key q s) keys) /\
  (forall k, In k keys -> String.prefix "Particles/" k = true -> exists q s, word q /\ In s species /\ k = particle_key q s).
Definition lt_str (a b : string) : Prop := String.compare a b = Lt.
Definition increasing (l : list string) : Prop := StronglySorted lt_str l.
Definition ascending (l : list string) : Prop := StronglySorted (fun a b => String.compare a b <> Gt) l.
(** keys of derived quantities with letters, digits, _, / and blanks *)
Definition clean_derived (k : string) : Prop := exists s, k = "Derived/" ++ s /\ forall c, In c (chars s) -> In c ("/"%char :: " "%char :: letters).
(** the units of the fields and the keys the codes use *)
Definition si_unit (magnetic : bool) : string := if magnetic then "T" else "V/m".
Definition stored (r : reader) (magnetic : bool) (c : comp) (average : bool) : option string :=
  let f := if magnetic then "B" else "E" in
  match r, c with
  | Epoch, X => Some ((if magnetic then "Magnetic" else "Electric") ++ " Field/" ++ f ++ "x" ++ if average then "_averaged" else "")
  | Epoch, Y => Some ((if magnetic then "Magnetic" else "Electric") ++ " Field/" ++ f ++ "y" ++ if average then "_averaged" else "")
  | Epoch, Z_ => Some ((if magnetic then "Magnetic" else "Electric") ++ " Field/" ++ f ++ "z" ++ if average then "_averaged" else "")
  | Epoch, _ => None
  | (OpenPMD | Fbpic), X => Some ("fields/" ++ f ++ "/x")
  | (OpenPMD | Fbpic), Y => Some ("fields/" ++ f ++ "/y")
  | (OpenPMD | Fbpic), Z_ => Some ("fields/" ++ f ++ "/z")
  | (OpenPMD | Fbpic), R_ => Some ("fields/" ++ f ++ "/r")
  | (OpenPMD | Fbpic), Theta => Some ("fields/" ++ f ++ "/t")
  | Smilei, X => Some (f ++ "x")
  | Smilei, Y => Some (f ++ "y")
  | Smilei, Z_ => Some (f ++ "z")
  | Smilei, R_ => Some (f ++ "r")
  | Smilei, Theta => Some (f ++ "t")
  end.
(** which function of helper is used: spatial alignment only, or also in time to the magnetic or to the
    electric field *)
Inductive aligned := InSpace | ToB | ToE.
Definition call_alignment (c : call) : aligned := match c with Kspace _ => InSpace | EpochLike _ false _ => ToB | EpochLike _ true _ => ToE end.
Definition call_omega (c : call) : omega := match c with Kspace om => om | EpochLike _ _ om => om end.
Definition call_dt (c : call) : option (option Q) := match c with Kspace _ => None | EpochLike dt _ _ => Some dt end.
(** the names of attributes of particles and where EPOCH puts them *)
Definition quantities : list (list string * string) :=
  [(["weight"; "w"], "Weight"); (["px"; "Px"; "PX"], "Px"); (["py"; "Py"; "PY"], "Py"); (["pz"; "Pz"; "PZ"], "Pz"); (["id"; "ID"], "ID");
   (["mass"; "m"; "Mass"], "Mass"); (["charge"; "c"; "Charge"; "q"], "Charge")].
Definition positions : list (list string * nat) := [(["x"; "X"], 0%nat); (["y"; "Y"], 1%nat); (["z"; "Z"], 2%nat)].
(** a dump is a dictionary: of particle data and of positions, a list of arrays for each species *)
Definition dict {X} (d : list (string * X)) (get : string -> res X) : Prop :=
  (forall k x, In (k, x) d -> get k = Ok x) /\ (forall k, (forall x, ~ In (k, x) d) -> get k = Err KeyError).
(** the alignments which are documented *)
Definition known (a : string) : Prop := a = "auto" \/ a = "default" \/ a = "epoch" \/ a = "epoch-final".
