(** Model of the bookkeeping of selections in postpic/particles/particles.py: the logs, the numbers of
    particles and the names of a MultiSpecies.  No proofs in this file.

    A species is its name, the number of particles in the dump, the selection and its log; sharing is left
    to ParticleModel.v (nothing here is modified in place: every operation works on copies, 96-108, 361-371).
    Conditions are boolean arrays; the values of an expression on a species are an argument. *)
From Verif Require Import PyBase NdModel.

(** _compressboollist: None, the 0-d array False, a 1-d boolean array *)
Inductive selection := SelAll | SelNothing | SelMask (b : list bool).
Record slog := mkSlog { sl_name : string; sl_size : nat; sl_sel : selection; sl_log : list string }.
(** _ssas, _compresslog, _species *)
Record mlog := mkMlog { ml_all : list slog; ml_log : list string; ml_label : option string }.
(** a ScalarProperty with str(condition), expr, name and its values on a species *)
Record cond := mkCond { c_text : string; c_expr : string; c_name : option string; c_eval : slog -> res (list bool) }.

Definition count (b : list bool) : nat := length (filter (fun x => x) b).
(** a[a] = c *)
Fixpoint narrow (a c : list bool) : list bool :=
  match a with
  | [] => []
  | true :: a' => match c with x :: c' => x :: narrow a' c' | [] => a end
  | false :: a' => false :: narrow a' c
  end.
(** _SingleSpecies.__len__, 269-282: some property is given for every particle *)
Definition slen (s : slog) : nat := match sl_sel s with SelAll => sl_size s | SelNothing => 0 | SelMask b => count b end.
(** _SingleSpecies.initial_npart, 284-291: the 0-d array has no len *)
Definition sinitial (s : slog) : res nat := match sl_sel s with SelAll => Ok (slen s) | SelNothing => Err TypeError | SelMask b => Ok (length b) end.
(** _SingleSpecies.compress with booleans, 209-234 *)
Definition scompress (c : list bool) (name : string) (s : slog) : res slog :=
  if (slen s =? length c)%nat then
    Ok (mkSlog (sl_name s) (sl_size s)
          (match sl_sel s with SelAll => SelMask c | SelNothing => SelNothing | SelMask b => SelMask (narrow b c) end)
          (sl_log s ++ [name])%list)
  else Err ValueError.
(** _SingleSpecies.filter, 157-172 *)
Definition sfilter (c : cond) (name : option string) (s : slog) : res slog :=
  let! b := c_eval c s in
  let n := match name with Some n => n | None => match c_name c with Some n => n | None => c_expr c end end in
  scompress b n s.
(** _SingleSpecies.uncompress, 248-252: a new object of the same name *)
Definition suncompress (s : slog) : slog := mkSlog (sl_name s) (sl_size s) SelAll [].
(** _SingleSpecies.__invert__, 254-267 *)
Definition sinvert (s : slog) : slog :=
  mkSlog (sl_name s) (sl_size s) (match sl_sel s with SelAll => SelNothing | SelNothing => SelAll | SelMask b => SelMask (map negb b) end) (sl_log s ++ ["inverted"%string])%list.

(** npart, 418-426 and initial_npart, 428-436, nspecies 438-443, speciess 473-478 *)
Definition npart (m : mlog) : nat := fold_left (fun r s => r + slen s)%nat (ml_all m) 0%nat.
Definition initial_npart (m : mlog) : res nat := fold_left (fun r s => let! r := r in let! i := sinitial s in Ok (r + i)%nat) (ml_all m) (Ok 0%nat).
Definition nspecies (m : mlog) : nat := length (ml_all m).
Definition speciess (m : mlog) : list string := map sl_name (ml_all m).
(** MultiSpecies.filter, 559-568 *)
Definition mfilter (c : cond) (name : option string) (m : mlog) : res mlog :=
  let! l := mapM (sfilter c name) (ml_all m) in Ok (mkMlog l (ml_log m ++ [c_text c])%list (ml_label m)).
(** MultiSpecies.compress with booleans, 570-584; condition[i:i+n] *)
Fixpoint compress_all (c : list bool) (name : string) (l : list slog) : res (list slog) :=
  match l with
  | [] => Ok []
  | s :: r => let! s' := scompress (firstn (slen s) c) name s in let! r' := compress_all (skipn (slen s) c) name r in Ok (s' :: r')
  end.
Definition mcompress (c : list bool) (name : string) (m : mlog) : res mlog :=
  let! l := compress_all c name (ml_all m) in Ok (mkMlog l (ml_log m ++ [name])%list (ml_label m)).
(** 586-593 *)
Definition minvert (m : mlog) : mlog := mkMlog (map sinvert (ml_all m)) (ml_log m ++ ["inverted"%string])%list (ml_label m).
(** compressfn, 597-605: the name of the function is preferred *)
Definition mcompressfn (f : mlog -> res (list bool)) (fname : option string) (name : string) (m : mlog) : res mlog :=
  let! c := f m in mcompress c (match fname with Some n => n | None => name end) m.
(** uncompress, 607-615 *)
Definition muncompress (m : mlog) : mlog := mkMlog (map suncompress (ml_all m)) [] (ml_label m).
(** __add__ and __iadd__, 524-556: label and log of the first *)
Definition madd (a b : mlog) : mlog := mkMlog (ml_all a ++ ml_all b) (ml_log a) (ml_label a).
(** dict.update with one key *)
Fixpoint dict_set {A} (k : string) (x : A) (d : list (string * A)) : list (string * A) :=
  match d with
  | [] => [(k, x)]
  | (k', y) :: r => if String.eqb k k' then (k', x) :: r else (k', y) :: dict_set k x r
  end.
Fixpoint dict_get {A} (k : string) (d : list (string * A)) : option A :=
  match d with [] => None | (k', x) :: r => if String.eqb k k' then Some x else dict_get k r end.
(** getcompresslog, 617-621 *)
Definition getcompresslog (m : mlog) : list (string * list string) :=
  fold_left (fun d s => dict_set (sl_name s) (sl_log s) d) (ml_all m) [("all"%string, ml_log m)].
(** __repr__, 373-381: what is shown of the numbers; the share is only shown when something is missing *)
Inductive shown := ShownAll (n : nat) | ShownPart (n i : nat).
Definition shows (m : mlog) : res shown := let! i := initial_npart m in Ok (if (npart m =? i)%nat then ShownAll (npart m) else ShownPart (npart m) i).

(** a step of an analysis *)
Inductive step := Compress (c : list bool) (name : string) | Filter (c : cond) (name : option string) | Invert | Uncompress.
Definition do_step (m : mlog) (s : step) : res mlog :=
  match s with
  | Compress c name => mcompress c name m
  | Filter c name => mfilter c name m
  | Invert => Ok (minvert m)
  | Uncompress => Ok (muncompress m)
  end.
Definition run (m : mlog) (l : list step) : res mlog := fold_left (fun r s => let! m := r in do_step m s) l (Ok m).
