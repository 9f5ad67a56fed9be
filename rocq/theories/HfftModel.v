(** The helper for Fourier transforms, /repo/postpic/helper_fft.py.  No proofs in this file.

    [V]: python objects.  A function of the module pyfftw.interfaces.numpy_fft or numpy.fft takes the
    positional arguments and the dictionary of the keywords.  Dictionaries are objects: they live in
    numbered cells, so that it can be seen which of them a call changes.  Not modelled: the number of
    processors (38-46, not used afterwards but for being replaced by 1), functools.wraps. *)
From Verif Require Import PyBase NdModel.

Definition kwdict (V : Type) := list (string * V).
Definition pyfun (V : Type) := list V -> kwdict V -> res V.
Fixpoint kget {V} (d : kwdict V) (k : string) : option V :=
  match d with [] => None | (j, v) :: r => if String.eqb j k then Some v else kget r k end.
(** d[k] = v: an old key keeps its place *)
Fixpoint kset {V} (d : kwdict V) (k : string) (v : V) : kwdict V :=
  match d with [] => [(k, v)] | (j, w) :: r => if String.eqb j k then (j, v) :: r else (j, w) :: kset r k v end.
(** dict.update *)
Definition kupdate {V} (d kw : kwdict V) : kwdict V := fold_left (fun d p => kset d (fst p) (snd p)) kw d.

(** _fft_functions, 72-74 *)
Definition fft_functions : list string :=
  ["fft"; "ifft"; "fft2"; "ifft2"; "fftn"; "ifftn"; "rfft"; "irfft"; "rfft2"; "irfft2"; "irfftn"; "hfft"; "ihfft"]%string.
(** fft_module and fft_kwargs: the class attributes; the latter is the dictionary in cell [h_kwargs].
    [h_own]: the attributes set by __init__ *)
Record helper (V : Type) := mkhelper { h_module : string -> option (pyfun V); h_cells : list (kwdict V); h_kwargs : nat; h_own : list (string * pyfun V) }.
Arguments mkhelper {V}. Arguments h_module {V}. Arguments h_cells {V}. Arguments h_kwargs {V}. Arguments h_own {V}.
Fixpoint own_get {V} (d : list (string * pyfun V)) (k : string) : option (pyfun V) :=
  match d with [] => None | (j, f) :: r => if String.eqb j k then Some f else own_get r k end.
(** __init__, 90-92, with getattr of 78: a function which the module has not is an AttributeError.
    Kept in [h_own] is the function [wrapped] *)
Definition fft_init {V} (module : string -> option (pyfun V)) (kwargs : kwdict V) : res (helper V) :=
  let! own := mapM (fun n => match module n with Some f => Ok (n, f) | None => Err AttributeError end) fft_functions in
  Ok (mkhelper module [kwargs] 0 own).
(** the function made by _get_defaultkwargf, 80-84: copy, update, call *)
Definition call_wrapped {V} (h : helper V) (f : pyfun V) (args : list V) (kw : kwdict V) : helper V * res V :=
  let k := length (h_cells h) in
  let cells := h_cells h ++ [nth (h_kwargs h) (h_cells h) []] in
  let cells := upd cells k (kupdate (nth k cells []) kw) in
  (mkhelper (h_module h) cells (h_kwargs h) (h_own h), f args (nth k cells [])).
(** fft.name( *args, **kw): the own attribute, otherwise __getattr__, 87-88 *)
Definition fft_call {V} (name : string) (args : list V) (kw : kwdict V) (h : helper V) : helper V * res V :=
  match own_get (h_own h) name with
  | Some f => call_wrapped h f args kw
  | None => match h_module h name with Some f => (h, f args kw) | None => (h, Err AttributeError) end
  end.
(** a history of calls *)
Definition fft_calls {V} (l : list (string * (list V * kwdict V))) (h : helper V) : helper V :=
  fold_left (fun h c => fst (fft_call (fst c) (fst (snd c)) (snd (snd c)) h)) l h.
