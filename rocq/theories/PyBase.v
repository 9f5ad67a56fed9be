(** Shared primitives: python exceptions as values, python slices on sequences,
    comparisons on rationals.  No proofs in this file. *)
From Coq Require Export String.
From Coq Require Export List ZArith QArith Bool.
From Coq Require Import Lia.
Export ListNotations.
Open Scope list_scope.

(** The python exception classes that the modelled code raises.  [MemFault] is no
    python exception: it stands for an access outside an array in cython code
    compiled with boundscheck(False), which is undefined behaviour.  [Diverges] is
    no python exception either: a loop of the model used up its step bound. *)
Inductive exn :=
| ValueError | IndexError | KeyError | TypeError | NameError | AttributeError
| AssertionError | ZeroDivisionError | IOError | RuntimeError | BareException | MemFault | Diverges.

(** Result of a python call: a value or a raised exception. *)
Inductive res (A : Type) :=
| Ok (a : A)
| Err (e : exn).
Arguments Ok {A} a.
Arguments Err {A} e.

Definition bind {A B} (r : res A) (f : A -> res B) : res B :=
  match r with Ok a => f a | Err e => Err e end.
Definition rmap {A B} (f : A -> B) (r : res A) : res B :=
  match r with Ok a => Ok (f a) | Err e => Err e end.
Notation "'let!' x ':=' r 'in' k" := (bind r (fun x => k))
  (at level 200, x pattern, r at level 100, k at level 200, right associativity).
Definition is_ok {A} (r : res A) : bool := match r with Ok _ => true | Err _ => false end.

(** [if c: raise e] *)
Definition guard (ok : bool) (e : exn) : res unit := if ok then Ok tt else Err e.

(** Python [slice(start, stop, step)]; [None] is a missing entry. *)
Record slice := mkslice { s_start : option Z; s_stop : option Z; s_step : option Z }.

(** One bound of [slice.indices(len)] (CPython PySlice_AdjustIndices):
    negative values count from the end, then values are clipped. *)
Definition adjust_bound (len step v : Z) : Z :=
  if (v <? 0)%Z then
    let v' := (v + len)%Z in
    if (v' <? 0)%Z then (if (step <? 0)%Z then (-1) else 0)%Z else v'
  else if (len <=? v)%Z then (if (step <? 0)%Z then len - 1 else len)%Z else v.

(** [slice.indices(len)] = (start, stop, step); step 0 is a ValueError. *)
Definition slice_indices (sl : slice) (len : Z) : res (Z * Z * Z) :=
  let step := match s_step sl with None => 1%Z | Some s => s end in
  if (step =? 0)%Z then Err ValueError
  else
    let start := match s_start sl with
                 | Some v => adjust_bound len step v
                 | None => if (step <? 0)%Z then (len - 1)%Z else 0%Z
                 end in
    let stop := match s_stop sl with
                | Some v => adjust_bound len step v
                | None => if (step <? 0)%Z then (-1)%Z else len
                end in
    Ok (start, stop, step).

(** [len(range(start, stop, step))] *)
Definition range_len (start stop step : Z) : nat :=
  if (step <? 0)%Z then
    if (stop <? start)%Z then Z.to_nat ((start - stop - 1) / (- step) + 1)%Z else 0%nat
  else
    if (start <? stop)%Z then Z.to_nat ((stop - start - 1) / step + 1)%Z else 0%nat.

(** [list(range(start, stop, step))] *)
Definition py_range (start stop step : Z) : list Z :=
  map (fun k => (start + Z.of_nat k * step)%Z) (seq 0 (range_len start stop step)).

(** Elements at the given (valid) positions. *)
Fixpoint take_idx {A} (l : list A) (idx : list Z) : list A :=
  match idx with
  | [] => []
  | i :: rest =>
      match nth_error l (Z.to_nat i) with
      | Some x => x :: take_idx l rest
      | None => take_idx l rest
      end
  end.

(** [l[sl]] for a sequence (list or 1-d numpy array). *)
Definition getslice {A} (l : list A) (sl : slice) : res (list A) :=
  let! sss := slice_indices sl (Z.of_nat (length l)) in
  let '(start, stop, step) := sss in
  Ok (take_idx l (py_range start stop step)).

(** [l[i]] with python's negative indices; IndexError out of range. *)
Definition getidx {A} (l : list A) (i : Z) : res A :=
  let len := Z.of_nat (length l) in
  let i' := if (i <? 0)%Z then (i + len)%Z else i in
  if ((0 <=? i') && (i' <? len))%Z then
    match nth_error l (Z.to_nat i') with Some x => Ok x | None => Err IndexError end
  else Err IndexError.

(** Strict comparison of rationals as a boolean. *)
Definition Qltb (a b : Q) : bool := negb (Qle_bool b a).
Notation "a <?q b" := (Qltb a b) (at level 70).
Notation "a <=?q b" := (Qle_bool a b) (at level 70).
Notation "a ==?q b" := (Qeq_bool a b) (at level 70).

(** Absolute value, computed by comparison with zero. *)
Definition qabs (a : Q) : Q := if Qle_bool 0 a then a else - a.

(** n copies of x *)
Definition qhalf : Q := 1 # 2.

(** Pointwise equality of rational lists. *)
Definition Qlist_eq (a b : list Q) : Prop := Forall2 Qeq a b.
