(** What a series of dumps inherits from collections.abc.Sequence, /repo/postpic/datareader/datareader.py
    306-375.  No proofs in this file.

    [same d v]: d is v or d == v, where == is Dumpreader_ifc.__eq__ (ReaderModel.dump_eqb); it is taken
    not to raise.  The methods are those of cpython's _collections_abc.py. *)
From Verif Require Import PyBase NdModel FieldModel ReaderModel.
Local Open Scope Z_scope.

Section Sequence.
Context {D : Type} (same : D -> D -> bool).
(** Sequence.index(value): s[0], s[1], ... until found or IndexError; as in [iter_from] s[len] raises it *)
Fixpoint index_from (s : simreader D) (v : D) (turns : nat) (i : Z) : res Z :=
  match turns with
  | O => Err Diverges
  | S t => match sim_int s i with
           | Ok d => if same d v then Ok i else index_from s v t (i + 1)
           | Err IndexError => Err ValueError
           | Err e => Err e
           end
  end.
Definition sim_index (s : simreader D) (v : D) : res Z := index_from s v (S (Z.to_nat (sim_len s))) 0.
(** Sequence.__contains__: stops at the first one found *)
Fixpoint contains_from (s : simreader D) (v : D) (turns : nat) (i : Z) : res bool :=
  match turns with
  | O => Err Diverges
  | S t => match sim_int s i with
           | Ok d => if same d v then Ok true else contains_from s v t (i + 1)
           | Err IndexError => Ok false
           | Err e => Err e
           end
  end.
Definition sim_contains (s : simreader D) (v : D) : res bool := contains_from s v (S (Z.to_nat (sim_len s))) 0.
(** Sequence.count *)
Definition sim_count (s : simreader D) (v : D) : res Z :=
  let! l := sim_list s in Ok (Z.of_nat (length (filter (fun d => same d v) l))).
(** list(reversed(s)): Sequence.__reversed__ *)
Definition sim_reversed (s : simreader D) : res (list D) := mapM (sim_int s) (rev (zrange (sim_len s))).
End Sequence.
