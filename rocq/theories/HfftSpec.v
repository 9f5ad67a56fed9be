(** Specification of the keywords of the transforms (C124). *)
From Verif Require Import PyBase.

(** the value bound to a name in a list of keywords without repetitions *)
Definition binds {V} (d : list (string * V)) (k : string) (v : V) : Prop := In (k, v) d.
(** [all] has the keywords given and, where none is given, the defaults, and nothing else *)
Definition filled {V} (defaults given all : list (string * V)) : Prop :=
  NoDup (map fst all) /\ forall k v, binds all k v <-> binds given k v \/ (binds defaults k v /\ ~ In k (map fst given)).
