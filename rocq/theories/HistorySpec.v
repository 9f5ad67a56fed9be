(** Specification of particle histories (C39): no store, no arrays. *)
From Verif Require Import PyBase NumpyModel NdModel FieldModel HelperModel ParticleModel ParticleSpec.

(** the particles of the given species in a dump that have the id x, in order *)
Definition occurrences (sizes : dump -> string -> nat) (names : list string) (x : Z) (d : dump) : list (string * nat) :=
  flat_map (fun n => map (pair n) (filter (fun i => value d n i "id" ==?q inject_Z x) (seq 0 (sizes d n))))
    (filter (fun n => existsb (String.eqb n) (d_names d)) names).
(** the values of the scalars for one of them *)
Definition scalars_of (fs : list (expr Q)) (d : dump) (p : string * nat) : list Q :=
  map (fun f => e_fn f (map (value d (fst p) (snd p)) (e_keys f))) fs.
(** the history of a particle, dump by dump *)
Definition trajectory (sizes : dump -> string -> nat) (names : list string) (fs : list (expr Q)) (sr : list dump) (x : Z) : list (list Q) :=
  flat_map (fun d => map (scalars_of fs d) (occurrences sizes names x d)) sr.
(** the dumps are consistent *)
Definition dumps_ok (sizes : dump -> string -> nat) (names : list string) (sr : list dump) : Prop :=
  forall d n, In d sr -> In n names -> dump_ok d n (sizes d n).
(** each species has ids and the inputs of the scalars *)
Definition tracked (names : list string) (fs : list (expr Q)) (sr : list dump) : Prop :=
  forall d n, In d sr -> In n names -> existsb (String.eqb n) (d_names d) = true ->
    known d n "id" /\ ~ is_scalar d n "id" /\ forall f key, In f fs -> In key (e_keys f) -> known d n key.
(** later in the history of the program *)
Inductive later (sizes : dump -> string -> nat) (w : world) (s : list (list group)) : world -> list (list group) -> Prop :=
| l_same : later sizes w s w s
| l_step o w' s' : later sizes w s w' s' -> allowed sizes o w' ->
    later sizes w s (step o w') (if succeeds o w' then follow sizes o w' s' else s').
