(** A dump with two species, used by the examples of PropParticle. *)
From Coq Require Import Lia.
From Verif Require Import PyBase PyBaseFacts NumpyModel NdModel FieldModel HelperModel ParticleModel ParticleSpec ParticleFacts ParticleOps ParticleHist ParticleRun ParticleLaws.
Open Scope string_scope.

Definition demo_get (name key : string) : option data :=
  if String.eqb name "e" then
    if String.eqb key "x" then Some (DVec [1; 2; 3; 4])
    else if String.eqb key "id" then Some (DVec [10; 7; 3; 5])
    else if String.eqb key "mass" then Some (DScalar 9) else None
  else if String.eqb name "p" then
    if String.eqb key "x" then Some (DVec [5; 6])
    else if String.eqb key "id" then Some (DVec [1; 2])
    else if String.eqb key "mass" then Some (DScalar 18) else None
  else None.
Definition demo : dump := mkdump ["e"; "p"] 0 demo_get (fun _ _ => None).
Definition demo_sizes (_ : dump) (name : string) : nat := if String.eqb name "e" then 4 else if String.eqb name "p" then 2 else 0.
Lemma demo_ok name : In name ["e"; "p"] -> dump_ok demo name (demo_sizes demo name).
Proof.
  intros [<-|[<-|[]]]; (split; [intro key; cbn [demo d_get demo_get String.eqb Ascii.eqb Bool.eqb]|]).
  - unfold demo_get. cbn. repeat destruct (String.eqb key _); auto.
  - intros _. exists "x", [1; 2; 3; 4]. split; [cbn; auto|]. split; [discriminate|reflexivity].
  - unfold demo_get. cbn. repeat destruct (String.eqb key _); auto.
  - intros _. exists "x", [5; 6]. split; [cbn; auto|]. split; [discriminate|reflexivity].
Qed.
Definition px : expr Q := mkexpr ["x"] (fun l => nth 0 l 0).
Definition pmass : expr Q := mkexpr ["mass"] (fun l => nth 0 l 0).
Definition x_above (c : Q) : expr bool := mkexpr ["x"] (fun l => c <?q nth 0 l 0).
Definition mass_above (c : Q) : expr bool := mkexpr ["mass"] (fun l => c <?q nth 0 l 0).
Definition demo_new : uop := UNew demo ["e"; "p"] false.
(** collection 0: everything *)
Definition demo0 : world := step demo_new empty_world.
Definition track0 : list (list group) := if succeeds demo_new empty_world then follow demo_sizes demo_new empty_world [] else [].
Lemma demo0_history : history demo_sizes demo0 track0.
Proof. apply h_step; [apply h_start|]. intros n I. apply demo_ok, I. Qed.
(** two arrays; collection 1: the first and the last two particles by the first array *)
Definition demo_run (ops : list uop) (w : world) : world := fold_left (fun w o => step o w) ops w.
Definition demo1 : world := step (UCompress 0 (mkview 0 0 6)) (step (UIds [3; 1; 10; 3]%Z) (step (UBools [true; false; false; true; true; false]) demo0)).
Definition track1 : list (list group) :=
  let w := step (UIds [3; 1; 10; 3]%Z) (step (UBools [true; false; false; true; true; false]) demo0) in
  if succeeds (UCompress 0 (mkview 0 0 6)) w then follow demo_sizes (UCompress 0 (mkview 0 0 6)) w track0 else track0.
Lemma demo1_history : history demo_sizes demo1 track1.
Proof.
  apply h_step.
  - apply (h_step demo_sizes (UIds [3; 1; 10; 3]%Z) _ track0).
    + apply (h_step demo_sizes (UBools [true; false; false; true; true; false]) _ track0); [apply demo0_history|exact I].
    + exact I.
  - vm_compute. repeat constructor.
Qed.
