(** Two dumps of a species whose particles move through the arrays, used by the examples of
    PropHistory. *)
From Coq Require Import Lia Permutation.
From Verif Require Import PyBase PyBaseFacts NumpyModel NdModel FieldModel HelperModel ParticleModel ParticleSpec ParticleFacts ParticleOps ParticleHist ParticleRun ParticleLaws
  HistoryModel HistorySpec HistoryFacts HistoryLaws.
Open Scope string_scope.

(** first dump: ids 10, 7, 3; second dump: ids 3, 10, 5 *)
Definition first_get (name key : string) : option data :=
  if String.eqb name "e" then
    if String.eqb key "x" then Some (DVec [1; 2; 3])
    else if String.eqb key "id" then Some (DVec [10; 7; 3]) else None
  else None.
Definition second_get (name key : string) : option data :=
  if String.eqb name "e" then
    if String.eqb key "x" then Some (DVec [30; 100; 50])
    else if String.eqb key "id" then Some (DVec [3; 10; 5]) else None
  else None.
Definition dump1 : dump := mkdump ["e"] 0 first_get (fun _ _ => None).
Definition dump2 : dump := mkdump ["e"] 1 second_get (fun _ _ => None).
Definition two : list dump := [dump1; dump2].
Definition two_sizes (_ : dump) (name : string) : nat := if String.eqb name "e" then 3 else 0.
Lemma two_ok : dumps_ok two_sizes ["e"] two.
Proof.
  intros d n [<-|[<-|[]]] [<-|[]]; (split; [intro key; cbn [dump1 dump2 d_get]|]).
  - unfold first_get. cbn. repeat destruct (String.eqb key _); auto.
  - intros _. exists "x", [1; 2; 3]. split; [cbn; auto|]. split; [discriminate|reflexivity].
  - unfold second_get. cbn. repeat destruct (String.eqb key _); auto.
  - intros _. exists "x", [30; 100; 50]. split; [cbn; auto|]. split; [discriminate|reflexivity].
Qed.
Definition posx : expr Q := mkexpr ["x"] (fun l => nth 0 l 0).
Lemma two_tracked : tracked ["e"] [posx] two.
Proof.
  intros d n [<-|[<-|[]]] [<-|[]] _; (split; [intro Z; discriminate Z|split; [intros [x X]; discriminate X|]]);
    intros f key [<-|[]] [<-|[]] Z; discriminate Z.
Qed.
(** run a program from an empty store *)
Definition outcome {A} (m : M A) : res A := snd (m empty_world).
Definition array_of (k : nat) : M (list Z) := get_ids k.
Definition q_eq (a b : list (list (list Q))) : bool :=
  (length a =? length b)%nat && forallb (fun p => (length (fst p) =? length (snd p))%nat &&
    forallb (fun q => (length (fst q) =? length (snd q))%nat && forallb (fun r => fst r ==?q snd r) (combine (fst q) (snd q))) (combine (fst p) (snd p))) (combine a b).
Definition is_ok {A} (r : res A) (p : A -> bool) : bool := match r with Ok a => p a | Err _ => false end.
