(** A sort and a dump with weights, used by the examples of PropStat. *)
From Coq Require Import Lia Permutation Sorting.Sorted.
From Verif Require Import PyBase PyBaseFacts NumpyModel NdModel FieldModel HelperModel ParticleModel ParticleSpec ParticleLaws StatModel StatSpec.
Open Scope string_scope.

Fixpoint ins (d : list Q) (i : nat) (l : list nat) : list nat :=
  match l with [] => [i] | j :: r => if nth i d 0 <=?q nth j d 0 then i :: l else j :: ins d i r end.
Definition demo_argsort (d : list Q) : list nat := fold_right (ins d) [] (seq 0 (length d)).
Lemma ins_perm d i l : Permutation (ins d i l) (i :: l).
Proof.
  induction l as [|j l IH]; cbn [ins]; [reflexivity|]. destruct (_ <=?q _); [reflexivity|].
  rewrite IH. apply perm_swap.
Qed.
Lemma ins_sorted d i l : Sorted Qle (map (fun i => nth i d 0) l) -> Sorted Qle (map (fun i => nth i d 0) (ins d i l)).
Proof.
  induction l as [|j l IH]; intro H; cbn [ins map]; [repeat constructor|]. cbn [map] in H. inversion H as [|a b S T]; subst.
  destruct (Qleb_spec (nth i d 0) (nth j d 0)) as [K|K]; cbn [map].
  - constructor; [exact H|constructor; exact K].
  - specialize (IH S). constructor; [exact IH|]. apply Qnot_le_lt, Qlt_le_weak in K.
    destruct l as [|m l]; cbn [ins map]; [constructor; exact K|]. cbn [map] in T. inversion T; subst.
    destruct (_ <=?q _); cbn [map]; constructor; assumption.
Qed.
Lemma demo_sorting : sorting demo_argsort.
Proof.
  intro d. unfold demo_argsort. induction (seq 0 (length d)) as [|i l [P S]]; cbn [fold_right]; [split; constructor|].
  split; [rewrite ins_perm; now constructor|apply ins_sorted, S].
Qed.

Definition stat_get (name key : string) : option data :=
  if String.eqb name "e" then
    if String.eqb key "x" then Some (DVec [3; 1; 2; 1])
    else if String.eqb key "weight" then Some (DVec [1; 2; 1; 4]) else None
  else None.
Definition stat_demo : dump := mkdump ["e"] 0 stat_get (fun _ _ => None).
Definition stat_sizes (_ : dump) (name : string) : nat := if String.eqb name "e" then 4 else 0.
Lemma stat_ok name : In name ["e"] -> dump_ok stat_demo name (stat_sizes stat_demo name).
Proof.
  intros [<-|[]]; (split; [intro key; cbn [stat_demo d_get stat_get String.eqb Ascii.eqb Bool.eqb]|]).
  - unfold stat_get. cbn. repeat destruct (String.eqb key _); auto.
  - intros _. exists "x", [3; 1; 2; 1]. split; [cbn; auto|]. split; [discriminate|reflexivity].
Qed.
Definition stat_new : uop := UNew stat_demo ["e"] false.
Definition stat0 : world := step stat_new empty_world.
Definition stat_track : list (list group) := if succeeds stat_new empty_world then follow stat_sizes stat_new empty_world [] else [].
Lemma stat0_history : history stat_sizes stat0 stat_track.
Proof. apply h_step; [apply h_start|]. intros n I. apply stat_ok, I. Qed.
Definition sx : expr Q := mkexpr ["x"] (fun l => nth 0 l 0).
