(** What collecting through a skipped history does to the ids: C39. *)
From Coq Require Import Lia Permutation.
From Verif Require Import PyBase NumpyModel NdModel FieldModel HelperModel ParticleModel ParticleSpec HistoryModel HistorySpec HistoryDemo HistorySkip.

(** collect() of a history made by skip(n), whether it succeeds or not, reorders at most the ids at the
    positions 0, n+1, 2(n+1), ... of the array it was made from; everything else in this array and
    every other array stays *)
Theorem C39_skip_array : forall s fs w, (k_base s < length (w_ids w))%nat ->
  let old := nth (k_base s) (w_ids w) [] in let w' := fst (sk_collect s fs w) in let new := nth (k_base s) (w_ids w') [] in
  length new = length old /\ (forall i, (forall q, i <> q * S (k_skip s))%nat -> nth_error new i = nth_error old i) /\
  (exists v v', (forall i, nth_error v i = nth_error old (i * S (k_skip s))) /\ (forall i, nth_error v' i = nth_error new (i * S (k_skip s))) /\ Permutation v v') /\
  forall j, (j < length (w_ids w))%nat -> j <> k_base s -> nth j (w_ids w') [] = nth j (w_ids w) [].
Proof. exact skip_array. Qed.
Print Assumptions C39_skip_array.
(** [10; 3; 7; 5] becomes [7; 3; 10; 5] *)
Example C39_skip_array_case : nth 0 (w_ids (fst ((do! h := ph_new two ["e"%string] [10; 3; 7; 5]%Z in do! sk := ph_skip h 1 in sk_collect sk [posx]) empty_world))) [] = [7; 3; 10; 5]%Z.
Proof. vm_compute. reflexivity. Qed.
(** the hypothesis holds of it: the history which skip() gives has its array in the world *)
Example C39_skip_array_reach : exists sk w, (do! h := ph_new two ["e"%string] [10; 3; 7; 5]%Z in ph_skip h 1) empty_world = (w, Ok sk) /\ (k_base sk < length (w_ids w))%nat /\ k_skip sk = 1%nat.
Proof. vm_compute. eexists. eexists. split; [reflexivity|split; [lia|reflexivity]]. Qed.
