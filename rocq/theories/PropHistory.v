(** Particle histories (C39). *)
From Coq Require Import Permutation.
From Verif Require Import PyBase PyBaseFacts NumpyModel NdModel FieldModel HelperModel ParticleModel ParticleSpec ParticleFacts ParticleOps ParticleHist ParticleRun ParticleLaws
  HistoryModel HistorySpec HistoryFacts HistoryLaws HistoryDemo.
Open Scope list_scope.

(** ** C39 *)
(** whatever the program did before the history was made and between making it and collecting,
    the i-th result is the trajectory of the i-th id: the scalars of every particle with that
    id, dump by dump; if the id is repeated, the last position has it and the others are empty.
    The program can go on afterwards, e.g. with another collect *)
Theorem C39_trajectories_partial (sizes : dump -> string -> nat) (sr : list dump) (names : list string) (ids : list Z) (w0 : world) (s0 : list (list group))
  (w1 : world) (h : phistory) (w : world) (s : list (list group)) (fs : list (expr Q)) (w2 : world) (l : list (list (list Q))) :
  history sizes w0 s0 -> dumps_ok sizes names sr -> ph_new sr names ids w0 = (w1, Ok h) -> later sizes w1 s0 w s -> ph_collect h fs w = (w2, Ok l) ->
  (exists s2, later sizes w s w2 s2) /\ length l = length ids /\
  forall i x, nth_error ids i = Some x -> nth i l [] = if existsb (Z.eqb x) (skipn (S i) ids) then [] else trajectory sizes names fs sr x.
Proof. exact (trajectories sizes sr names ids w0 s0 w1 h w s fs w2 l). Qed.
Print Assumptions C39_trajectories_partial.

(** it succeeds for a non-empty list of ids if the species have ids and the scalars' inputs *)
Theorem C39_defined (sizes : dump -> string -> nat) (sr : list dump) (names : list string) (ids : list Z) (w0 : world) (s0 : list (list group))
  (w1 : world) (h : phistory) (w : world) (s : list (list group)) (fs : list (expr Q)) :
  history sizes w0 s0 -> dumps_ok sizes names sr -> ph_new sr names ids w0 = (w1, Ok h) -> later sizes w1 s0 w s -> ids <> [] -> tracked names fs sr ->
  exists w2 l, ph_collect h fs w = (w2, Ok l).
Proof. exact (collectable sizes sr names ids w0 s0 w1 h w s fs). Qed.
Print Assumptions C39_defined.

Example C39_example : exists w1 h w2 l,
  ph_new two ["e"%string] [10; 3; 7]%Z empty_world = (w1, Ok h) /\ ph_collect h [posx] w1 = (w2, Ok l) /\
  q_eq l [[[1]; [100]]; [[3]; [30]]; [[2]]] = true /\ trajectory two_sizes ["e"%string] [posx] two 10 = [[1]; [100]].
Proof.
  destruct (ph_new two ["e"%string] [10; 3; 7]%Z empty_world) as [w1 [h|e]] eqn:E; [|discriminate].
  assert (H : history two_sizes empty_world []) by apply h_start.
  destruct (C39_defined two_sizes two ["e"%string] [10; 3; 7]%Z empty_world [] w1 h w1 [] [posx] H two_ok E (l_same _ _ _) ltac:(discriminate) two_tracked) as (w2 & l & C).
  exists w1, h, w2, l. split; [reflexivity|]. split; [exact C|]. split; [|vm_compute; reflexivity].
  assert (P : is_ok (snd (mbind (ph_new two ["e"%string] [10; 3; 7]%Z) (fun h => ph_collect h [posx]) empty_world)) (fun l => q_eq l [[[1]; [100]]; [[3]; [30]]; [[2]]]) = true)
    by (vm_compute; reflexivity).
  unfold mbind in P. rewrite E, C in P. exact P.
Qed.

(** without ids every id occurring in some dump is followed, once; the order is that of a set *)
Theorem C39_all_ids (sizes : dump -> string -> nat) (enum : list Z -> list Z) (sr : list dump) (names : list string) (w : world) (s : list (list group)) :
  (forall l, Permutation l (enum l)) -> history sizes w s -> dumps_ok sizes names sr ->
  forall w1 ids, ph_findids enum sr names w = (w1, Ok ids) ->
    (exists s1, later sizes w s w1 s1) /\ NoDup ids /\ forall x, In x ids <-> exists d, In d sr /\ occurrences sizes names x d <> [].
Proof. exact (findids_ok sizes enum sr names w s). Qed.
Print Assumptions C39_all_ids.
Example C39_all_ids_example : snd (ph_findids (fun l => l) two ["e"%string] empty_world) = Ok [7; 3; 10; 5]%Z.
Proof. vm_compute. reflexivity. Qed.

(** skip(n) takes the ids at the positions 0, n+1, 2(n+1), ..., as long as the array of ids is
    in the order it had *)
Theorem C39_skip (sizes : dump -> string -> nat) (h : phistory) (n : nat) (w : world) (s : list (list group)) (sk : skipped) (w1 : world) (s1 : list (list group))
  (fs : list (expr Q)) (w2 : world) (l : list (list (list Q))) :
  history sizes w s -> dumps_ok sizes (h_speciess h) (h_sr h) -> ph_skip h n w = (w, Ok sk) ->
  history sizes w1 s1 -> nth (h_ids h) (w_ids w1) [] = nth (h_ids h) (w_ids w) [] -> sk_collect sk fs w1 = (w2, Ok l) ->
  exists ids, (forall i, nth_error ids i = nth_error (nth (h_ids h) (w_ids w) []) (i * S n)) /\ length l = length ids /\
  forall i x, nth_error ids i = Some x -> nth i l [] = if existsb (Z.eqb x) (skipn (S i) ids) then [] else trajectory sizes (h_speciess h) fs (h_sr h) x.
Proof. exact (skipped_trajectories sizes h n w s sk w1 s1 fs w2 l). Qed.
Print Assumptions C39_skip.
Example C39_skip_example : is_ok (outcome (do! h := ph_new two ["e"%string] [10; 3; 7]%Z in do! sk := ph_skip h 1 in sk_collect sk [posx])) (fun l => q_eq l [[[1]; [100]]; [[2]]]) = true.
Proof. vm_compute. reflexivity. Qed.

(** The full claim is false: *)
(** collect reorders the ids: afterwards `self.ids[i]` is not the id of the i-th trajectory,
    and an array the user passed has changed *)
Theorem C39_order_refuted : exists sr names ids fs, NoDup ids /\
  outcome (do! h := ph_new sr names ids in do! l := ph_collect h fs in do! after := get_ids (h_ids h) in mret (ids, after)) = Ok ([10; 3; 7]%Z, [3; 7; 10]%Z) /\ ids = [10; 3; 7]%Z.
Proof.
  exists two, ["e"%string], [10; 3; 7]%Z, [posx]. split; [|split; [vm_compute; reflexivity|reflexivity]].
  repeat constructor; cbn; intuition discriminate.
Qed.
Print Assumptions C39_order_refuted.
(** a repeated id gives an empty trajectory at its first position *)
Theorem C39_repeated_refuted : exists sr names ids fs,
  is_ok (outcome (do! h := ph_new sr names ids in ph_collect h fs)) (fun l => q_eq l [[]; [[1]; [100]]]) = true /\ ids = [10; 10]%Z.
Proof. exists two, ["e"%string], [10; 10]%Z, [posx]. split; [vm_compute; reflexivity|reflexivity]. Qed.
Print Assumptions C39_repeated_refuted.
(** no ids: an IndexError instead of an empty list *)
Theorem C39_empty_refuted : exists sr names fs, outcome (do! h := ph_new sr names [] in ph_collect h fs) = Err IndexError.
Proof. exists two, ["e"%string], [posx]. vm_compute. reflexivity. Qed.
Print Assumptions C39_empty_refuted.
(** a history made by skip shares the ids with its origin: collecting the origin first makes
    collecting the other fail *)
Theorem C39_skip_refuted : exists sr names ids n fs,
  is_ok (outcome (do! h := ph_new sr names ids in do! sk := ph_skip h n in sk_collect sk fs)) (fun _ => true) = true /\
  outcome (do! h := ph_new sr names ids in do! sk := ph_skip h n in do! l := ph_collect h fs in sk_collect sk fs) = Err KeyError.
Proof. exists two, ["e"%string], [10; 3; 7]%Z, 1%nat, [posx]. split; vm_compute; reflexivity. Qed.
Print Assumptions C39_skip_refuted.
