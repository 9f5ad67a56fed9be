(** Property theorems about Axis objects, their caches and copies (C115). *)
From Coq Require Import QArith.
From Verif Require Import PyBase NumpyModel NdModel AxisModel AxisObjModel AxisObjSpec AxisObjFacts AxisObjDemo.
Open Scope string_scope.
Open Scope Q_scope.

(** After every program, an object which was made by the constructor or by copy.copy answers what the
    formulas give for the axis as it was constructed, whatever was asked, copied, renamed or written
    in between; so do the objects made by copy.deepcopy or pickle, if nobody wrote to any array. *)
Theorem C115_answers_partial : forall spl h k m, nth_error (made spl h) k = Some m -> k_sealed m = true \/ no_writes h ->
  (forall force, snd (step spl (run spl h) (Islinear k force)) = rmap Bool (islinear (k_axis m))) /\
  snd (step spl (run spl h) (Spacing k)) = rmap Num (spacing (k_axis m)) /\
  (forall v, snd (step spl (run spl h) (Index k v)) = rmap Num (value_to_index (k_axis m) v)).
Proof. exact answers. Qed.
Print Assumptions C115_answers_partial.
(** It also has the points, the extent and the length it was made with; its name and unit are those
    last given to this object and to no other. *)
Theorem C115_points_partial : forall spl h k m, nth_error (made spl h) k = Some m ->
  exists b, nth_error (w_objs (run spl h)) k = Some b /\ ax_name (shows (run spl h) b) = k_name m /\ ax_unit (shows (run spl h) b) = k_unit m /\
  (k_sealed m = true \/ no_writes h -> same_points (shows (run spl h) b) (k_axis m)).
Proof. exact points_kept. Qed.
Print Assumptions C115_points_partial.
(** There are no other objects. *)
Theorem C115_objects : forall spl h k, (exists b, nth_error (w_objs (run spl h)) k = Some b) <-> exists m, nth_error (made spl h) k = Some m.
Proof. exact object_made. Qed.
Print Assumptions C115_objects.
Example C115_answers_case : exists m1 m2, nth_error (made no_spline program) 1 = Some m1 /\ k_sealed m1 = true /\ k_name m1 = "k" /\ ax_name (k_axis m1) = "x" /\ ~ no_writes program
  /\ (exists q, value_to_index (k_axis m1) 5 = Ok q /\ q == 9 # 4)
  /\ nth_error (made no_spline [uneven; Islinear 0 false; Deep 0]) 1 = Some m2 /\ k_sealed m2 = false /\ no_writes [uneven; Islinear 0 false; Deep 0] /\ islinear (k_axis m2) = Ok false /\ spacing (k_axis m2) = Err TypeError.
Proof.
  eexists. eexists. split; [vm_compute; reflexivity|]. split; [reflexivity|]. split; [reflexivity|]. split; [reflexivity|].
  split; [intro N; specialize (N (WriteGrid 1 0 (3 # 4))); discriminate N; vm_compute; tauto|].
  split; [eexists; split; [vm_compute; reflexivity|vm_compute; reflexivity]|].
  split; [vm_compute; reflexivity|]. split; [reflexivity|]. split; [|split; vm_compute; reflexivity].
  intros o [<-|[<-|[<-|[]]]]; reflexivity.
Qed.

(** Nobody writes to the points of such an object: the attempt raises ValueError and changes
    nothing. *)
Theorem C115_writes_refused_partial : forall spl h k m i v, nth_error (made spl h) k = Some m -> k_sealed m = true ->
  step spl (run spl h) (WriteGrid k i v) = (run spl h, Err ValueError) /\ step spl (run spl h) (WriteNode k i v) = (run spl h, Err ValueError).
Proof. exact writes_refused. Qed.
Print Assumptions C115_writes_refused_partial.
Example C115_writes_refused_case : exists m, nth_error (made no_spline program) 0 = Some m /\ k_sealed m = true /\ length (w_objs (run no_spline program)) = 4%nat.
Proof. eexists. split; [vm_compute; reflexivity|]. split; reflexivity. Qed.

(** After deepcopy or pickle the points can be written to, and the copy then answers for the points
    it was copied with: islinear() says True for nodes 0, 3/2, 2, 3, and islinear(force=True) says
    False. *)
Theorem C115_pickle_refuted : exists spl h k m b, nth_error (made spl h) k = Some m /\ nth_error (w_objs (run spl h)) k = Some b
  /\ k_sealed m = false /\ ax_node (shows (run spl h) b) <> ax_node (k_axis m)
  /\ snd (step spl (run spl h) (Islinear k false)) = Ok (Bool true) /\ islinear (shows (run spl h) b) = Ok false
  /\ snd (step spl (run spl h) (Islinear k true)) = Ok (Bool false).
Proof.
  exists no_spline, pickled, 1%nat. eexists. eexists. split; [vm_compute; reflexivity|]. split; [vm_compute; reflexivity|].
  split; [reflexivity|]. split; [intro C; vm_compute in C; discriminate C|]. split; [vm_compute; reflexivity|]. split; [vm_compute; reflexivity|].
  vm_compute. reflexivity.
Qed.
Print Assumptions C115_pickle_refuted.
