(** Property theorems about assigning to a part of a Field (C116). *)
From Coq Require Import QArith Lia.
From Verif Require Import PyBase NumpyModel AxisModel AxisSpec AxisInterpFacts NdModel FieldModel FieldSpec AssignModel AssignSpec AssignFacts PropField PropFieldOps PropFieldGrid.
Open Scope Q_scope.

(** f[keys] = v writes the numbers of v, repeated as numpy repeats them, to the elements which the keys
    denote, and changes no other element, no axis and no other attribute.  Also for flipped Fields. *)
Theorem C116_elements_partial : forall V (f g : field V) keys v, counted f -> field_setitem f keys v = Ok g ->
  exists sls t, normalize_slices (f_axes f) (f_shape f) keys = Ok sls /\ place_of (f_shape f) sls = Ok t /\
  f_top g = f_top f /\ f_inner g = f_inner f /\ f_shape g = f_shape f /\ can_fill (a_shape v) (a_shape t) /\
  (forall j i, in_shape (a_shape t) j = true -> filled_from (a_shape v) j i -> a_at (f_data g) (a_at t j) = a_at v i) /\
  (forall i, (forall j, in_shape (a_shape t) j = true -> a_at t j <> i) -> a_at (f_data g) i = a_at (f_data f) i).
Proof. exact @set_elements. Qed.
Print Assumptions C116_elements_partial.
(** It succeeds exactly for values of a shape that fits the part, and raises ValueError for others. *)
Theorem C116_accepted_partial : forall V (f : field V) keys v sls t, counted f -> normalize_slices (f_axes f) (f_shape f) keys = Ok sls -> place_of (f_shape f) sls = Ok t ->
  (can_fill (a_shape v) (a_shape t) -> exists g, field_setitem f keys v = Ok g) /\ (~ can_fill (a_shape v) (a_shape t) -> field_setitem f keys v = Err ValueError).
Proof. exact @set_total. Qed.
Print Assumptions C116_accepted_partial.
(** The part shows the value afterwards, on the same axes as before. *)
Theorem C116_read_back_partial : forall V spl (f g h : field V) keys v, counted f -> field_setitem f keys v = Ok g -> field_getitem spl f keys = Ok h ->
  exists h', field_getitem spl g keys = Ok h' /\ f_top h' = f_top h /\ f_inner h' = f_inner h /\ f_shape h' = f_shape h /\
  forall j i, in_shape (f_shape h) j = true -> filled_from (a_shape v) j i -> a_at (f_data h') j = a_at v i.
Proof. exact @set_get. Qed.
Print Assumptions C116_read_back_partial.
(** Assigning a part to itself changes nothing. *)
Theorem C116_same_partial : forall V spl (f h : field V) keys, counted f -> field_getitem spl f keys = Ok h ->
  exists g, field_setitem f keys (f_data h) = Ok g /\ f_top g = f_top f /\ f_inner g = f_inner f /\ f_shape g = f_shape f /\ forall i, a_at (f_data g) i = a_at (f_data f) i.
Proof. exact @set_same. Qed.
Print Assumptions C116_same_partial.
(** Of two assignments to the same part the second counts. *)
Theorem C116_last_partial : forall V (f g h k : field V) keys v w, counted f -> field_setitem f keys v = Ok g -> field_setitem g keys w = Ok h -> field_setitem f keys w = Ok k ->
  f_top h = f_top k /\ f_inner h = f_inner k /\ f_shape h = f_shape k /\ forall i, a_at (f_data h) i = a_at (f_data k) i.
Proof. exact @set_twice. Qed.
Print Assumptions C116_last_partial.
(** The hypotheses can be met, also by a flipped Field; a column is repeated along x, four numbers do
    not fit. *)
Definition middle : list ikey := [IKey (KSlice (Some (NReal 2)) (Some (NReal 6)) None); IKey (KSlice None None None)].
Definition column : nda Q := mkarr [1; 3]%Z (fun i => inject_Z (nth 1 i 0%Z)).
Example C116_elements_case : counted plate /\ entries (field_setitem plate middle column) = Some ([4; 3]%Z, [0; 10; 20; 0; 1; 2; 0; 1; 2; 9; 19; 29])
  /\ entries (field_getitem chord_spline plate middle) = Some ([2; 3]%Z, [1; 11; 21; 4; 14; 24])
  /\ field_setitem plate middle (mkarr [4]%Z (fun _ => 0)) = Err ValueError
  /\ entries (field_setitem plate [IKey (KNum (NInt (-1))); IKey (KSlice None None (Some (-1)%Z))] (mkarr [3]%Z (fun i => inject_Z (nth 0 i 0%Z)))) = Some ([4; 3]%Z, [0; 10; 20; 1; 11; 21; 4; 14; 24; 2; 1; 0])
  /\ exists fl, field_flip chord_spline plate 0 = Ok fl /\ counted fl /\ f_inner fl <> [] /\ entries (field_setitem fl [IKey (KNum (NReal 1)); IKey (KSlice None None None)] (scalar 7)) = Some ([4; 3]%Z, [9; 19; 29; 4; 14; 24; 1; 11; 21; 7; 7; 7]).
Proof.
  split; [repeat constructor|]. split; [vm_compute; reflexivity|]. split; [vm_compute; reflexivity|]. split; [vm_compute; reflexivity|]. split; [vm_compute; reflexivity|].
  destruct (field_flip chord_spline plate 0) as [fl|e] eqn:E; [|vm_compute in E; discriminate E]. exists fl. vm_compute in E. injection E as <-. split; [reflexivity|]. split; [repeat constructor|]. split; [discriminate|]. vm_compute. reflexivity.
Qed.

(** f[x0:x1, y0:y1, ..] = x with floats, each pair in the direction of its axis, writes x to the elements
    whose points lie between the pairs, where the first end belongs to the box and the second does not
    (x0 <= x < x1 on ascending axes, x0 >= x > x1 on descending ones); whatever is assigned there,
    nothing else changes. *)
Theorem C116_box_partial : forall V (f : field V) boxes, consistent f -> counted f -> nonempty (f_shape f) -> Forall2 box_on (f_axes f) boxes ->
  (forall x, exists g, field_setitem f (map box_key boxes) (scalar x) = Ok g /\ forall i, in_shape (f_shape f) i = true ->
     (in_box (f_axes f) boxes i -> a_at (f_data g) i = x) /\ (~ in_box (f_axes f) boxes i -> a_at (f_data g) i = a_at (f_data f) i)) /\
  (forall v g, field_setitem f (map box_key boxes) v = Ok g -> forall i, in_shape (f_shape f) i = true -> ~ in_box (f_axes f) boxes i -> a_at (f_data g) i = a_at (f_data f) i).
Proof. exact @set_box. Qed.
Print Assumptions C116_box_partial.
Example C116_box_case : consistent plate /\ counted plate /\ nonempty (f_shape plate) /\ Forall2 box_on (f_axes plate) [(2, 6); (1, 5 # 2)]
  /\ in_box (f_axes plate) [(2, 6); (1, 5 # 2)] [1; 0]%Z /\ ~ in_box (f_axes plate) [(2, 6); (1, 5 # 2)] [1; 1]%Z.
Proof.
  destruct plate_ok as ((C & _) & N). split; [exact C|]. split; [repeat constructor|]. split; [exact N|]. destruct plate_axes_ok as (X & Y).
  split; [constructor; [left; split; [exact X|]|constructor; [left; split; [exact Y|]|constructor]]; (split; [discriminate|left; split; discriminate])|].
  split; [cbn; unfold inside; cbn; repeat split; left; split; first [discriminate|reflexivity]|]. cbn. unfold inside. cbn. intros (_ & [(_ & H)|(H & _)] & _); discriminate H.
Qed.

Example C116_box_down : let ax := mkAxis "x" "" [4; 2; 0] [3; 1] (4, 0) 2%Z in axis_down ax /\ box_on ax (3, 1) /\ inside ax (3, 1) 0%Z /\ ~ inside ax (3, 1) 1%Z.
Proof.
  cbv zeta. assert (D : axis_down (mkAxis "x" "" [4; 2; 0] [3; 1] (4, 0) 2%Z)).
  { split; [|repeat split]. split; [reflexivity|]. cbn [length ax_grid ax_node]. intros [|[|i]] H; [split; reflexivity|split; reflexivity|lia]. }
  split; [exact D|]. split; [right; split; [exact D|]; split; [reflexivity|left; split; discriminate]|]. unfold inside. cbn. split; [right; split; [reflexivity|discriminate]|]. intros [(H & _)|(H & _)]; [now apply H|discriminate H].
Qed.

(** Every second element can be assigned to, but not be asked for. *)
Theorem C116_step_refuted : exists (f : field Q) keys g, consistent f /\ field_setitem f keys (scalar 7) = Ok g /\ a_at (f_data g) [2; 1]%Z = 7 /\ a_at (f_data g) [1; 1]%Z = a_at (f_data f) [1; 1]%Z /\ field_getitem chord_spline g keys = Err ValueError.
Proof.
  exists plate, [IKey (KSlice None None (Some 2%Z)); IKey (KSlice None None None)]. eexists. split; [apply plate_ok|]. split; [reflexivity|]. split; [vm_compute; reflexivity|]. split; vm_compute; reflexivity.
Qed.
Print Assumptions C116_step_refuted.
