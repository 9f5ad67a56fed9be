(** Property theorems about operations on fields: C12-C14. *)
From Coq Require Import Lia Permutation.
From Verif Require Import PyBase PyBaseFacts NumpyModel NumpyFacts AxisModel AxisSpec AxisFacts
  NdModel NdFacts FieldModel FieldSpec FieldInvFacts FieldNodedFacts FieldRearrFacts FieldBuildFacts
  FieldReduceFacts FieldOpFacts FieldIntFacts PropField.

(** A 2 x 2 x 2 field with different axes and a row of three samples. *)
Definition cube_axis (name : string) (e : Q) : axis := mkAxis name "m" [0; e; e + e] [e / 2; e + e / 2] (0, e + e) 2.
Definition cube : field Q :=
  mkField (mkarr [2; 2; 2]%Z (fun idx => inject_Z (100 * nth 0 idx 0 + 10 * nth 1 idx 0 + nth 2 idx 0)%Z))
          (mkLayer [cube_axis "x" 1; cube_axis "y" 2; cube_axis "z" 4] [Some false; Some false; Some false] [None; None; None] "E" "V/m") [].
Definition axis_names (r : res (field Q)) : list string :=
  match r with Ok f => map ax_name (f_axes f) | Err _ => [] end.
(** a column: 3 x 1 *)
Definition column : field Q :=
  mkField (mkarr [3; 1]%Z (fun idx => inject_Z (1000 * nth 0 idx 0)%Z))
          (mkLayer [demo_x; mkAxis "u" "m" [0; 7] [7 # 2] (0, 7) 1] [Some false; Some false] [None; None] "" "") [].
(** a row: 2 *)
Definition row : field Q :=
  mkField (mkarr [2]%Z (fun idx => inject_Z (1000 * (1 + nth 0 idx 0))%Z)) (mkLayer [demo_y] [Some false] [None] "" "") [].
Example cube_ok : consistent cube /\ (length (f_shape cube) <= 3)%nat.
Proof.
  split; [|cbn; lia]. split; [reflexivity|]. split; [|split; reflexivity].
  intros [|[|[|[|k]]]] ax n Hax Hn; try discriminate; injection Hax as <-; injection Hn as <-; reflexivity.
Qed.
Example column_ok : consistent column.
Proof.
  split; [reflexivity|]. split; [|split; reflexivity].
  intros [|[|[|k]]] ax n Hax Hn; try discriminate; injection Hax as <-; injection Hn as <-; reflexivity.
Qed.
Example row_ok : consistent row.
Proof.
  split; [reflexivity|]. split; [|split; reflexivity].
  intros [|[|k]] ax n Hax Hn; try discriminate; injection Hax as <-; injection Hn as <-; reflexivity.
Qed.

(** ** C12 *)
(** [plain_axes]: None, an int of either sign, or a tuple without negative entries
    (or of one entry).  [p] are the positions that numpy reduces. *)
Theorem C12_reduce_drops_partial :
  forall V spl (red : list V -> V) (f : field V) ax p,
    consistent f -> (length (f_shape f) <= 3)%nat -> plain_axes ax ->
    axisarg_positions (length (f_shape f)) ax = Ok p -> (ax = AxNone -> nonempty (f_shape f)) ->
    let keep := others (length (f_shape f)) p in
    exists g, field_reduce spl red f ax false = Ok g /\
      f_shape g = entries_at 0%Z (f_shape f) keep /\ f_axes g = entries_at axis0 (f_axes f) keep /\
      f_ats g = entries_at None (f_ats f) keep /\ f_tao g = entries_at None (f_tao f) keep /\
      l_name (f_top g) = l_name (f_top f) /\ l_unit (f_top g) = l_unit (f_top f) /\
      forall idx, in_shape (f_shape g) idx = true ->
        exists js, lists_fibre (f_shape f) p idx js /\ a_at (f_data g) idx = red (map (a_at (f_data f)) js).
Proof. exact (@reduce_drops). Qed.
Print Assumptions C12_reduce_drops_partial.

(** keepdims=True: for every axis argument numpy accepts. *)
Theorem C12_keepdims :
  forall V spl (red : list V -> V) (f : field V) ax p,
    consistent f -> (length (f_shape f) <= 3)%nat ->
    axisarg_positions (length (f_shape f)) ax = Ok p -> (ax = AxNone -> nonempty (f_shape f)) ->
    exists g, field_reduce spl red f ax true = Ok g /\
      length (f_shape g) = length (f_shape f) /\ length (f_axes g) = length (f_shape f) /\
      (forall k, (k < length (f_shape f))%nat -> ~ In k p ->
         nth k (f_shape g) 0%Z = nth k (f_shape f) 0%Z /\ nth_error (f_axes g) k = nth_error (f_axes f) k) /\
      (forall k, (k < length (f_shape f))%nat -> In k p ->
         nth k (f_shape g) 0%Z = 1%Z /\ one_cell (nth k (f_axes f) axis0) (nth k (f_axes g) axis0)) /\
      f_ats g = f_ats f /\ f_tao g = f_tao f /\
      l_name (f_top g) = l_name (f_top f) /\ l_unit (f_top g) = l_unit (f_top f) /\
      forall idx, in_shape (f_shape g) idx = true ->
        exists js, lists_fibre (f_shape f) p (entries_at 0%Z idx (others (length (f_shape f)) p)) js /\
                   a_at (f_data g) idx = red (map (a_at (f_data f)) js).
Proof. exact (@reduce_keepdims). Qed.
Print Assumptions C12_keepdims.

(** np.add.reduce(f, axis) and f.sum(axis) agree. *)
Theorem C12_ufunc_reduce_partial :
  forall V spl (red : list V -> V) (f : field V) ax p,
    consistent f -> (length (f_shape f) <= 3)%nat -> plain_axes ax ->
    axisarg_positions (length (f_shape f)) ax = Ok p -> (ax = AxNone -> nonempty (f_shape f)) ->
    field_ufunc_reduce red f ax = field_reduce spl red f ax false.
Proof. exact (@ufunc_reduce_same). Qed.
Print Assumptions C12_ufunc_reduce_partial.

(** sum(axis=(-1, -2)) sums over y and z, but the result carries the axis y;
    in two dimensions the same call raises. *)
Theorem C12_negative_tuple_refuted :
  axisarg_positions 3 (AxTuple [-1; -2]%Z) = Ok [2; 1]%nat /\
  entries (field_reduce chord_spline rsum cube (AxTuple [-1; -2]%Z) false)
    = entries (field_reduce chord_spline rsum cube (AxTuple [1; 2]%Z) false) /\
  axis_names (field_reduce chord_spline rsum cube (AxTuple [1; 2]%Z) false) = ["x"%string] /\
  axis_names (field_reduce chord_spline rsum cube (AxTuple [-1; -2]%Z) false) = ["y"%string] /\
  axisarg_positions 2 (AxTuple [-1; -2]%Z) = Ok [1; 0]%nat /\
  field_reduce chord_spline rsum demo_field (AxTuple [-1; -2]%Z) false = Err IndexError.
Proof. repeat (split; [vm_compute; reflexivity|]). vm_compute; reflexivity. Qed.
Print Assumptions C12_negative_tuple_refuted.

Example C12_nonvacuous :
  consistent cube /\ plain_axes (AxTuple [2; 0]%Z) /\ axisarg_positions 3 (AxTuple [2; 0]%Z) = Ok [2; 0]%nat /\
  others 3 [2; 0]%nat = [1%nat] /\
  entries (field_reduce chord_spline rsum cube (AxTuple [2; 0]%Z) false) = Some ([2]%Z, [202; 242]) /\
  axis_names (field_reduce chord_spline rsum cube (AxTuple [2; 0]%Z) false) = ["y"%string] /\
  plain_axes (AxInt (-1)) /\ axis_names (field_reduce chord_spline rsum cube (AxInt (-1)) false) = ["x"; "y"]%string /\
  entries (field_reduce chord_spline rsum cube (AxTuple [-1; -2]%Z) true) = Some ([2; 1; 1]%Z, [22; 422]) /\
  entries (field_reduce chord_spline rsum cube AxNone false) = Some ([]%Z, [444]).
Proof.
  split; [apply cube_ok|]. split; [left; repeat constructor; lia|]. repeat (split; [vm_compute; reflexivity|]).
  vm_compute; reflexivity.
Qed.

(** ** C13 *)
Theorem C13_broadcast_partial :
  forall A B C (op : A -> B -> C) (f : field A) (g : field B),
    consistent f -> consistent g -> f_inner f = [] -> f_inner g = [] ->
    (length (f_shape f) <= 3)%nat -> (length (f_shape g) <= 3)%nat -> broadcastable (f_shape f) (f_shape g) ->
    exists h, field_op2 op f g = Ok h /\
      (forall j, from_end (f_shape h) j = joint_len (from_end (f_shape f) j) (from_end (f_shape g) j)) /\
      (forall j, from_end (f_axes h) j = joint_axis (from_end (f_axes f) j) (from_end (f_axes g) j)) /\
      map ax_len (f_axes h) = f_shape h /\
      (forall idx, in_shape (f_shape h) idx = true ->
         exists i1 i2, operand_index (f_shape f) idx i1 /\ operand_index (f_shape g) idx i2 /\
           a_at (f_data h) idx = op (a_at (f_data f) i1) (a_at (f_data g) i2)) /\
      l_name (f_top h) = l_name (f_top f) /\ l_unit (f_top h) = l_unit (f_top f).
Proof. exact (@op2_broadcasts). Qed.
Print Assumptions C13_broadcast_partial.

Theorem C13_mismatch_rejected :
  forall A B C (op : A -> B -> C) (f : field A) (g : field B),
    consistent f -> consistent g -> ~ broadcastable (f_shape f) (f_shape g) -> field_op2 op f g = Err ValueError.
Proof. exact (@op2_rejects). Qed.
Print Assumptions C13_mismatch_rejected.

Theorem C13_equal_shapes_partial :
  forall A B C (op : A -> B -> C) (f : field A) (g : field B),
    consistent f -> consistent g -> f_inner f = [] -> f_inner g = [] ->
    (length (f_shape f) <= 3)%nat -> f_shape f = f_shape g ->
    exists h, field_op2 op f g = Ok h /\ f_shape h = f_shape f /\ f_axes h = f_axes f /\
      forall idx, in_shape (f_shape f) idx = true -> a_at (f_data h) idx = op (a_at (f_data f) idx) (a_at (f_data g) idx).
Proof. exact (@op2_equal_shapes). Qed.
Print Assumptions C13_equal_shapes_partial.

Theorem C13_swapped_partial :
  forall A B C D (op : A -> B -> C) (op' : B -> A -> D) (f : field A) (g : field B) h h',
    consistent f -> consistent g -> f_inner f = [] -> f_inner g = [] ->
    (length (f_shape f) <= 3)%nat -> (length (f_shape g) <= 3)%nat ->
    field_op2 op f g = Ok h -> field_op2 op' g f = Ok h' -> f_shape h = f_shape h'.
Proof. exact (@op2_swapped). Qed.
Print Assumptions C13_swapped_partial.

(** With a plain array: accepted exactly when the array broadcasts into the shape of
    the field; the axes of the field are kept. *)
Theorem C13_array_partial :
  forall A B C (op : A -> B -> C) (f : field A) (b : nda B),
    consistent f -> f_inner f = [] -> (length (f_shape f) <= 3)%nat ->
    ((exists h, field_op_array op f b = Ok h) <-> bshape (f_shape f) (a_shape b) = Ok (f_shape f)) /\
    (forall h, field_op_array op f b = Ok h ->
       f_shape h = f_shape f /\ f_axes h = f_axes f /\ f_ats h = f_ats f /\ f_tao h = f_tao f /\
       l_name (f_top h) = l_name (f_top f) /\ l_unit (f_top h) = l_unit (f_top f) /\
       np_map2 op (f_data f) b = Ok (f_data h)).
Proof. exact (@op_array_iff). Qed.
Print Assumptions C13_array_partial.

(** A flipped field keeps an array inside that is a Field again: adding a field of
    more dimensions raises, although the shapes match. *)
Theorem C13_flipped_refuted :
  exists fl, field_flip chord_spline row 0 = Ok fl /\ f_shape fl = f_shape row /\
    broadcastable (f_shape fl) (f_shape demo_field) /\
    (exists h, field_op2 Qplus row demo_field = Ok h) /\ field_op2 Qplus fl demo_field = Err TypeError.
Proof.
  destruct (ok_such (field_flip chord_spline row 0)
    (fun fl => match f_shape fl with [n] => (n =? 2)%Z | _ => false end &&
               match field_op2 Qplus fl demo_field with Err TypeError => true | _ => false end)%bool) as (fl & E & H);
    [vm_compute; reflexivity|].
  apply andb_prop in H as [S H]. exists fl. split; [exact E|]. destruct (f_shape fl) as [|n [|]] eqn:Es; try discriminate.
  apply Z.eqb_eq in S as ->. split; [reflexivity|]. split.
  { intros [|[|[|j]]] a b Ha Hb; cbn in *; try discriminate. injection Ha as <-. injection Hb as <-. auto. }
  split.
  - destruct (ok_such (field_op2 Qplus row demo_field) (fun _ => true)) as (h & Eh & _); [vm_compute; reflexivity|]. eauto.
  - destruct (field_op2 Qplus fl demo_field) as [|[]]; try discriminate. reflexivity.
Qed.
Print Assumptions C13_flipped_refuted.

Example C13_nonvacuous :
  consistent column /\ consistent row /\ broadcastable (f_shape column) (f_shape row) /\
  entries (field_op2 Qplus column row) = Some ([3; 2]%Z, [1000; 2000; 2000; 3000; 3000; 4000]) /\
  axis_names (field_op2 Qplus column row) = ["x"; "y"]%string /\
  entries (field_op2 Qplus row column) = entries (field_op2 Qplus column row) /\
  ~ broadcastable (f_shape demo_field) [3]%Z /\
  entries (field_op_array Qplus demo_field (mkarr [2]%Z (fun i => inject_Z (nth 0 i 0%Z)))) = Some ([3; 2]%Z, [0; 2; 10; 12; 20; 22]).
Proof.
  split; [exact column_ok|]. split; [exact row_ok|]. split.
  { intros [|[|[|j]]] a b Ha Hb; cbn in *; try discriminate. injection Ha as <-. injection Hb as <-. auto. }
  repeat (split; [vm_compute; reflexivity|]). split; [|vm_compute; reflexivity].
  intro H. specialize (H 0%nat 2%Z 3%Z eq_refl eq_refl). lia.
Qed.

(** ** C14 *)
Theorem C14_fast_partial :
  forall f axes p,
    consistent f -> Forall axis_noded (f_axes f) -> nonempty (f_shape f) -> requested (length (f_shape f)) axes p ->
    exists g, integrate_fast f axes = Ok g /\ remains f p g /\
      forall idx, in_shape (f_shape g) idx = true -> is_integral f p idx (a_at (f_data g) idx).
Proof. exact integrate_fast_total. Qed.
Print Assumptions C14_fast_partial.

Theorem C14_constant_partial :
  forall spl f axes p,
    consistent f -> Forall axis_noded (f_axes f) -> nonempty (f_shape f) -> (length (f_shape f) <= 3)%nat ->
    f_inner f = [] -> requested (length (f_shape f)) axes p ->
    exists g, integrate_constant spl f axes = Ok g /\ remains f p g /\
      forall idx, in_shape (f_shape g) idx = true -> is_integral f p idx (a_at (f_data g) idx).
Proof. exact integrate_constant_total. Qed.
Print Assumptions C14_constant_partial.

Theorem C14_methods_agree_partial :
  forall spl f axes p,
    consistent f -> Forall axis_noded (f_axes f) -> nonempty (f_shape f) -> (length (f_shape f) <= 3)%nat ->
    f_inner f = [] -> requested (length (f_shape f)) axes p ->
    exists g h, integrate_fast f axes = Ok g /\ integrate_constant spl f axes = Ok h /\ f_shape g = f_shape h /\ f_top g = f_top h /\
      forall idx, in_shape (f_shape g) idx = true -> a_at (f_data g) idx == a_at (f_data h) idx.
Proof. exact methods_agree. Qed.
Print Assumptions C14_methods_agree_partial.

(** First p, then q (counted in the remaining dimensions) is the same as all at once. *)
Theorem C14_one_after_another_partial :
  forall f a1 p a2 q a3 r,
    consistent f -> Forall axis_noded (f_axes f) -> nonempty (f_shape f) ->
    requested (length (f_shape f)) a1 p -> requested (length (others (length (f_shape f)) p)) a2 q ->
    requested (length (f_shape f)) a3 r ->
    Permutation r (p ++ map (fun k => nth k (others (length (f_shape f)) p) 0%nat) q) ->
    exists g h h', integrate_fast f a1 = Ok g /\ integrate_fast g a2 = Ok h /\ integrate_fast f a3 = Ok h' /\
      f_shape h = f_shape h' /\ f_top h = f_top h' /\
      forall idx, in_shape (f_shape h) idx = true -> a_at (f_data h) idx == a_at (f_data h') idx.
Proof. exact integrate_steps. Qed.
Print Assumptions C14_one_after_another_partial.

(** The integral (which both methods return, and which is unique) is linear in the data. *)
Theorem C14_linear :
  forall f g h p idx c v w,
    f_shape g = f_shape f -> f_shape h = f_shape f -> f_axes g = f_axes f -> f_axes h = f_axes f ->
    (forall j, in_shape (f_shape f) j = true -> a_at (f_data h) j == c * a_at (f_data f) j + a_at (f_data g) j) ->
    is_integral f p idx v -> is_integral g p idx w ->
    is_integral h p idx (c * v + w) /\ forall u, is_integral h p idx u -> u == c * v + w.
Proof.
  intros f g h p idx c v w Sg Sh Ag Ah H Hv Hw.
  exact (let r := is_integral_linear f g h p idx c v w Sg Sh Ag Ah H Hv Hw in conj r (fun u Hu => is_integral_unique h p idx u _ Hu r)).
Qed.
Print Assumptions C14_linear.

(** Negative numbers: both methods take the wrong axes. *)
Definition brick : field Q :=
  mkField (mkarr [2; 2; 3]%Z (fun idx => inject_Z (100 * nth 0 idx 0 + 10 * nth 1 idx 0 + nth 2 idx 0)%Z))
          (mkLayer [cube_axis "x" 1; cube_axis "y" 2; mkAxis "z" "m" [0; 1; 2; 3] [1 # 2; 3 # 2; 5 # 2] (0, 3) 3]
                   [Some false; Some false; Some false] [None; None; None] "E" "V/m") [].
Theorem C14_negative_axes_refuted :
  axis_names (integrate_fast brick [0; 2]%Z) = ["y"%string] /\
  axis_names (integrate_fast brick [0; -1]%Z) = ["x"%string] /\
  entries (integrate_fast brick [0; 2]%Z) <> entries (integrate_fast brick [0; -1]%Z) /\
  axis_names (integrate_constant chord_spline cube [1; 2]%Z) = ["x"%string] /\
  axis_names (integrate_constant chord_spline cube [-1; -2]%Z) = ["y"%string].
Proof.
  split; [vm_compute; reflexivity|]. split; [vm_compute; reflexivity|]. split; [vm_compute; discriminate|].
  split; vm_compute; reflexivity.
Qed.
Print Assumptions C14_negative_axes_refuted.

Example C14_nonvacuous :
  consistent demo_field /\ Forall axis_noded (f_axes demo_field) /\ requested 2 [0; 0]%Z [0%nat] /\
  entries (integrate_fast demo_field [0; 0]%Z) = Some ([2]%Z, [40; 44]) /\
  entries (integrate_constant chord_spline demo_field [0; 0]%Z) = Some ([2]%Z, [40; 44]) /\
  entries (integrate_fast demo_field [1; 0]%Z) = Some ([]%Z, [84]).
Proof.
  split; [apply demo_field_ok|]. split; [apply demo_field_ok|]. split.
  { split; [repeat constructor; intros []|]. split.
    - intro k. cbn. split; [intros [<-|[]]; auto|intros [H|[H|[]]]; left; lia].
    - intros a [<-|[<-|[]]]; lia. }
  repeat (split; [vm_compute; reflexivity|]). vm_compute; reflexivity.
Qed.
