(** Property theorems about fields: C09-C11. *)
From Coq Require Import Lia Permutation.
From Verif Require Import PyBase PyBaseFacts NumpyModel NumpyFacts AxisModel AxisSpec AxisFacts
  NdModel NdFacts FieldModel FieldSpec FieldInvFacts FieldNodedFacts FieldRearrFacts FieldBuildFacts.

(** A concrete field: 3 x 2 samples; entry (i, j) is 10 i + j. *)
Definition demo_x : axis := mkAxis "x" "m" [0; 1; 3; 4] [1 # 2; 2; 7 # 2] (0, 4) 3.
Definition demo_y : axis := mkAxis "y" "m" [0; 1; 2] [1 # 2; 3 # 2] (0, 2) 2.
Definition demo_data : nda Q :=
  mkarr [3; 2]%Z (fun idx => inject_Z (10 * nth 0 idx 0 + nth 1 idx 0)%Z).
Definition demo_field : field Q :=
  mkField demo_data (mkLayer [demo_x; demo_y] [Some false; Some false] [None; None] "E" "V/m") [].
Definition entries (r : res (field Q)) : option (list Z * list Q) :=
  match r with
  | Ok f => Some (f_shape f, map (fun i => Qred (a_at (f_data f) i)) (all_idx (f_shape f)))
  | Err _ => None
  end.
Example demo_axes_ok : axis_up demo_x /\ axis_up demo_y.
Proof.
  split; (split; [split; [reflexivity|]|repeat split; reflexivity]); intros i Hi; cbn in Hi;
    destruct i as [|[|[|i]]]; try (exfalso; lia); split; reflexivity.
Qed.
Example demo_field_ok : well_formed demo_field /\ orderly demo_field /\ Forall axis_noded (f_axes demo_field).
Proof.
  destruct demo_axes_ok as [Hx Hy].
  assert (C : consistent demo_field).
  { split; [reflexivity|]. split; [|split; reflexivity].
    intros [|[|[|k]]] ax n Hax Hn; try discriminate; injection Hax as <-; injection Hn as <-; reflexivity. }
  split; [|split].
  - split; [exact C|]. split; [repeat constructor|]. unfold few_dims, max_dims. cbn. lia.
  - apply plain_orderly; [exact C| | |cbn; lia|reflexivity].
    + constructor; [left; exact Hx|]. constructor; [left; exact Hy|constructor].
    + repeat constructor.
  - repeat constructor.
Qed.

(** ** C09 *)
(** Fields made by the constructor: from axis objects, and from edges (or nothing). *)
Theorem C09_constructed_from_axes :
  forall V (a : nda V) name unit axes ats tao f,
    field_of a name unit (map Some axes) ats tao = Ok f ->
    Forall axis_counted axes -> length ats = length axes -> length tao = length axes ->
    well_formed f.
Proof. intros V a name unit axes ats tao f H Hc L1 L2. exact (proj1 (field_of_fits a name unit axes ats tao f H Hc L1 L2)). Qed.
Print Assumptions C09_constructed_from_axes.

Theorem C09_constructed_from_edges_partial :
  forall V spl (a : nda V) name unit xe ye ze f,
    field_new spl a name unit xe ye ze = Ok f -> nonempty (f_shape f) -> (length (f_shape f) <= 3)%nat ->
    well_formed f /\
    ((forall l, In (Some l) [xe; ye; ze] -> (2 <= length l)%nat) -> Forall axis_noded (f_axes f)).
Proof.
  intros V spl a name unit xe ye ze f H Hn H3.
  exact (let r := field_new_fits spl a name unit xe ye ze f H Hn H3 in conj (proj1 r) (proj2 (proj2 r))).
Qed.
Print Assumptions C09_constructed_from_edges_partial.

Theorem C09_history_partial :
  forall spl ops f g,
    well_formed f -> Forall operand_ok ops -> Forall no_padding ops ->
    run_ops spl f ops = Ok g -> well_formed g.
Proof.
  intros spl ops f g (Hc & Ha & Hf) Ho Hn H.
  exact (let r := run_ops_no_padding spl ops f g (conj Hc Ha) Hf Ho Hn H in
         conj (proj1 (proj1 r)) (conj (proj2 (proj1 r)) (proj2 r))).
Qed.
Print Assumptions C09_history_partial.

Theorem C09_calm_history_partial :
  forall spl ops f g,
    well_formed f -> Forall axis_noded (f_axes f) -> Forall operand_ok ops -> calm_history spl f ops ->
    run_ops spl f ops = Ok g -> well_formed g /\ Forall axis_noded (f_axes g).
Proof.
  intros spl ops f g (Hc & Ha & Hf) Hn Ho Hcalm H.
  exact (let r := run_ops_calm spl ops f g (conj Hc Ha) Hf Hn Ho Hcalm H in
         conj (conj (proj1 (proj1 r)) (conj (proj2 (proj1 r)) (proj1 (proj2 r)))) (proj2 (proj2 r))).
Qed.
Print Assumptions C09_calm_history_partial.

(** On a descending axis f[-2:] keeps two nodes for two grid points; padding it by one cell on both sides
    gives four samples but an axis of length three. *)
Theorem C09_pad_after_negative_slice_refuted :
  exists f ops g, well_formed f /\ Forall operand_ok ops /\
    run_ops chord_spline f ops = Ok g /\ ~ consistent g.
Proof.
  set (f := mkField (mkarr [3%Z] (fun _ => 1)) (mkLayer [mkAxis "x" "" [3; 2; 1; 0] [5 # 2; 3 # 2; 1 # 2] (3, 0) 3]
             [Some false] [None] "" "") [] : field Q).
  set (ops := [OGet [IKey (KSlice (Some (NInt (-2))) None None)]; OPad 0 (PadAll (NInt 1))]).
  destruct (ok_such (run_ops chord_spline f ops)
              (fun g => idx_eqb (f_shape g) [4%Z] && idx_eqb (map ax_len (f_axes g)) [3%Z])) as (g & Hg & P); [vm_compute; reflexivity|].
  exists f, ops, g. split; [|split; [repeat constructor|split; [exact Hg|]]].
  - split; [|split; [repeat constructor|]].
    + split; [reflexivity|]. split; [|split; reflexivity].
      intros [|[|k]] ax n Hax Hn; try discriminate; injection Hax as <-; injection Hn as <-; reflexivity.
    + unfold few_dims, max_dims. cbn. lia.
  - apply andb_true_iff in P as [P1 P2]. apply idx_eqb_eq in P1, P2. intros (_ & H & _).
    destruct (f_axes g) as [|ax [|]] eqn:Ea; try discriminate P2. injection P2 as P2.
    specialize (H 0%nat ax 4%Z). rewrite P1 in H. specialize (H eq_refl eq_refl). lia.
Qed.
Print Assumptions C09_pad_after_negative_slice_refuted.

(** A field of four dimensions made without axes has three of them. *)
Theorem C09_four_dims_refuted :
  exists f : field Q, field_new chord_spline (mkarr [2; 2; 2; 2]%Z (fun _ => 0)) "" "" None None None = Ok f /\
    length (f_shape f) = 4%nat /\ length (f_axes f) = 3%nat.
Proof.
  destruct (ok_such (field_new chord_spline (mkarr [2; 2; 2; 2]%Z (fun _ => 0)) "" "" None None None)
    (fun f => Nat.eqb (length (f_shape f)) 4 && Nat.eqb (length (f_axes f)) 3)) as (f & Hf & P); [vm_compute; reflexivity|].
  apply andb_true_iff in P as [P1 P2]. exists f. split; [exact Hf|]. split; now apply Nat.eqb_eq.
Qed.
Print Assumptions C09_four_dims_refuted.

Example C09_nonvacuous :
  let ops := [OGet [IKey (KSlice (Some (NInt 1)) None None); IKey (KSlice None None None)];
              OFlip 1; OTranspose None; OPad 0 (PadAll (NInt 1)); OReduce rsum (AxInt 0) false] in
  well_formed demo_field /\ Forall axis_noded (f_axes demo_field) /\ Forall operand_ok ops /\
  entries (run_ops chord_spline demo_field ops) = Some ([4%Z], [0; 21; 41; 0]) /\
  calm_history chord_spline demo_field [OFlip 1; OReduce rsum (AxInt 0) false; OPad 0 (PadAll (NInt 1))] /\
  entries (run_ops chord_spline demo_field [OFlip 1; OReduce rsum (AxInt 0) false; OPad 0 (PadAll (NInt 1))])
    = Some ([4%Z], [0; 33; 30; 0]).
Proof.
  cbv zeta. destruct demo_field_ok as (H1 & _ & H2). split; [exact H1|]. split; [exact H2|].
  split; [repeat constructor|]. split; [vm_compute; reflexivity|].
  split; [cbn [calm_history calm]; tauto|]. vm_compute. reflexivity.
Qed.

(** ** C10 *)
Theorem C10_transpose_positions_partial :
  forall V (f : field V) axes p,
    orderly f -> mapM (py_pos (length (f_shape f))) axes = Ok p -> rearranges (length (f_shape f)) p ->
    exists g, field_transpose f (Some axes) = Ok g /\ orderly g /\
      length (f_shape g) = length (f_shape f) /\ length (f_axes g) = length (f_shape f) /\
      (forall i, (i < length (f_shape f))%nat ->
         nth i (f_shape g) 0%Z = nth (nth i p 0%nat) (f_shape f) 0%Z /\
         nth_error (f_axes g) i = nth_error (f_axes f) (nth i p 0%nat)) /\
      (forall idx jdx, in_shape (f_shape f) idx = true -> length jdx = length idx ->
         (forall i, (i < length idx)%nat -> nth i jdx 0%Z = nth (nth i p 0%nat) idx 0%Z) ->
         in_shape (f_shape g) jdx = true /\ a_at (f_data g) jdx = a_at (f_data f) idx) /\
      f_ats g = f_ats f /\ f_tao g = f_tao f.
Proof. exact (@transpose_positions). Qed.
Print Assumptions C10_transpose_positions_partial.

Theorem C10_round_trip_partial :
  forall V (f : field V) axes axes' p p',
    orderly f -> mapM (py_pos (length (f_shape f))) axes = Ok p -> mapM (py_pos (length (f_shape f))) axes' = Ok p' ->
    rearranges (length (f_shape f)) p -> rearranges (length (f_shape f)) p' -> undoes (length (f_shape f)) p p' ->
    exists g h, field_transpose f (Some axes) = Ok g /\ field_transpose g (Some axes') = Ok h /\ field_same h f.
Proof. exact (@transpose_undone). Qed.
Print Assumptions C10_round_trip_partial.

(** transpose() without arguments reverses the dimensions *)
Theorem C10_default_reverses :
  forall V (f : field V), orderly f ->
    let n := length (f_shape f) in
    field_transpose f None = field_transpose f (Some (map Z.of_nat (rev (seq 0 n)))) /\
    mapM (py_pos n) (map Z.of_nat (rev (seq 0 n))) = Ok (rev (seq 0 n)) /\ rearranges n (rev (seq 0 n)).
Proof. exact (@transpose_default). Qed.
Print Assumptions C10_default_reverses.

Theorem C10_swapaxes_partial :
  forall V (f : field V) a b ka kb,
    orderly f -> py_pos (length (f_shape f)) a = Ok ka -> py_pos (length (f_shape f)) b = Ok kb ->
    exists g, field_swapaxes f a b = Ok g /\ orderly g /\
      f_shape g = put2 (f_shape f) ka (nth kb (f_shape f) 0%Z) kb (nth ka (f_shape f) 0%Z) /\
      f_axes g = put2 (f_axes f) ka (nth kb (f_axes f) axis0) kb (nth ka (f_axes f) axis0) /\
      (forall idx, length idx = length (f_shape f) ->
         a_at (f_data g) idx = a_at (f_data f) (put2 idx ka (nth kb idx 0%Z) kb (nth ka idx 0%Z))) /\
      (forall c v, length c = length (f_shape f) ->
         (sample g (put2 c ka (nth kb c 0) kb (nth ka c 0)) v <-> sample f c v)).
Proof. exact (@swapaxes_positions). Qed.
Print Assumptions C10_swapaxes_partial.

(** axes_transform_state and transformed_axes_origins stay behind: after transposing
    a field that is Fourier transformed along its first axis only, the first entry
    still says True. *)
Theorem C10_states_stay_behind_refuted :
  exists (f g : field Q), orderly f /\ field_transpose f (Some [1; 0]%Z) = Ok g /\
    nth 0 (f_ats f) None <> nth 1 (f_ats f) None /\ nth 0 (f_ats g) None <> nth 1 (f_ats f) None /\
    nth 0 (f_tao g) None <> nth 1 (f_tao f) None.
Proof.
  set (f := mkField demo_data (mkLayer [demo_x; demo_y] [Some true; Some false] [Some 1; None] "E" "V/m") []).
  assert (orderly f).
  { destruct demo_field_ok as (_ & (H1 & H2 & H3 & H4) & _). split; [exact H1|]. split; [exact H2|]. split; [exact H3|].
    inversion H4 as [|l ls (K1 & K2 & _) _]; subst. constructor; [|constructor]. split; [exact K1|]. split; [exact K2|]. split; reflexivity. }
  destruct (transpose_positions f [1; 0]%Z [1; 0]%nat H eq_refl) as (g & E & _ & _ & _ & _ & _ & S1 & S2).
  { apply perm_swap. }
  exists f, g. split; [exact H|]. split; [exact E|]. rewrite S1, S2. split; [discriminate|]. split; discriminate.
Qed.
Print Assumptions C10_states_stay_behind_refuted.

Example C10_nonvacuous :
  orderly demo_field /\ rearranges 2 [1; 0]%nat /\ undoes 2 [1; 0]%nat [1; 0]%nat /\
  entries (field_transpose demo_field (Some [1; 0]%Z)) = Some ([2; 3]%Z, [0; 10; 20; 1; 11; 21]) /\
  entries (field_transpose demo_field None) = entries (field_transpose demo_field (Some [-1; -2]%Z)) /\
  entries (field_swapaxes demo_field (-1) 0) = Some ([2; 3]%Z, [0; 10; 20; 1; 11; 21]).
Proof.
  split; [apply demo_field_ok|]. split; [apply perm_swap|]. split.
  { intros [|[|i]] Hi; [reflexivity..|lia]. }
  split; [vm_compute; reflexivity|]. split; vm_compute; reflexivity.
Qed.

(** ** C11 *)
Theorem C11_flip_keeps_samples_partial :
  forall V spl (f : field V) a k,
    orderly f -> py_pos (length (f_shape f)) a = Ok k ->
    exists g, field_flip spl f a = Ok g /\ orderly g /\ f_shape g = f_shape f /\
      Forall2 axis_same (f_axes g) (upd (f_axes f) k (axis_back (nth k (f_axes f) axis0))) /\
      (forall idx, length idx = length (f_shape f) ->
         a_at (f_data g) idx = a_at (f_data f) (upd idx k (nth k (f_shape f) 0 - 1 - nth k idx 0)%Z)) /\
      (forall c v, sample g c v <-> sample f c v).
Proof. exact (@flip_keeps). Qed.
Print Assumptions C11_flip_keeps_samples_partial.

Theorem C11_flip_twice_partial :
  forall V spl (f g : field V) a, orderly f -> field_flip spl f a = Ok g ->
    exists h, field_flip spl g a = Ok h /\ field_same h f.
Proof. exact (@flip_twice). Qed.
Print Assumptions C11_flip_twice_partial.

Theorem C11_transpose_keeps_samples_partial :
  forall V (f g : field V) axes p,
    orderly f -> mapM (py_pos (length (f_shape f))) axes = Ok p -> rearranges (length (f_shape f)) p ->
    field_transpose f (Some axes) = Ok g ->
    forall c v, length c = length (f_shape f) -> (sample g (map (fun k => nth k c 0) p) v <-> sample f c v).
Proof. exact (@transposed_samples). Qed.
Print Assumptions C11_transpose_keeps_samples_partial.

Theorem C11_swapaxes_twice_partial :
  forall V (f g : field V) a b, orderly f -> field_swapaxes f a b = Ok g ->
    exists h, field_swapaxes g a b = Ok h /\ field_same h f.
Proof. exact (@swapaxes_twice). Qed.
Print Assumptions C11_swapaxes_twice_partial.

Theorem C11_rot90_keeps_samples_partial :
  forall V spl (f : field V) k a0 a1 a b,
    orderly f -> py_pos (length (f_shape f)) a0 = Ok a -> py_pos (length (f_shape f)) a1 = Ok b -> a <> b ->
    exists g, field_rot90 spl f k a0 a1 = Ok g /\ orderly g /\ turned_samples (k mod 4) a b f g /\
    (let na := nth a (f_shape f) 0%Z in let nb := nth b (f_shape f) 0%Z in
     f_shape g = put2 (f_shape f) a (fst (turn_pair (k mod 4) na nb)) b (snd (turn_pair (k mod 4) na nb)) /\
     forall idx, length idx = length (f_shape f) ->
       let ij := turn_index (k mod 4) na nb (nth a idx 0%Z) (nth b idx 0%Z) in
       a_at (f_data g) idx = a_at (f_data f) (put2 idx a (fst ij) b (snd ij))) /\
    let xy := turn_axes (k mod 4) (nth a (f_axes f) axis0) (nth b (f_axes f) axis0) in
    Forall2 axis_same (f_axes g) (put2 (f_axes f) a (fst xy) b (snd xy)).
Proof. exact (@rot90_keeps). Qed.
Print Assumptions C11_rot90_keeps_samples_partial.

Theorem C11_rot90_mod_four :
  forall V spl (f : field V) k l a0 a1, (k mod 4 = l mod 4)%Z ->
    field_rot90 spl f k a0 a1 = field_rot90 spl f l a0 a1.
Proof. exact (@rot90_mod4). Qed.
Print Assumptions C11_rot90_mod_four.

Theorem C11_rot90_add_partial :
  forall V spl (f : field V) k l a0 a1 a b,
    orderly f -> py_pos (length (f_shape f)) a0 = Ok a -> py_pos (length (f_shape f)) a1 = Ok b -> a <> b ->
    exists g h h', field_rot90 spl f k a0 a1 = Ok g /\ field_rot90 spl g l a0 a1 = Ok h /\
      field_rot90 spl f (k + l) a0 a1 = Ok h' /\ field_same h h'.
Proof. exact (@rot90_add). Qed.
Print Assumptions C11_rot90_add_partial.

Theorem C11_rot90_repeated_partial :
  forall V spl (f : field V) n k a0 a1 a b,
    orderly f -> py_pos (length (f_shape f)) a0 = Ok a -> py_pos (length (f_shape f)) a1 = Ok b -> a <> b ->
    exists g h, turn_times spl n k a0 a1 f = Ok g /\ field_rot90 spl f (Z.of_nat n * k) a0 a1 = Ok h /\ field_same g h.
Proof. exact (@rot90_times). Qed.
Print Assumptions C11_rot90_repeated_partial.

Theorem C11_rot90_four_times_partial :
  forall V spl (f : field V) a0 a1 a b,
    orderly f -> py_pos (length (f_shape f)) a0 = Ok a -> py_pos (length (f_shape f)) a1 = Ok b -> a <> b ->
    exists g, turn_times spl 4 1 a0 a1 f = Ok g /\ field_same g f.
Proof. exact (@rot90_four). Qed.
Print Assumptions C11_rot90_four_times_partial.

(** The pair of axes (0, -2) of a two dimensional field names the same axis twice;
    rot90 accepts it and returns the field flipped along that axis. *)
Theorem C11_rot90_same_axis_accepted_refuted :
  entries (field_rot90 chord_spline demo_field 1 0 (-2)) = entries (field_flip chord_spline demo_field 0) /\
  entries (field_rot90 chord_spline demo_field 1 0 0) = None.
Proof. split; vm_compute; reflexivity. Qed.
Print Assumptions C11_rot90_same_axis_accepted_refuted.

Example C11_nonvacuous :
  orderly demo_field /\ py_pos 2 0 = Ok 0%nat /\ py_pos 2 (-1) = Ok 1%nat /\
  entries (field_flip chord_spline demo_field 0) = Some ([3; 2]%Z, [20; 21; 10; 11; 0; 1]) /\
  entries (field_rot90 chord_spline demo_field 1 0 (-1)) = Some ([2; 3]%Z, [1; 11; 21; 0; 10; 20]) /\
  entries (field_rot90 chord_spline demo_field (-1) 0 (-1)) = Some ([2; 3]%Z, [20; 10; 0; 21; 11; 1]) /\
  sample demo_field [2; 3 # 2] 11.
Proof.
  split; [apply demo_field_ok|]. split; [reflexivity|]. split; [reflexivity|].
  split; [vm_compute; reflexivity|]. split; [vm_compute; reflexivity|]. split; [vm_compute; reflexivity|].
  exists [1; 1]%Z. split; [reflexivity|]. split; reflexivity.
Qed.
