(** Property theorems about indexing with KeepDim (C122) and equality of axes (C123), and more on slices of
    coordinates (C05) and reversed axes (C07). *)
From Coq Require Import Lia Lqa.
From Verif Require Import PyBase PyBaseFacts NumpyModel NdModel AxisModel AxisSpec FieldModel FieldSpec AxisKeepSpec AxisKeepFacts StateFacts IoDemo PropAxis.
Local Open Scope Q_scope.

(** ** C122 *)
(** Full statement: for every position which ax[i] accepts.  False for negative positions, see below. *)
Theorem C122_index_partial : forall spl ax k, axis_proper ax -> (k < length (ax_grid ax))%nat ->
  exists r, axis_getitem spl ax (IKeep (KNum (NInt (Z.of_nat k)))) = Ok (inr r) /\ is_cell ax k r /\ axis_proper r.
Proof. exact keep_index. Qed.
Print Assumptions C122_index_partial.
(** A coordinate selects the cell of the grid point which ax[v] returns. *)
Theorem C122_value : forall spl ax v, axis_proper ax -> (0 < length (ax_grid ax))%nat -> inside_domain ax v = true ->
  exists k r, axis_getitem spl ax (IKey (KNum (NReal v))) = Ok (inl (nth k (ax_grid ax) 0)) /\ axis_getitem spl ax (IKeep (KNum (NReal v))) = Ok (inr r) /\ (k < length (ax_grid ax))%nat /\ is_cell ax k r /\ axis_proper r.
Proof. exact keep_value. Qed.
Print Assumptions C122_value.
Theorem C122_outside : forall spl ax v, inside_domain ax v = false -> axis_getitem spl ax (IKeep (KNum (NReal v))) = Err IndexError /\ axis_getitem spl ax (IKey (KNum (NReal v))) = Err IndexError.
Proof. exact keep_outside. Qed.
Print Assumptions C122_outside.
Theorem C122_slice : forall spl ax a b s, axis_getitem spl ax (IKeep (KSlice a b s)) = axis_getitem spl ax (IKey (KSlice a b s)).
Proof. exact keep_slice. Qed.
Print Assumptions C122_slice.
(** On fields KeepDim(i) is the slice i:i+1. *)
Theorem C122_field : forall spl (f : field Q) keys, field_getitem spl f (map keep_as_slice keys) = field_getitem spl f keys.
Proof. exact (@keep_field Q). Qed.
Print Assumptions C122_field.
(** KeepDim(-1) fails for every axis, although ax[-1] is the last point; KeepDim(-2) gives an axis with one
    node, of no length. *)
Theorem C122_last_refuted : forall spl ax r, axis_getitem spl ax (IKeep (KNum (NInt (-1)))) <> Ok r.
Proof. exact keep_last. Qed.
Print Assumptions C122_last_refuted.
Theorem C122_negative_refuted : exists ax r, axis_up ax /\ axis_getitem chord_spline ax (IKey (KNum (NInt (-1)))) = Ok (inl (7 # 2)) /\
  axis_getitem chord_spline ax (IKeep (KNum (NInt (-2)))) = Ok (inr r) /\ length (ax_node r) = 1%nat /\ physical_length r == 0.
Proof.
  exists demo_up. eexists. split; [exact demo_up_ok|]. split; [vm_compute; reflexivity|]. split; [vm_compute; reflexivity|]. split; reflexivity.
Qed.
Print Assumptions C122_negative_refuted.
Example C122_case : axis_proper demo_down /\ inside_domain demo_down (9 # 4) = true /\ inside_domain demo_up 5 = false /\
  axis_getitem chord_spline demo_down (IKeep (KNum (NReal (9 # 4)))) = axis_getitem chord_spline demo_down (IKeep (KNum (NInt 1))) /\
  match field_getitem chord_spline (demo_field [up3 "x"; up3 "y"]) [IKeep (KNum (NInt 1)); key_of_slice full_slice] with
  | Ok g => f_shape g = [1; 3]%Z /\ map ax_len (f_axes g) = [1; 3]%Z | Err _ => False end.
Proof. split; [right; exact demo_down_ok|]. vm_compute. repeat split. Qed.

(** ** C123 *)
(** Axes with the same numbers of points are equal exactly if extents, nodes and points are, up to the
    tolerance of numpy.isclose; names and units do not matter. *)
Theorem C123_equal_partial : forall a b, length (ax_node a) = length (ax_node b) -> length (ax_grid a) = length (ax_grid b) ->
  exists r, axis_eqb a b = Ok r /\ (r = true <-> close (fst (ax_extent a)) (fst (ax_extent b)) /\ close (snd (ax_extent a)) (snd (ax_extent b)) /\ all_close (ax_node a) (ax_node b) /\ all_close (ax_grid a) (ax_grid b)).
Proof. exact equal_iff. Qed.
Print Assumptions C123_equal_partial.
Example C123_equal_case : axis_eqb demo_up demo_up = Ok true /\ axis_eqb demo_up demo_down = Ok false /\
  axis_eqb demo_up (mkAxis "k" "1/m" [0; 1; 2; 4] [1 # 2; 2; 7 # 2] (0, 4) 3) = Ok false /\ axis_eqb demo_up (mkAxis "k" "1/m" [0; 1; 3; 4] [1 # 2; 2; 3] (0, 4) 3) = Ok false /\
  axis_eqb demo_up (mkAxis "k" "1/m" [0; 1; 3; 4] [1 # 2; 2; 7 # 2] (0, 4) 3) = Ok true.
Proof. vm_compute. repeat split. Qed.
(** Full statement: for every two axes.  False: with the same extent and different numbers of points the
    comparison raises ValueError ... *)
Theorem C123_lengths_refuted : exists a b, axis_up a /\ axis_up b /\ axis_eqb a b = Err ValueError.
Proof.
  exists demo_up, (mkAxis "x" "m" [0; 4] [2] (0, 4) 1). split; [exact demo_up_ok|]. split; [|vm_compute; reflexivity].
  split; [split; [reflexivity|]|repeat split; reflexivity]. intros i Hi. simpl in Hi. destruct i as [|i]; [split; reflexivity|lia].
Qed.
Print Assumptions C123_lengths_refuted.
Definition one_to (b : Q) : axis := mkAxis "x" "m" [0; b] [1 # 2] (0, b) 1.
Lemma one_to_up b : 1 # 2 < b -> axis_up (one_to b).
Proof. intro H. split; [split; [reflexivity|]|repeat split; reflexivity]. intros i Hi. simpl in Hi. destruct i as [|i]; [|lia]. split; cbn; [lra|exact H]. Qed.
(** ... and it is neither symmetric nor transitive. *)
Theorem C123_symmetric_refuted : exists a b, axis_up a /\ axis_up b /\ axis_eqb a b = Ok true /\ axis_eqb b a = Ok false.
Proof.
  exists (one_to 1), (one_to (1 + (1001005 # 100000000000))). split; [apply one_to_up; lra|]. split; [apply one_to_up; lra|]. split; vm_compute; reflexivity.
Qed.
Print Assumptions C123_symmetric_refuted.
Theorem C123_transitive_refuted : exists a b c, axis_up a /\ axis_up b /\ axis_up c /\ axis_eqb a b = Ok true /\ axis_eqb b c = Ok true /\ axis_eqb a c = Ok false.
Proof.
  exists (one_to 1), (one_to (1 + (9 # 1000000))), (one_to (1 + (18 # 1000000))). split; [apply one_to_up; lra|]. split; [apply one_to_up; lra|]. split; [apply one_to_up; lra|]. split; [|split]; vm_compute; reflexivity.
Qed.
Print Assumptions C123_transitive_refuted.

(** ** C05 *)
(** Slices of coordinates have no step. *)
Theorem C05_no_step : forall spl ax a b s, opt_is_real a || opt_is_real b = true -> axis_getitem spl ax (IKey (KSlice a b (Some s))) = Err IndexError.
Proof. exact coordinates_step. Qed.
Print Assumptions C05_no_step.
Example C05_no_step_case : opt_is_real (Some (NReal (1 # 2))) || opt_is_real None = true /\ axis_getitem chord_spline demo_up (IKey (KSlice (Some (NReal (1 # 2))) None (Some 1%Z))) = Err IndexError.
Proof. split; reflexivity. Qed.
(** ** C07 *)
(** The physical length stays the same, and is not negative. *)
Theorem C07_length_partial : forall spl ax, axis_proper ax -> exists r, axis_reversed spl ax = Ok r /\ physical_length r == physical_length ax /\ 0 <= physical_length r.
Proof. exact reversed_length. Qed.
Print Assumptions C07_length_partial.
Example C07_length_case : axis_proper demo_down /\ physical_length demo_down == 4.
Proof. split; [right; exact demo_down_ok|reflexivity]. Qed.
(** ** C19 *)
(** The dimensions which atleast_nd appends are in the domain of the others, if these are all in the same. *)
Theorem C19_domain : forall spl (f : field Q) n, consistent f -> nonempty (f_shape f) -> Forall axis_proper (f_axes f) -> f_inner f = [] ->
  (Z.of_nat (length (f_shape f)) < n <= Z.of_nat max_dims)%Z ->
  exists g st, field_atleast_nd spl f n = Ok g /\ f_ats g = (f_ats f ++ repeat st (Z.to_nat n - length (f_shape f)))%list /\ common_state (f_ats f) st.
Proof. exact (@atleast_states Q). Qed.
Print Assumptions C19_domain.
Example C19_domain_case : common_state [Some true; Some true] (Some true) /\ common_state [Some false] (Some false) /\ common_state [Some true; Some false] None /\
  match field_atleast_nd chord_spline (demo_field [up3 "x"; up3 "y"]) 4 with Ok g => f_ats g = [Some false; Some false; Some false; Some false] | Err _ => False end.
Proof.
  split; [|split; [|split]]; [..|vm_compute; reflexivity]; (split; [|discriminate]); intros _ b; split; intro H.
  - injection H as <-. repeat constructor.
  - inversion H; congruence.
  - injection H as <-. repeat constructor.
  - inversion H; congruence.
  - discriminate H.
  - inversion H as [|? ? H1 H2]. inversion H2; congruence.
Qed.
