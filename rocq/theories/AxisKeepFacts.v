(** Lemmas on indexing with KeepDim, on slices of coordinates with a step, and on lengths of axes. *)
From Coq Require Import Lia Lqa.
From Verif Require Import PyBase PyBaseFacts NumpyModel NumpyFacts NdModel AxisModel AxisSpec AxisFacts FieldModel AxisKeepSpec.

Lemma sublist_one (l : list Q) k : (k < length l)%nat -> sublist k (S k) l = [nth k l 0].
Proof.
  unfold sublist. replace (S k - k)%nat with 1%nat by lia. revert l. induction k as [|k IH]; intros [|x l] H; cbn in *; try lia; [reflexivity|]. apply IH. lia.
Qed.
Lemma sublist_two (l : list Q) k : (S k < length l)%nat -> sublist k (S (S k)) l = [nth k l 0; nth (S k) l 0].
Proof.
  unfold sublist. replace (S (S k) - k)%nat with 2%nat by lia. revert l. induction k as [|k IH]; intros [|x l] H; cbn in *; try lia; [destruct l; cbn in *; [lia|reflexivity]|]. apply IH. lia.
Qed.
Lemma keep_index spl ax k : axis_proper ax -> (k < length (ax_grid ax))%nat ->
  exists r, axis_getitem spl ax (IKeep (KNum (NInt (Z.of_nat k)))) = Ok (inr r) /\ is_cell ax k r /\ axis_proper r.
Proof.
  intros Hp Hk. unfold axis_getitem, normalize_slice. cbn [bind rmap].
  destruct (axis_slice_fwd_full spl ax (Some (Z.of_nat k)) (Some (Z.of_nat k + 1)%Z) None Hp (or_introl eq_refl)) as (r & E & G & N & Nm & Un & P).
  - cbn. lia.
  - cbn. rewrite !adjust_bound_nonneg by lia. lia.
  - cbn. rewrite !adjust_bound_nonneg by lia. lia.
  - rewrite E. exists r. split; [reflexivity|]. split; [|exact P]. rewrite getslice_fwd in G by auto. injection G as G.
    cbn [lo_bound hi_bound] in G, N. rewrite !adjust_bound_nonneg in G, N by lia.
    rewrite (Z.min_l (Z.of_nat k)), (Z.min_l (Z.of_nat k + 1)) in G, N by lia. rewrite Nat2Z.id in G, N. replace (Z.to_nat (Z.of_nat k + 1)) with (S k) in G, N by lia.
    pose proof (proper_length ax Hp) as L. rewrite sublist_one in G by exact Hk. rewrite sublist_two in N by lia. repeat split; auto.
Qed.
Lemma keep_value spl ax v : axis_proper ax -> (0 < length (ax_grid ax))%nat -> inside_domain ax v = true ->
  exists k r, axis_getitem spl ax (IKey (KNum (NReal v))) = Ok (inl (nth k (ax_grid ax) 0)) /\ axis_getitem spl ax (IKeep (KNum (NReal v))) = Ok (inr r) /\ (k < length (ax_grid ax))%nat /\ is_cell ax k r /\ axis_proper r.
Proof.
  intros Hp Hn Hin. destruct (find_nearest_correct ax v Hp Hn) as (k & Hk & Hkn & _). destruct (keep_index spl ax k Hp Hkn) as (r & E & C & P). exists k, r.
  unfold axis_getitem, normalize_slice in *. rewrite Hin. cbn [negb]. rewrite Hk. cbn [bind] in *. rewrite getidx_nth by exact Hkn. auto.
Qed.
Lemma keep_outside spl ax v : inside_domain ax v = false -> axis_getitem spl ax (IKeep (KNum (NReal v))) = Err IndexError /\ axis_getitem spl ax (IKey (KNum (NReal v))) = Err IndexError.
Proof. intro H. unfold axis_getitem, normalize_slice. rewrite H. split; reflexivity. Qed.
Lemma keep_slice spl ax a b s : axis_getitem spl ax (IKeep (KSlice a b s)) = axis_getitem spl ax (IKey (KSlice a b s)).
Proof. reflexivity. Qed.
Lemma keep_last spl ax r : axis_getitem spl ax (IKeep (KNum (NInt (-1)))) <> Ok r.
Proof.
  intro H. unfold axis_getitem, normalize_slice in H. cbn [bind] in H. destruct (axis_slice spl ax _) as [r'|] eqn:E; [|discriminate H]. clear H. unfold axis_slice in E. cbn [s_step negb] in E.
  apply bind_ok in E as (g & _ & E). apply bind_ok in E as (gn & N & E). assert (Z0 : gn = []).
  { change (node_slice (mkslice (Some (-1)%Z) (Some (-1 + 1)%Z) None)) with (mkslice (Some (-1)%Z) (Some 0%Z) None) in N. rewrite getslice_fwd in N by auto. injection N as <-. apply sublist_empty. cbn [hi_bound]. rewrite adjust_bound_nonneg by lia. lia. }
  subst gn. exact (mk_axis_no_nodes _ _ _ _ _ _ _ E).
Qed.
Lemma coordinates_step spl ax a b s : opt_is_real a || opt_is_real b = true -> axis_getitem spl ax (IKey (KSlice a b (Some s))) = Err IndexError.
Proof. intro H. unfold axis_getitem, normalize_slice. now rewrite H. Qed.
Lemma keep_as_slice_norm ax ik : normalize_slice ax (keep_as_slice ik) = normalize_slice ax ik.
Proof. destruct ik as [k|k]; [reflexivity|]. destruct k as [x|]; [destruct x|]; reflexivity. Qed.
Lemma keep_field {V} spl (f : field V) keys : field_getitem spl f (map keep_as_slice keys) = field_getitem spl f keys.
Proof.
  unfold field_getitem, normalize_slices. rewrite map_length. destruct (negb _); [reflexivity|].
  assert (E : mapM (fun p => normalize_slice (fst p) (snd p)) (combine (f_axes f) (map keep_as_slice keys)) = mapM (fun p => normalize_slice (fst p) (snd p)) (combine (f_axes f) keys)); [|now rewrite E].
  generalize (f_axes f). induction keys as [|k keys IH]; intros [|ax axes]; try reflexivity. cbn [map combine mapM fst snd]. rewrite keep_as_slice_norm, IH. reflexivity.
Qed.
Lemma qabs_swap a b : qabs (a - b) == qabs (b - a).
Proof. unfold qabs. destruct (0 <=?q a - b) eqn:A, (0 <=?q b - a) eqn:B; try (apply Qle_bool_iff in A); try (apply Qle_bool_iff in B); try (apply Qleb_nle in A); try (apply Qleb_nle in B); lra. Qed.
Lemma reversed_length spl ax : axis_proper ax -> exists r, axis_reversed spl ax = Ok r /\ physical_length r == physical_length ax /\ 0 <= physical_length r.
Proof.
  intro P. destruct (axis_reversed_spec spl ax P) as (r & E & _ & _ & E1 & E2 & _). exists r. split; [exact E|]. unfold physical_length. split; [|apply qabs_nonneg].
  rewrite qabs_swap. apply qabs_compat. now rewrite E1, E2.
Qed.
(** * Equality *)
Lemma isclose_close a b : isclose a b = true <-> close a b.
Proof. unfold isclose, close. apply Qle_bool_iff. Qed.
Lemma equal_iff (a b : axis) : length (ax_node a) = length (ax_node b) -> length (ax_grid a) = length (ax_grid b) ->
  exists r, axis_eqb a b = Ok r /\ (r = true <-> close (fst (ax_extent a)) (fst (ax_extent b)) /\ close (snd (ax_extent a)) (snd (ax_extent b)) /\ all_close (ax_node a) (ax_node b) /\ all_close (ax_grid a) (ax_grid b)).
Proof.
  intros Ln Lg. assert (A : forall l m, length l = length m -> (np_all (map2 isclose l m) = true <-> all_close l m)).
  { intros l m L. rewrite (np_all_map2_iff _ _ _ L). unfold all_close. split; intros H i I; apply isclose_close; auto. }
  unfold axis_eqb. destruct (isclose (fst _) _ && isclose _ _) eqn:E; cbn [negb].
  - apply andb_true_iff in E as [E1 E2]. apply isclose_close in E1, E2. rewrite np_broadcast2_same by exact Ln. cbn [bind]. specialize (A _ _ Ln) as An. specialize (A _ _ Lg) as Ag.
    destruct (np_all (map2 isclose (ax_node a) (ax_node b))) eqn:N; cbn [negb].
    + rewrite np_broadcast2_same by exact Lg. cbn [bind]. eexists. split; [reflexivity|]. tauto.
    + exists false. split; [reflexivity|]. split; [discriminate|]. intros (_ & _ & H & _). apply An in H. discriminate.
  - exists false. split; [reflexivity|]. split; [discriminate|]. intros (H1 & H2 & _). apply isclose_close in H1, H2. rewrite H1, H2 in E. discriminate.
Qed.
