From Coq Require Import Lia.
From Verif Require Import PyBase PyBaseFacts NumpyModel NumpyFacts AxisModel AxisSpec AxisFacts
  NdModel NdFacts FieldModel FieldSpec FieldInvFacts FieldNodedFacts FieldRearrFacts FieldReduceFacts FieldOpFacts IntegFacts IntegLaws
  UfuncModel UfuncSpec UfuncFacts.

Lemma fold1_snoc {V} (u : ufunc V) l x : l <> [] -> fold1 u (l ++ [x]) = u_fun u 0%nat [fold1 u l; x].
Proof. destruct l as [|a l]; [congruence|]. intros _. cbn [app fold1]. now rewrite fold_left_app. Qed.
Lemma fold1_combined {V} (u : ufunc V) l : l <> [] -> combined (fun a b => u_fun u 0%nat [a; b]) l (fold1 u l).
Proof.
  induction l as [|x l IH] using rev_ind; [congruence|]. intros _. destruct l as [|a l]; [apply combined_one|].
  rewrite fold1_snoc by discriminate. apply (combined_more (fun a b => u_fun u 0%nat [a; b]) (a :: l) x (fold1 u (a :: l))), IH. discriminate.
Qed.
Lemma line_map {V} (a : nda V) k idx : (0 <= nth k idx 0)%Z ->
  line_up_to a k idx (map (fun i => a_at a (upd idx k i)) (zrange (nth k idx 0%Z + 1))).
Proof.
  intro H. unfold line_up_to, zrange. rewrite !map_length, seq_length. split; [reflexivity|]. intros i d Hi.
  rewrite map_map. rewrite (nth_indep _ d (a_at a (upd idx k (Z.of_nat 0)))) by (rewrite map_length, seq_length; exact Hi).
  rewrite (map_nth (fun x => a_at a (upd idx k (Z.of_nat x)))). now rewrite seq_nth.
Qed.
Lemma accumulate_law {V} (u : ufunc V) f ax k : u_nin u = 2%nat -> u_nout u = 1%nat -> consistent f -> (length (f_shape f) <= 3)%nat ->
  py_pos (length (f_shape f)) ax = Ok k ->
  exists h, call_ufunc u (MAccumulate ax) [AField f] [] = Ok (RFields [h]) /\
    f_shape h = f_shape f /\ f_axes h = f_axes f /\ f_ats h = f_ats f /\ f_tao h = f_tao f /\
    l_name (f_top h) = l_name (f_top f) /\ l_unit (f_top h) = l_unit (f_top f) /\
    forall idx, in_shape (f_shape f) idx = true ->
      exists l, line_up_to (f_data f) k idx l /\ combined (fun a b => u_fun u 0%nat [a; b]) l (a_at (f_data h) idx).
Proof.
  intros N M Hf L Hk. pose proof (proj1 (py_pos_ok _ _ _) Hk) as [Kb _].
  unfold call_ufunc. cbn [length num_inputs Nat.eqb negb app existsb disables orb first_field].
  unfold array_ufunc. cbn [app forallb handled andb result_props bind mapM unwrap np_method]. rewrite N, M. cbn [Nat.eqb andb].
  unfold np_accumulate. change (a_shape (f_data f)) with (f_shape f). destruct (Nat.eqb_spec (length (f_shape f)) 0) as [E|_]; [lia|].
  rewrite Hk. cbn [bind rmap props_of mapM].
  rewrite field_of_total; [|now apply consistent_map|destruct Hf as (-> & _); exact L].
  eexists. split; [reflexivity|]. do 6 (split; [reflexivity|]). intros idx Hi. cbn [f_data a_at].
  pose proof (in_shape_nth _ _ k 0%Z 0%Z Hi Kb) as B. eexists. split; [apply line_map; lia|]. apply fold1_combined.
  unfold zrange. intro C. apply (f_equal (@length _)) in C. rewrite !map_length, seq_length in C. cbn in C. lia.
Qed.
Lemma reduce_same {V} spl (u : ufunc V) f ax p : u_nin u = 2%nat -> u_nout u = 1%nat -> consistent f -> (length (f_shape f) <= 3)%nat ->
  plain_axes ax -> axisarg_positions (length (f_shape f)) ax = Ok p -> (ax = AxNone -> nonempty (f_shape f)) ->
  call_ufunc u (MReduce ax) [AField f] [] = rmap (fun h => RFields [h]) (field_reduce spl (fold1 u) f ax false).
Proof.
  intros N M Hf L Hp Hpos Hn. rewrite <- (ufunc_reduce_same spl (fold1 u) f ax p) by assumption.
  unfold call_ufunc. cbn [length num_inputs Nat.eqb negb app existsb disables orb first_field].
  unfold array_ufunc. cbn [app forallb handled andb result_props bind mapM unwrap np_method]. rewrite N, M. cbn [Nat.eqb andb].
  unfold props_reduce, field_ufunc_reduce. change (l_axes (f_top f)) with (f_axes f). change (l_ats (f_top f)) with (f_ats f). change (l_tao (f_top f)) with (f_tao f).
  destruct (del_all (f_axes f) _) as [axes|]; cbn [bind]; [|reflexivity]. destruct (del_all (f_ats f) _) as [ats|]; cbn [bind]; [|reflexivity].
  destruct (del_all (f_tao f) _) as [tao|]; cbn [bind]; [|reflexivity]. destruct (np_reduce _ _ _ _) as [o|]; cbn [bind rmap mapM]; [|reflexivity].
  destruct (field_of _ _ _ _ _ _); reflexivity.
Qed.
(** the reduction is what has been accumulated at the end *)
Lemma accumulate_end {V} (u : ufunc V) f ax k : u_nin u = 2%nat -> u_nout u = 1%nat -> consistent f -> (length (f_shape f) <= 3)%nat ->
  py_pos (length (f_shape f)) ax = Ok k ->
  exists h r, call_ufunc u (MAccumulate ax) [AField f] [] = Ok (RFields [h]) /\ call_ufunc u (MReduce (AxInt ax)) [AField f] [] = Ok (RFields [r]) /\
    f_shape r = entries_at 0%Z (f_shape f) (others (length (f_shape f)) [k]) /\ f_axes r = entries_at axis0 (f_axes f) (others (length (f_shape f)) [k]) /\
    forall idx, in_shape (f_shape f) idx = true -> nth k idx 0%Z = (nth k (f_shape f) 0 - 1)%Z ->
      a_at (f_data r) (entries_at 0%Z idx (others (length (f_shape f)) [k])) = a_at (f_data h) idx.
Proof.
  intros N M Hf L Hk. pose proof (proj1 (py_pos_ok _ _ _) Hk) as [Kb _].
  assert (P : axisarg_positions (length (f_shape f)) (AxInt ax) = Ok [k]) by (cbn [axisarg_positions mapM]; rewrite Hk; reflexivity).
  rewrite (reduce_same chord_spline u f (AxInt ax) [k] N M Hf L I P ltac:(discriminate)).
  pose proof (reduce_total chord_spline (fold1 u) f (AxInt ax) [k] Hf L I P ltac:(discriminate)) as T.
  destruct (reduce_drops chord_spline (fold1 u) f (AxInt ax) [k] Hf L I P ltac:(discriminate)) as (r & Er & Sr & Ar & _).
  destruct (field_reduce chord_spline (fold1 u) f (AxInt ax) false) as [r'|]; [|discriminate]. injection Er as ->. cbn [rmap].
  unfold call_ufunc. cbn [length num_inputs Nat.eqb negb app existsb disables orb first_field].
  unfold array_ufunc. cbn [app forallb handled andb result_props bind mapM unwrap np_method]. rewrite N, M. cbn [Nat.eqb andb].
  unfold np_accumulate. change (a_shape (f_data f)) with (f_shape f). destruct (Nat.eqb_spec (length (f_shape f)) 0) as [E|_]; [lia|].
  rewrite Hk. cbn [bind rmap props_of mapM].
  rewrite field_of_total; [|now apply consistent_map|destruct Hf as (-> & _); exact L].
  eexists _, r. split; [reflexivity|]. split; [reflexivity|]. split; [exact Sr|]. split; [exact Ar|].
  intros idx Hi Hl. injection T as ->. cbn [f_data nd_reduce a_at]. pose proof (in_shape_length _ _ Hi) as Li.
  change (a_shape (f_data f)) with (f_shape f). rewrite (reduced_one (f_shape f) k 0%Z Kb), all_idx_one, map_map. rewrite Hl.
  replace (nth k (f_shape f) 0 - 1 + 1)%Z with (nth k (f_shape f) 0%Z) by lia. f_equal. apply map_ext. intro i. f_equal.
  rewrite <- Li. rewrite <- kept_at. apply merge_kept. lia.
Qed.

(** * Refusals *)
Lemma refuses_other {V} (u : ufunc V) m inputs outs : existsb (fun o => negb (handled o)) (inputs ++ outs) = true ->
  call_ufunc u m inputs outs = Err TypeError.
Proof.
  intro H. unfold call_ufunc. destruct (negb _); [reflexivity|]. destruct (existsb disables _); [reflexivity|].
  destruct (first_field (inputs ++ outs)) as [self|]; [|reflexivity]. unfold array_ufunc.
  assert (F : forallb handled (inputs ++ outs) = false).
  { induction (inputs ++ outs) as [|o l IH]; [discriminate|]. cbn [existsb forallb] in *. destruct (handled o); cbn in *; auto. }
  rewrite F. destruct m; reflexivity.
Qed.
Lemma refuses_methods {V} (u : ufunc V) inputs outs : call_ufunc u MReduceat inputs outs = Err TypeError /\ call_ufunc u MInner inputs outs = Err TypeError.
Proof.
  unfold call_ufunc. split; (destruct (negb _); [reflexivity|]; destruct (existsb disables _); [reflexivity|]; destruct (first_field _); reflexivity).
Qed.
Lemma refuses_many {V} (u : ufunc V) inputs : (3 <= u_nin u)%nat -> call_ufunc u MCall inputs [] = Err TypeError.
Proof.
  intro H. unfold call_ufunc. cbn [num_inputs]. destruct (Nat.eqb_spec (length inputs) (u_nin u)) as [E|]; [|reflexivity]. cbn [negb].
  destruct (existsb disables _); [reflexivity|]. destruct (first_field _); [|reflexivity]. unfold array_ufunc.
  destruct (forallb handled _); [|reflexivity]. cbn [result_props]. destruct inputs as [|a [|b [|c l]]]; cbn [length] in E; try lia. reflexivity.
Qed.

Lemma array_misfit {V} (op : V -> V -> V) (f : field V) b h : consistent f -> f_inner f = [] -> (length (f_shape f) <= 3)%nat ->
  field_op_array op f b = Ok h -> repeats_to (a_shape b) (f_shape f).
Proof.
  intros Hf If L H. apply bshape_repeats. pose proof (op_array_rejects op f b h Hf If H) as B. pose proof (bshape_ok_fits _ _ _ B) as F.
  destruct (bshape_fits _ _ F) as (s & E & J). rewrite B in E. injection E as <-.
  destruct (bshape_fits _ _ (broadcastable_sym _ _ F)) as (s & E & J'). rewrite E. f_equal. apply from_end_ext. intro j.
  rewrite J', (joint_len_comm _ _ (broadcastable_sym _ _ F)). symmetry. apply J.
Qed.
Lemma refuses_misfit {V} (u : ufunc V) x y : u_nin u = 2%nat -> u_nout u = 1%nat -> sound x -> sound y -> is_field x \/ is_field y -> ~ fit x y ->
  forall r, binary_operator u x y <> Ok r.
Proof.
  intros N M Sx Sy Hf F r H. destruct x as [f|a|a|]; [| | |destruct Sx].
  - destruct Sx as (Cf & If & F3). destruct y as [g|b|b|]; [| | |destruct Sy]; cbn [binary_operator] in H.
    + destruct Sy as (Cg & Ig & G3). rewrite call_fields in H by assumption. rewrite op2_rejects in H by assumption. discriminate.
    + rewrite call_field_array in H by assumption. destruct (field_op_array _ f b) as [h|] eqn:E; [|discriminate].
      apply F. cbn [fit shape_of]. exact (array_misfit _ f b h Cf If F3 E).
    + apply F. cbn [fit shape_of]. split; [cbn; lia|]. intros j p q C. rewrite from_end_none in C by (cbn; lia). discriminate.
  - destruct y as [g|b|b|]; try (destruct Hf as [[? [=]]|[? [=]]]). destruct Sy as (Cg & Ig & G3). cbn [binary_operator] in H.
    rewrite call_array_field in H by assumption. destruct (array_op_field _ a g) as [h|] eqn:E; [|discriminate].
    apply F. cbn [fit shape_of].
    assert (E' : exists h', field_op_array (fun x y => u_fun u 0%nat [y; x]) g a = Ok h').
    { unfold array_op_field, field_op_array, wrap_op2 in *. cbn [op2_entries] in *. change (length (a_shape (f_data g))) with (length (f_shape g)) in *.
      destruct (let! e2 := layer_entries (f_top g) in combine_entries e2 (plain_entries (length (a_shape a)))) as [es|]; cbn [bind] in *; [|discriminate].
      rewrite Ig in *. cbn [length Nat.add data_op2] in *. unfold np_map2 in *. destruct (bshape (a_shape a) (a_shape (f_data g))) as [sh|] eqn:B; cbn [bind] in *; [|discriminate].
      pose proof (bshape_ok_fits _ _ _ B) as Fi. destruct (bshape_fits _ _ Fi) as (s & Es & J). rewrite B in Es. injection Es as <-.
      destruct (bshape_fits _ _ (broadcastable_sym _ _ Fi)) as (s & Es & J'). rewrite Es.
      assert (s = sh) as -> by (apply from_end_ext; intro j; rewrite J', (joint_len_comm _ _ (broadcastable_sym _ _ Fi)); symmetry; apply J).
      cbn [bind fst snd] in *. unfold field_of in *. cbn [a_shape] in *. destruct (_ <? _)%nat; [discriminate|]. destruct (init_axes _ _ _); [|discriminate]. cbn [bind]. eauto. }
    destruct E' as (h' & E'). exact (array_misfit _ g a h' Cg Ig G3 E').
  - destruct y as [g|b|b|]; try (destruct Hf as [[? [=]]|[? [=]]]). apply F. cbn [fit shape_of]. split; [cbn; lia|]. intros j p q C. rewrite from_end_none in C by (cbn; lia). discriminate.
Qed.

(** * Outer products *)
Lemma outer_number {V} (u : ufunc V) f x : u_nin u = 2%nat -> u_nout u = 1%nat -> consistent f -> (length (f_shape f) <= 3)%nat ->
  exists h, call_ufunc u MOuter [AField f; ANum x] [] = Ok (RFields [h]) /\ f_shape h = f_shape f /\ f_axes h = f_axes f /\
    forall idx, in_shape (f_shape f) idx = true -> a_at (f_data h) idx = u_fun u 0%nat [a_at (f_data f) idx; x].
Proof.
  intros N M Hf L. unfold call_ufunc. cbn [length num_inputs Nat.eqb negb app existsb disables orb first_field].
  unfold array_ufunc. cbn [app forallb handled andb result_props props_outer props_outer1 props_of bind mapM unwrap np_method]. rewrite N, M. cbn [Nat.eqb andb bind mapM].
  rewrite !app_nil_r. rewrite field_of_total; [|cbn [np_outer a_shape]; rewrite app_nil_r; now apply consistent_map|destruct Hf as (-> & _); exact L].
  eexists. split; [reflexivity|]. split; [apply app_nil_r|]. split; [reflexivity|]. intros idx Hi. cbn [f_data np_outer a_at].
  change (a_shape (f_data f)) with (f_shape f). rewrite <- (in_shape_length _ _ Hi), firstn_all. reflexivity.
Qed.
Lemma outer_array {V} (u : ufunc V) f a : u_nin u = 2%nat -> u_nout u = 1%nat -> a_shape a <> [] ->
  call_ufunc u MOuter [AField f; AArr a] [] = Err AttributeError /\ call_ufunc u MOuter [AArr a; AField f] [] = Err AttributeError.
Proof.
  intros N M H. unfold call_ufunc. cbn [length num_inputs Nat.eqb negb app existsb disables orb first_field].
  unfold array_ufunc. cbn [app forallb handled andb result_props props_outer props_outer1 props_of bind].
  destruct (Nat.eqb_spec (length (a_shape a)) 0) as [E|_]; [apply length_zero_iff_nil in E; contradiction|]. split; reflexivity.
Qed.

(** * Arrays wrapped by numpy *)
Lemma wrap_same {V} (f : field V) a : consistent f -> (length (f_shape f) <= 3)%nat -> a_shape a = f_shape f ->
  array_wrap f (AArr a) None = Ok (AField (mkField a (mkLayer (f_axes f) (f_ats f) (f_tao f) (l_name (f_top f)) (l_unit (f_top f))) [])).
Proof.
  intros Hf L E. unfold array_wrap. cbn [bind props_of]. rewrite map_length. destruct Hf as (La & Hf).
  rewrite E, La, Nat.eqb_refl. rewrite field_of_total; [reflexivity| |rewrite La; exact L]. rewrite E. apply consistent_map. exact (conj La Hf).
Qed.
Lemma wrap_other_dims {V} (f : field V) a : consistent f -> length (a_shape a) <> length (f_shape f) -> array_wrap f (AArr a) None = Ok (AArr a).
Proof.
  intros (La & _) N. unfold array_wrap. cbn [bind props_of]. rewrite map_length, La. now destruct (Nat.eqb_spec (length (a_shape a)) (length (f_shape f))).
Qed.
Lemma wrap_other_shape {V} (f : field V) a r : consistent f -> length (a_shape a) = length (f_shape f) -> a_shape a <> f_shape f -> array_wrap f (AArr a) None <> Ok r.
Proof.
  intros Hf E N H. pose proof (consistent_map f Hf) as M. unfold array_wrap in H. cbn [bind props_of] in H. rewrite map_length in H. destruct Hf as (La & _).
  rewrite E, La, Nat.eqb_refl in H. destruct (field_of _ _ _ _ _ _) as [g|] eqn:G; [|discriminate]. apply field_of_ok in G as (_ & _ & Ax & Ml & _).
  assert (Hinj : forall l m : list axis, map Some l = map Some m -> l = m).
  { induction l as [|x l IH]; intros [|y m] Q; try discriminate; [reflexivity|]. injection Q as -> Q. f_equal. now apply IH. }
  apply Hinj in Ax. rewrite <- Ax, M in Ml. congruence.
Qed.
