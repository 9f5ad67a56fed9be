(** Transposition, flipping and rotation (C10, C11). *)
From Coq Require Import Lia Lqa.
From Verif Require Import PyBase PyBaseFacts NumpyModel NumpyFacts AxisModel AxisSpec AxisFacts
  NdModel NdFacts FieldModel FieldSpec FieldInvFacts FieldNodedFacts.

(** * Loose axes *)
Lemma proper_loose ax : axis_proper ax -> axis_loose ax.
Proof.
  intro H. split; [now apply proper_length|]. split.
  - now destruct (proper_describes ax H) as (_ & _ & H').
  - destruct (proper_cells ax H); auto.
Qed.
Lemma loose_monotone gn g :
  cells_up gn g \/ cells_down gn g \/ cells_up gn (rev g) \/ cells_down gn (rev g) ->
  (sincr gn \/ sdecr gn) /\ (sincr g \/ sdecr g).
Proof.
  intros [H|[H|[H|H]]].
  - pose proof (cells_up_sincr_node _ _ H). pose proof (cells_up_sincr_grid _ _ H). auto.
  - pose proof (cells_down_sdecr_node _ _ H). pose proof (cells_down_sdecr_grid _ _ H). auto.
  - pose proof (cells_up_sincr_node _ _ H). pose proof (cells_up_sincr_grid _ _ H) as H'.
    apply sincr_rev in H'. rewrite rev_involutive in H'. auto.
  - pose proof (cells_down_sdecr_node _ _ H). pose proof (cells_down_sdecr_grid _ _ H) as H'.
    apply sdecr_rev in H'. rewrite rev_involutive in H'. auto.
Qed.
Lemma loose_compatible gn g : length gn = S (length g) ->
  cells_up gn g \/ cells_down gn g \/ cells_up gn (rev g) \/ cells_down gn (rev g) ->
  check_compatible g gn = Ok tt.
Proof.
  intros L [H|[H|[H|H]]].
  - apply check_compatible_ok_above; [exact L|]. intros i Hi. now apply H.
  - destruct g as [|x g]; [apply check_compatible_ok_above; [exact L|cbn; lia]|].
    apply check_compatible_ok_below; [exact L|]. exists 0%nat. split; [cbn; lia|].
    apply Qlt_le_weak. apply H. cbn; lia.
  - pose proof (cells_up_sincr_node _ _ H) as Hs. destruct H as [_ H]. rewrite rev_length in H.
    destruct g as [|x [|y g]].
    + apply check_compatible_ok_above; [exact L|cbn; lia].
    + apply check_compatible_ok_above; [exact L|]. intros i Hi. cbn [length] in Hi. specialize (H i Hi).
      cbn [rev app] in H. apply H.
    + apply check_compatible_ok_below; [exact L|]. exists 0%nat. split; [cbn; lia|].
      destruct (H (S (length g))) as [H1 _]; [cbn; lia|]. rewrite rev_nth in H1 by (cbn; lia).
      replace (length (x :: y :: g) - S (S (length g)))%nat with 0%nat in H1 by (cbn; lia).
      destruct (length g) as [|m] eqn:E; [lra|].
      assert (nth 1 gn 0 < nth (S (S m)) gn 0); [|lra]. apply Hs; cbn [length] in L; lia.
  - pose proof (cells_down_sdecr_node _ _ H) as Hs. destruct H as [_ H]. rewrite rev_length in H.
    destruct g as [|x g].
    + apply check_compatible_ok_above; [exact L|cbn; lia].
    + apply check_compatible_ok_below; [exact L|]. exists (length g). split; [cbn; lia|].
      destruct (H 0%nat) as [H1 _]; [cbn; lia|]. rewrite rev_nth in H1 by (cbn; lia).
      replace (length (x :: g) - 1)%nat with (length g) in H1 by (cbn; lia).
      destruct (length g) as [|m] eqn:E; [lra|].
      assert (nth (S (S m)) gn 0 < nth 1 gn 0); [|lra]. apply Hs; cbn [length] in L; lia.
Qed.
Lemma mk_axis_loose spl nm un gn g : length gn = S (length g) ->
  cells_up gn g \/ cells_down gn g \/ cells_up gn (rev g) \/ cells_down gn (rev g) ->
  mk_axis spl nm un (Some gn) (Some g) None None = Ok (made nm un gn g).
Proof.
  intros L H. pose proof (loose_compatible _ _ L H) as Hc. apply loose_monotone in H as [H1 H2].
  assert (M : forall l, sincr l \/ sdecr l -> negb (monotonicity l =? 0)%Z = true)
    by (intros l [H|H]; [now apply sincr_monotone|now apply sdecr_monotone]).
  apply mk_axis_explicit; auto.
Qed.
Lemma made_loose nm un gn g : length gn = S (length g) ->
  cells_up gn g \/ cells_down gn g \/ cells_up gn (rev g) \/ cells_down gn (rev g) ->
  axis_loose (made nm un gn g).
Proof. intros L H. split; [exact L|]. split; [reflexivity|]. exact H. Qed.
Lemma getslice_full {A} (l : list A) : getslice l full_slice = Ok l.
Proof.
  unfold full_slice. rewrite getslice_fwd by auto. unfold lo_bound, hi_bound, sublist.
  rewrite Nat.sub_0_r. cbn [skipn]. now rewrite firstn_all.
Qed.
Lemma slice_full_loose spl ax : axis_loose ax -> exists r, axis_slice spl ax full_slice = Ok r /\
  axis_loose r /\ ax_len r = ax_len ax /\ ax_grid r = ax_grid ax.
Proof.
  intros (L & C & H). unfold axis_slice. cbn [s_step full_slice negb].
  change (node_slice full_slice) with full_slice. rewrite !getslice_full. cbn [bind].
  rewrite (mk_axis_loose _ _ _ _ _ L H). eexists. split; [reflexivity|]. split; [now apply made_loose|].
  split; [|reflexivity]. unfold axis_counted in C. rewrite C. reflexivity.
Qed.
Lemma slice_rev_loose spl ax : axis_loose ax -> exists r, axis_slice spl ax rev_slice = Ok r /\
  axis_loose r /\ ax_len r = ax_len ax /\ ax_grid r = rev (ax_grid ax).
Proof.
  intros (L & C & H). unfold axis_slice. cbn [s_step rev_slice Z.abs Z.eqb Pos.eqb negb].
  change (node_slice rev_slice) with full_slice. unfold rev_slice at 1. rewrite getslice_full, getslice_rev. cbn [bind].
  assert (L' : length (ax_node ax) = S (length (rev (ax_grid ax)))) by (rewrite rev_length; exact L).
  assert (H' : cells_up (ax_node ax) (rev (ax_grid ax)) \/ cells_down (ax_node ax) (rev (ax_grid ax)) \/
    cells_up (ax_node ax) (rev (rev (ax_grid ax))) \/ cells_down (ax_node ax) (rev (rev (ax_grid ax))))
    by (rewrite rev_involutive; tauto).
  rewrite (mk_axis_loose _ _ _ _ _ L' H'). eexists. split; [reflexivity|]. split; [now apply made_loose|].
  split; [|reflexivity]. unfold axis_counted in C. rewrite C. unfold ax_len, made. cbn [ax_n]. now rewrite rev_length.
Qed.

(** * Flipping the layers *)
Lemma set_axes_total sh news : forall axes i, (length sh <= 3)%nat -> (0 <= i)%Z -> length axes = length sh ->
  map ax_len news = skipn (Z.to_nat i) sh -> exists r, set_axes axes sh i news = Ok r.
Proof.
  induction news as [|a news IH]; intros axes i H3 Hi L H; cbn [set_axes]; [eauto|].
  cbn [map] in H. assert (Hlt : (Z.to_nat i < length sh)%nat).
  { destruct (le_lt_dec (length sh) (Z.to_nat i)); [|assumption].
    rewrite skipn_all2 in H by assumption. discriminate. }
  assert (Hn : nth_error sh (Z.to_nat i) = Some (ax_len a)).
  { rewrite <- (firstn_skipn (Z.to_nat i) sh), <- H. rewrite nth_error_app2 by (rewrite firstn_length; lia).
    rewrite firstn_length. replace (Z.to_nat i - Nat.min (Z.to_nat i) (length sh))%nat with 0%nat by lia. reflexivity. }
  unfold setaxisobj at 1.
  assert (E : axesidentify i = Ok i).
  { unfold axesidentify. assert (i = 0 \/ i = 1 \/ i = 2)%Z as [->|[->| ->]] by lia; reflexivity. }
  rewrite E. cbn [bind]. rewrite Z.mod_small by lia.
  assert (P : py_pos (length sh) i = Ok (Z.to_nat i)) by (apply py_pos_ok; lia).
  assert (G : getidx sh i = Ok (ax_len a)) by (apply getidx_some; eauto).
  rewrite G. cbn [bind]. rewrite Z.eqb_refl. unfold setidx. rewrite L, P. cbn [bind].
  apply IH; [exact H3|lia|now rewrite upd_length|].
  rewrite Z2Nat.inj_add by lia. change (Z.to_nat 1) with 1%nat. rewrite Nat.add_1_r.
  clear -H. revert H. generalize (Z.to_nat i) as k. induction sh as [|x sh IH]; intros [|k] H; cbn in *; try discriminate.
  - now injection H as _ H.
  - now apply IH.
Qed.
Lemma pick_all {A} (l : list A) n : length l = n -> pick l (seq 0 n) = Ok l.
Proof.
  intros <-. unfold pick. apply pick_ext. apply Forall2_of_nth; [apply seq_length|].
  intros k i x Hi Hx. assert (Hk : (k < length (seq 0 (length l)))%nat) by (apply nth_error_Some; congruence).
  rewrite seq_length in Hk.
  rewrite (nth_error_nth' _ 0%nat) in Hi by now rewrite seq_length. injection Hi as <-. now rewrite seq_nth by exact Hk.
Qed.
Lemma retained_all axs : retained (length axs) (map Some axs) = seq 0 (length axs).
Proof.
  unfold retained. generalize (seq 0 (length axs)) as l. induction l as [|i l IH]; [reflexivity|]. cbn [filter].
  rewrite nth_error_map. destruct (nth_error axs i); cbn [option_map]; now rewrite IH.
Qed.

(** the keys [:, .., ::-1, .., :] *)
Definition flip_keys (n k : nat) : list (Z + slice) := upd (repeat (inr full_slice) n) k (inr rev_slice).
Lemma flip_keys_norm axes n k : length axes = n -> (k < n)%nat ->
  mapM (fun p => normalize_slice (fst p) (snd p)) (combine axes (map key_of_slice (upd (repeat full_slice n) k rev_slice)))
  = Ok (flip_keys n k).
Proof.
  intros L Hk. unfold flip_keys. replace (upd (repeat (inr full_slice) n) k (inr rev_slice))
    with (map (@inr Z slice) (upd (repeat full_slice n) k rev_slice)).
  2:{ rewrite map_upd. f_equal. clear. induction n; cbn; congruence. }
  assert (L' : length (upd (repeat full_slice n) k rev_slice) = n) by (rewrite upd_length, repeat_length; reflexivity).
  revert L'. generalize (upd (repeat full_slice n) k rev_slice) as sls. clear Hk. revert n L.
  induction axes as [|ax axes IH]; intros n L [|sl sls] L'; cbn [length] in *; try lia; [reflexivity|].
  cbn [map combine mapM fst snd]. rewrite key_of_slice_norm. cbn [bind].
  rewrite (IH (length axes) eq_refl sls ltac:(lia)). reflexivity.
Qed.
Lemma flip_subs spl axes k : Forall axis_loose axes -> exists axs,
  mapM (sub_axis spl) (combine axes (flip_keys (length axes) k)) = Ok (map Some axs) /\
  Forall axis_loose axs /\ map ax_len axs = map ax_len axes.
Proof.
  unfold flip_keys. intro H.
  assert (Full : forall axes', Forall axis_loose axes' -> exists axs,
    mapM (sub_axis spl) (combine axes' (repeat (inr full_slice) (length axes'))) = Ok (map Some axs) /\
    Forall axis_loose axs /\ map ax_len axs = map ax_len axes').
  { clear. induction 1 as [|ax axes Hax H IH]; [exists []; repeat split; constructor|].
    destruct IH as (axs & E & Hl & Hm). destruct (slice_full_loose spl ax Hax) as (r & Er & Hr & Hn & _).
    exists (r :: axs). cbn [length repeat combine mapM]. unfold sub_axis at 1. cbn [fst snd]. rewrite Er. cbn [rmap bind].
    rewrite E. cbn [bind map]. split; [reflexivity|]. split; [now constructor|]. now rewrite Hn, Hm. }
  revert k. induction H as [|ax axes Hax H IH]; intro k; [exists []; repeat split; constructor|].
  destruct k as [|k]; cbn [length repeat upd combine mapM].
  - destruct (Full axes H) as (axs & E & Hl & Hm). destruct (slice_rev_loose spl ax Hax) as (r & Er & Hr & Hn & _).
    exists (r :: axs). unfold sub_axis at 1. cbn [fst snd]. rewrite Er. cbn [rmap bind].
    rewrite E. cbn [bind map]. split; [reflexivity|]. split; [now constructor|]. now rewrite Hn, Hm.
  - destruct (IH k) as (axs & E & Hl & Hm). destruct (slice_full_loose spl ax Hax) as (r & Er & Hr & Hn & _).
    exists (r :: axs). unfold sub_axis at 1. cbn [fst snd]. rewrite Er. cbn [rmap bind].
    rewrite E. cbn [bind map]. split; [reflexivity|]. split; [now constructor|]. now rewrite Hn, Hm.
Qed.
Lemma somes_map {A} (l : list A) : somes (map Some l) = l.
Proof. induction l; cbn; congruence. Qed.
Lemma nonempty_dims sh : nonempty sh -> dims sh = Z.of_nat (length sh).
Proof.
  intro H. unfold dims. apply zprod_pos in H. destruct (Z.eqb_spec (zprod sh) 0); [lia|reflexivity].
Qed.
Lemma nonempty_nonneg sh : nonempty sh -> Forall (fun n => 0 <= n)%Z sh.
Proof. apply Forall_impl. intros; lia. Qed.
Lemma upd_same_nth {A} (l : list A) k x d : nth k l d = x -> (k < length l)%nat -> upd l k x = l.
Proof. intros <-. apply upd_nth. Qed.
Lemma rev_slice_indices n : (0 <= n)%Z -> slice_indices rev_slice n = Ok (n - 1, -1, -1)%Z /\
  range_len (n - 1) (-1) (-1) = Z.to_nat n.
Proof.
  intro H. split; [reflexivity|]. unfold range_len. cbn [Z.ltb Z.compare Z.opp].
  destruct (Z.ltb_spec (-1) (n - 1)); [rewrite Z.div_1_r; lia|lia].
Qed.
(** what reversing an array along one dimension means *)
Definition reversed_at {V} (k : nat) (a b : nda V) : Prop :=
  a_shape b = a_shape a /\ forall idx, length idx = length (a_shape a) ->
    a_at b idx = a_at a (upd idx k (nth k (a_shape a) 0 - 1 - nth k idx 0)%Z).
Lemma np_flip_keys {V} (a : nda V) k : nonempty (a_shape a) -> (k < length (a_shape a))%nat ->
  exists b, np_getitem a (flip_keys (length (a_shape a)) k) = Ok b /\ reversed_at k a b.
Proof.
  intros Hn Hk. destruct (rev_slice_indices (nth k (a_shape a) 0%Z)) as [E R].
  { apply nonempty_nonneg in Hn. rewrite Forall_forall in Hn. apply Hn, nth_In, Hk. }
  destruct (np_getitem_one a k rev_slice _ _ _ (nonempty_nonneg _ Hn) Hk E) as (b & Hb & Hs & Hv).
  exists b. split; [exact Hb|]. split.
  - rewrite Hs, R. apply (upd_same_nth _ _ _ 0%Z); [|exact Hk]. rewrite Z2Nat.id; [reflexivity|].
    apply nonempty_nonneg in Hn. rewrite Forall_forall in Hn. apply Hn, nth_In, Hk.
  - intros idx L. rewrite Hv by exact L. do 2 f_equal. lia.
Qed.
Lemma flip_layers {V} spl ls : forall (a : nda V) k, nonempty (a_shape a) -> (length (a_shape a) <= 3)%nat ->
  (k < length (a_shape a))%nat -> Forall (layer_fits (a_shape a)) ls ->
  exists ls' b, data_getitem spl ls a (flip_keys (length (a_shape a)) k) = Ok (ls', b) /\ Forall (layer_fits (a_shape a)) ls' /\ length ls' = length ls /\ reversed_at k a b.
Proof.
  induction ls as [|l ls IH]; intros a k Hn H3 Hk Hf; cbn [data_getitem].
  - destruct (np_flip_keys a k Hn Hk) as (b & Hb & Hr). rewrite Hb. exists [], b. auto.
  - inversion Hf as [|? ? (F1 & F2 & F3 & F4) Hf']; subst.
    assert (La : length (l_axes l) = length (a_shape a)) by (rewrite <- F2; now rewrite map_length).
    assert (Lk : length (flip_keys (length (a_shape a)) k) = length (a_shape a))
      by (unfold flip_keys; now rewrite upd_length, repeat_length).
    rewrite Lk, nonempty_dims by exact Hn. rewrite Z.eqb_refl. cbn [negb].
    rewrite firstn_all2 by lia.
    destruct (flip_subs spl (l_axes l) k F1) as (axs & E & Hl & Hm). rewrite La in E. rewrite E. cbn [bind].
    destruct (IH a k Hn H3 Hk Hf') as (ls' & b & Eb & Hls & Ll & Hr). rewrite Eb. cbn [bind].
    assert (Lx : length axs = length (a_shape a)) by (rewrite <- La, <- (map_length ax_len), Hm; apply map_length).
    assert (R : retained (length (a_shape a)) (map Some axs) = seq 0 (length (a_shape a)))
      by (rewrite <- Lx; apply retained_all).
    cbv zeta. rewrite !R.
    rewrite !pick_all by assumption. cbn [bind]. destruct Hr as [Hs Hv]. rewrite Hs, somes_map.
    destruct (set_axes_total (a_shape a) axs (l_axes l) 0 H3 ltac:(lia) La) as (r & Er); [cbn; congruence|].
    rewrite Er. cbn [bind]. apply set_axes_all in Er as [-> _]; [|congruence|congruence].
    eexists _, b. split; [reflexivity|]. split; [|split; [cbn; congruence|now split]].
    constructor; [|exact Hls]. split; [exact Hl|]. cbn. split; [congruence|]. split; assumption.
Qed.

(** * Flip *)
Definition flipped {V} (k : nat) (f g : field V) : Prop :=
  reversed_at k (f_data f) (f_data g) /\
  (exists ax ax', nth_error (f_axes f) k = Some ax /\ f_axes g = upd (f_axes f) k ax' /\
     ax' = made (ax_name ax) (ax_unit ax) (rev (ax_node ax)) (rev (ax_grid ax))) /\
  f_ats g = f_ats f /\ f_tao g = f_tao f /\
  l_name (f_top g) = l_name (f_top f) /\ l_unit (f_top g) = l_unit (f_top f).
Lemma orderly_length {V} (f : field V) : orderly f -> length (f_axes f) = length (f_shape f).
Proof.
  intros (_ & _ & _ & H). inversion H as [|? ? (_ & H2 & _) _]; subst. unfold f_axes. rewrite <- H2. now rewrite map_length.
Qed.
Lemma orderly_inv {V} (f : field V) : orderly f -> inv f.
Proof.
  intros (_ & _ & Hp & H). inversion H as [|? ? (H1 & H2 & H3 & H4) _]; subst. split; [now apply map_consistent|].
  revert H1. apply Forall_impl. intros ax Hax. apply Hax.
Qed.
Lemma plain_orderly {V} (f : field V) : consistent f -> Forall axis_proper (f_axes f) -> nonempty (f_shape f) ->
  (length (f_shape f) <= 3)%nat -> f_inner f = [] -> orderly f.
Proof.
  intros Hc Hp Hn H3 Hi. split; [exact Hn|]. split; [exact H3|]. split; [exact Hp|]. rewrite Hi. constructor; [|constructor].
  pose proof (consistent_map f Hc). destruct Hc as (_ & _ & H1 & H2). split; [|auto].
  revert Hp. apply Forall_impl. apply proper_loose.
Qed.
Lemma reversed_proper nm un ax : axis_proper ax -> axis_proper (made nm un (rev (ax_node ax)) (rev (ax_grid ax))).
Proof.
  intro H. apply made_proper. destruct (proper_cells ax H); [right; now apply cells_up_rev|left; now apply cells_down_rev].
Qed.
Lemma proper_counted ax : axis_proper ax -> ax_len ax = Z.of_nat (length (ax_grid ax)).
Proof. intro H. now destruct (proper_describes ax H) as (_ & _ & H'). Qed.
Lemma flip_total {V} spl (f : field V) a k : orderly f -> py_pos (length (f_shape f)) a = Ok k ->
  exists g, field_flip spl f a = Ok g /\ flipped k f g /\ orderly g.
Proof.
  intros Hf Hk. pose proof Hf as (Hn & H3 & Hp & Hl). pose proof (orderly_length f Hf) as La.
  pose proof Hk as Hk'. apply py_pos_ok in Hk' as [Hlt _].
  destruct (flip_layers spl (f_top f :: f_inner f) (f_data f) k Hn H3 Hlt Hl) as (ls' & b & E & Hls & Ll & Hr).
  unfold field_flip. rewrite Hk. cbn [bind]. unfold field_getitem at 1, normalize_slices.
  assert (Lk : length (map key_of_slice (upd (repeat full_slice (length (f_shape f))) k rev_slice)) = length (f_shape f))
    by (now rewrite map_length, upd_length, repeat_length).
  rewrite Lk, nonempty_dims by exact Hn. rewrite Z.eqb_refl. cbn [negb].
  rewrite flip_keys_norm by assumption. cbn [bind]. unfold f_shape. rewrite E. cbn [bind].
  destruct ls' as [|l' ls']; [discriminate|]. cbn [bind f_data]. destruct Hr as [Hs Hv]. 
  unfold f_shape. cbn [f_data]. rewrite Hs, idx_eqb_refl. cbn [negb].
  destruct (nth_error (f_axes f) k) as [ax|] eqn:Eax; [|apply nth_error_None in Eax; lia].
  assert (G : getidx (f_axes f) a = Ok ax) by (apply getidx_some; rewrite La; eauto).
  assert (Hax : axis_proper ax) by (rewrite Forall_forall in Hp; eapply Hp, nth_error_In, Eax).
  rewrite G. cbn [bind]. rewrite axis_reversed_ok by exact Hax. cbn [bind].
  unfold setidx. rewrite La, Hk. cbn [bind f_top f_inner].
  eexists. split; [reflexivity|]. split.
  - split; [split; assumption|]. split; [exists ax; eexists; split; [exact Eax|split; reflexivity]|]. auto.
  - inversion Hl as [|? ? (L1 & L2 & L3 & L4) _]; subst.
    assert (M : map ax_len (upd (f_axes f) k (made (ax_name ax) (ax_unit ax) (rev (ax_node ax)) (rev (ax_grid ax)))) = f_shape f).
    { rewrite map_upd. rewrite (upd_same_nth _ _ _ 0%Z); [exact L2| |rewrite map_length; lia].
      rewrite (nth_error_nth _ _ 0%Z (x := ax_len ax)) by (now rewrite nth_error_map, Eax).
      rewrite (proper_counted ax Hax). unfold made, ax_len. cbn [ax_n]. now rewrite rev_length. }
    assert (P : Forall axis_proper (upd (f_axes f) k (made (ax_name ax) (ax_unit ax) (rev (ax_node ax)) (rev (ax_grid ax)))))
      by (apply Forall_upd; [exact Hp|now apply reversed_proper]).
    split; [unfold f_shape; cbn [f_data]; now rewrite Hs|]. split; [unfold f_shape; cbn [f_data]; now rewrite Hs|].
    split; [exact P|]. unfold f_shape in *. cbn [f_data f_top f_inner]. rewrite Hs. constructor; [|exact Hls].
    split; [revert P; apply Forall_impl, proper_loose|]. split; [exact M|]. split; [exact L3|exact L4].
Qed.

(** * Transposition *)
Lemma transpose_layers {V} ls : forall (a : nda V) axes p, nonempty (a_shape a) ->
  mapM (py_pos (length (a_shape a))) axes = Ok p -> perm_of (length (a_shape a)) p ->
  Forall (layer_fits (a_shape a)) ls ->
  exists ls', data_transpose ls a axes = Ok (ls', nd_transpose p a) /\
    Forall (layer_fits (permute 0%Z p (a_shape a))) ls' /\ length ls' = length ls.
Proof.
  induction ls as [|l ls IH]; intros a axes p Hn Hm Hp Hf; cbn [data_transpose].
  - assert (E : np_transpose a axes = Ok (nd_transpose p a)) by (apply np_transpose_ok; eauto).
    rewrite E. exists []. auto.
  - inversion Hf as [|? ? (F1 & F2 & F3 & F4) Hf']; subst.
    assert (La : length (l_axes l) = length (a_shape a)) by (rewrite <- F2; now rewrite map_length).
    pose proof (mapM_length _ _ _ Hm) as Lm. pose proof Hp as (Lp & Hnd & Hb).
    assert (Lx : length axes = length (a_shape a)) by lia. rewrite Lx, nonempty_dims by exact Hn.
    rewrite Z.eqb_refl. cbn [negb]. rewrite (mapM_getidx_total axis0 (l_axes l) axes p) by (now rewrite La). cbn [bind].
    destruct (IH a axes p Hn Hm Hp Hf') as (ls' & E & Hls & Ll). rewrite E. cbn [bind].
    eexists. split; [reflexivity|]. split; [|cbn; congruence]. constructor; [|exact Hls].
    split; [cbn [l_axes]; apply permuted_all; [rewrite La; exact Hb|exact F1]|].
    split; [cbn [l_axes]; rewrite map_permute, F2; now apply permute_default|].
    cbn [l_ats l_tao]. rewrite permute_length, Lp. split; assumption.
Qed.
Definition transposed {V} (p : list nat) (f g : field V) : Prop :=
  f_data g = nd_transpose p (f_data f) /\ f_axes g = permute axis0 p (f_axes f) /\
  f_ats g = f_ats f /\ f_tao g = f_tao f /\
  l_name (f_top g) = l_name (f_top f) /\ l_unit (f_top g) = l_unit (f_top f).
Lemma transpose_total {V} (f : field V) axes p : orderly f ->
  mapM (py_pos (length (f_shape f))) axes = Ok p -> perm_of (length (f_shape f)) p ->
  exists g, field_transpose f (Some axes) = Ok g /\ transposed p f g /\ orderly g.
Proof.
  intros Hf Hm Hp. pose proof Hf as (Hn & H3 & Hpr & Hl).
  destruct (transpose_layers (f_top f :: f_inner f) (f_data f) axes p Hn Hm Hp Hl) as (ls & E & Hls & Ll).
  unfold field_transpose. rewrite E. cbn [bind]. destruct ls as [|l ls]; [discriminate|].
  eexists. split; [reflexivity|].
  assert (T : transposed p f (mkField (nd_transpose p (f_data f)) l ls)).
  { assert (E' : field_transpose f (Some axes) = Ok (mkField (nd_transpose p (f_data f)) l ls))
      by (unfold field_transpose; rewrite E; reflexivity).
    apply transpose_ok in E' as (p' & _ & Hm' & H1 & H2 & H4 & H5 & H6 & H7); [|apply (orderly_inv f Hf)].
    rewrite Hm in Hm'. injection Hm' as <-. split; [reflexivity|]. split; [apply H2|]. auto. }
  split; [exact T|]. destruct T as (_ & Ta & _). pose proof Hp as (Lp & _ & Hb).
  assert (Sh : f_shape (mkField (nd_transpose p (f_data f)) l ls) = permute 0%Z p (f_shape f)) by reflexivity.
  split; [rewrite Sh; apply permuted_all; [exact Hb|exact Hn]|].
  split; [rewrite Sh, permute_length; lia|]. split.
  - rewrite Ta. apply permuted_all; [|exact Hpr]. rewrite (orderly_length f Hf). exact Hb.
  - rewrite Sh. exact Hls.
Qed.

(** * Lists with two entries exchanged *)
Lemma put2_length {A} (l : list A) a x b y : length (put2 l a x b y) = length l.
Proof. unfold put2. now rewrite !upd_length. Qed.
Lemma nth_put2 {A} (l : list A) a x b y i d : (a < length l)%nat -> (b < length l)%nat ->
  nth i (put2 l a x b y) d = if Nat.eqb i b then y else if Nat.eqb i a then x else nth i l d.
Proof.
  intros Ha Hb. unfold put2. destruct (Nat.eqb_spec i b) as [->|Nb].
  - apply nth_upd_same. now rewrite upd_length.
  - rewrite nth_upd_other by exact Nb. destruct (Nat.eqb_spec i a) as [->|Na]; [now apply nth_upd_same|now apply nth_upd_other].
Qed.
Lemma put2_put2 {A} (l : list A) a x b y x' y' : a <> b -> put2 (put2 l a x b y) a x' b y' = put2 l a x' b y'.
Proof. intro N. unfold put2. rewrite (upd_comm _ b a) by congruence. now rewrite !upd_upd. Qed.
Lemma put2_id {A} (l : list A) a b d : (a < length l)%nat -> (b < length l)%nat ->
  put2 l a (nth a l d) b (nth b l d) = l.
Proof. intros Ha Hb. unfold put2. rewrite upd_nth by exact Ha. now apply upd_nth. Qed.
Definition swap_perm (n a b : nat) : list nat := put2 (seq 0 n) a b b a.
Lemma nth_swap_perm n a b i : (a < n)%nat -> (b < n)%nat -> (i < n)%nat ->
  nth i (swap_perm n a b) 0%nat = if Nat.eqb i b then a else if Nat.eqb i a then b else i.
Proof. intros Ha Hb Hi. unfold swap_perm. rewrite nth_put2 by (now rewrite seq_length). now rewrite seq_nth by exact Hi. Qed.
Lemma swap_perm_of n a b : (a < n)%nat -> (b < n)%nat -> perm_of n (swap_perm n a b).
Proof.
  intros Ha Hb. assert (L : length (swap_perm n a b) = n) by (unfold swap_perm; now rewrite put2_length, seq_length).
  split; [exact L|]. split.
  - apply (NoDup_nth _ 0%nat). rewrite L. intros i j Hi Hj. rewrite !nth_swap_perm by assumption.
    destruct (Nat.eqb_spec i b), (Nat.eqb_spec i a), (Nat.eqb_spec j b), (Nat.eqb_spec j a); lia.
  - intros k Hk. apply (In_nth _ _ 0%nat) in Hk as (i & Hi & <-). rewrite L in Hi. rewrite nth_swap_perm by assumption.
    destruct (Nat.eqb_spec i b), (Nat.eqb_spec i a); lia.
Qed.
Lemma permute_swap {A} (d : A) l a b : (a < length l)%nat -> (b < length l)%nat ->
  permute d (swap_perm (length l) a b) l = put2 l a (nth b l d) b (nth a l d).
Proof.
  intros Ha Hb. pose proof (swap_perm_of _ _ _ Ha Hb) as (L & _).
  apply (nth_ext _ _ d d); [rewrite permute_length, put2_length; exact L|].
  rewrite permute_length, L. intros i Hi. rewrite nth_permute by lia. rewrite nth_swap_perm, nth_put2 by assumption.
  destruct (Nat.eqb_spec i b) as [->|]; [reflexivity|]. destruct (Nat.eqb_spec i a) as [->|]; reflexivity.
Qed.
Lemma unpermute_swap idx a b : (a < length idx)%nat -> (b < length idx)%nat ->
  unpermute (swap_perm (length idx) a b) idx = put2 idx a (nth b idx 0%Z) b (nth a idx 0%Z).
Proof.
  intros Ha Hb. rewrite <- permute_swap by assumption.
  pose proof (swap_perm_of _ _ _ Ha Hb) as Hp. set (p := swap_perm (length idx) a b) in *.
  assert (L : length (permute 0%Z p idx) = length idx) by (rewrite permute_length; apply Hp).
  assert (I : permute 0%Z p (permute 0%Z p idx) = idx).
  { unfold p at 2. rewrite permute_swap by assumption. set (m := put2 idx a (nth b idx 0%Z) b (nth a idx 0%Z)).
    assert (Lm : length m = length idx) by apply put2_length.
    unfold p. rewrite <- Lm, permute_swap by (now rewrite Lm). subst m.
    apply list_nth_ext; rewrite !put2_length; [reflexivity|]. intros k Hk.
    rewrite !nth_put2 by (rewrite ?put2_length; assumption).
    rewrite !Nat.eqb_refl.
    destruct (Nat.eqb_spec k b), (Nat.eqb_spec k a), (Nat.eqb_spec a b); subst; congruence. }
  rewrite <- I at 1. apply unpermute_permute. now rewrite L.
Qed.

(** * Coordinates *)
Lemma coords_length axes idx : length axes = length idx -> length (coords axes idx) = length idx.
Proof. revert idx; induction axes as [|ax axes IH]; intros [|i idx] H; try discriminate; cbn in *; auto. Qed.
Lemma nth_coords axes idx k : length axes = length idx -> (k < length idx)%nat ->
  nth k (coords axes idx) 0 = nth (Z.to_nat (nth k idx 0%Z)) (ax_grid (nth k axes axis0)) 0.
Proof.
  revert idx k; induction axes as [|ax axes IH]; intros [|i idx] [|k] H Hk; try discriminate; cbn in *; try lia; try reflexivity.
  apply IH; lia.
Qed.
Lemma list_Q_ext (a b : list Q) : length a = length b -> (forall k, (k < length a)%nat -> nth k a 0 = nth k b 0) -> a = b.
Proof. intros. now apply (nth_ext a b 0 0). Qed.

(** * Two reversals *)
Definition axis_rev (ax : axis) : axis := made (ax_name ax) (ax_unit ax) (rev (ax_node ax)) (rev (ax_grid ax)).
Lemma axis_rev_back ax : axis_proper ax -> axis_same (axis_rev ax) (axis_back ax).
Proof.
  intro H. pose proof (proper_length ax H) as L. destruct (proper_describes ax H) as (H0 & H1 & Hn).
  unfold axis_same, axis_rev, made, axis_back. cbn. repeat (split; [reflexivity|]).
  split; [rewrite H1; rewrite (nth_0_rev _ _ L); reflexivity|].
  split; [rewrite H0, rev_length; rewrite (nth_n_rev _ _ L); reflexivity|]. rewrite rev_length. now symmetry.
Qed.
Lemma axis_rev_rev ax : axis_proper ax -> axis_same (axis_rev (axis_rev ax)) ax.
Proof.
  intro H. pose proof (proper_length ax H) as L. destruct (proper_describes ax H) as (H0 & H1 & Hn).
  unfold axis_same, axis_rev, made. cbn. rewrite !rev_involutive. repeat (split; [reflexivity|]).
  split; [now rewrite H0|]. split; [now rewrite H1|now symmetry].
Qed.
Lemma axis_same_refl ax : axis_same ax ax.
Proof. repeat split; reflexivity. Qed.
Lemma axes_same_refl l : Forall2 axis_same l l.
Proof. induction l; constructor; auto using axis_same_refl. Qed.
Lemma axes_same_upd l m k x y : Forall2 axis_same l m -> axis_same x y -> Forall2 axis_same (upd l k x) (upd m k y).
Proof. intro H; revert k; induction H as [|a b l m Hab H IH]; intros [|k] Hxy; cbn; constructor; auto. Qed.
Lemma nth_error_some_nth {A} (l : list A) k x d : nth_error l k = Some x -> nth k l d = x.
Proof. intro H. now apply nth_error_nth. Qed.
Lemma nth_error_lt {A} (l : list A) k x : nth_error l k = Some x -> (k < length l)%nat.
Proof. intro H. apply nth_error_Some. congruence. Qed.

Lemma flip_twice {V} spl (f g : field V) a : orderly f -> field_flip spl f a = Ok g ->
  exists h, field_flip spl g a = Ok h /\ field_same h f.
Proof.
  intros Hf H. destruct (py_pos (length (f_shape f)) a) as [k|] eqn:Hk.
  2:{ unfold field_flip in H. rewrite Hk in H. discriminate. }
  destruct (flip_total spl f a k Hf Hk) as (g' & E & F & Hg). rewrite H in E. injection E as <-.
  pose proof F as ((Hs & Hv) & (ax & ax' & Eax & Ga & Eax') & G1 & G2 & G3 & G4).
  change (f_shape g = f_shape f) in Hs. rewrite <- Hs in Hk.
  destruct (flip_total spl g a k Hg Hk) as (h & Eh & F' & Hh). exists h. split; [exact Eh|].
  destruct F' as ((Hs' & Hv') & (bx & bx' & Ebx & Ha & Ebx') & G1' & G2' & G3' & G4').
  change (f_shape h = f_shape g) in Hs'. apply py_pos_ok in Hk as [Hlt _].
  pose proof (nth_error_lt _ _ _ Eax) as La.
  split; [split; [exact (eq_trans Hs' Hs)|]|].
  - change (forall idx, in_shape (f_shape h) idx = true -> a_at (f_data h) idx = a_at (f_data f) idx).
    intros idx Hi. rewrite Hs' in Hi. pose proof (in_shape_length _ _ Hi) as Li. unfold f_shape in *.
    rewrite Hv' by exact Li. rewrite Hv by (rewrite upd_length; congruence).
    rewrite Hs, upd_upd, nth_upd_same by lia. f_equal. rewrite (upd_same_nth _ _ _ 0%Z); [reflexivity| |lia]. lia.
  - split; [|split; [congruence|split; [congruence|split; congruence]]].
    rewrite Ha, Ga, upd_upd. rewrite Ga, nth_error_upd, Nat.eqb_refl in Ebx.
    destruct (Nat.ltb_spec k (length (f_axes f))); [|lia]. injection Ebx as <-.
    rewrite <- (upd_nth (f_axes f) k axis0) at 2 by exact La. apply axes_same_upd; [apply axes_same_refl|].
    rewrite (nth_error_some_nth _ _ _ _ Eax), Ebx', Eax'. apply axis_rev_rev.
    destruct Hf as (_ & _ & Hp & _). rewrite Forall_forall in Hp. eapply Hp, nth_error_In, Eax.
Qed.

(** Samples keep their coordinates. *)
Lemma flip_samples {V} k (f g : field V) : orderly f -> (k < length (f_shape f))%nat -> flipped k f g ->
  forall c v, sample g c v <-> sample f c v.
Proof.
  intros Hf Hk ((Hs & Hv) & (ax & ax' & Eax & Ga & Eax') & _). change (f_shape g = f_shape f) in Hs.
  pose proof (orderly_inv f Hf) as [Hcon _]. pose proof (orderly_length f Hf) as La.
  assert (Hax : axis_proper ax) by (destruct Hf as (_ & _ & Hp & _); rewrite Forall_forall in Hp; eapply Hp, nth_error_In, Eax).
  assert (Nk : nth k (f_shape f) 0%Z = Z.of_nat (length (ax_grid ax))).
  { rewrite <- (consistent_map f Hcon). rewrite (nth_error_nth _ _ 0%Z (x := ax_len ax)) by (now rewrite nth_error_map, Eax).
    now apply proper_counted. }
  assert (Hin : forall idx, in_shape (f_shape f) idx = true ->
    in_shape (f_shape f) (upd idx k (nth k (f_shape f) 0 - 1 - nth k idx 0)%Z) = true).
  { intros idx Hi. rewrite <- (upd_nth (f_shape f) k 0%Z Hk) at 1. apply in_shape_upd; [exact Hi|exact Hk|].
    pose proof (in_shape_nth _ _ k 0%Z 0%Z Hi Hk). lia. }
  assert (Hco : forall idx, in_shape (f_shape f) idx = true ->
    coords (f_axes g) idx = coords (f_axes f) (upd idx k (nth k (f_shape f) 0 - 1 - nth k idx 0)%Z)).
  { intros idx Hi. pose proof (in_shape_length _ _ Hi) as Li. apply list_Q_ext.
    - rewrite !coords_length; rewrite ?upd_length; try reflexivity; try congruence. rewrite Ga, upd_length. congruence.
    - rewrite coords_length by (rewrite Ga, upd_length; congruence). intros j Hj.
      rewrite !nth_coords; rewrite ?upd_length; try congruence; [|rewrite Ga, upd_length; congruence].
      rewrite Ga. destruct (Nat.eq_dec j k) as [->|N].
      + rewrite !nth_upd_same by congruence. rewrite (nth_error_some_nth _ _ _ _ Eax), Eax'. unfold made. cbn [ax_grid].
        pose proof (in_shape_nth _ _ k 0%Z 0%Z Hi Hk). rewrite rev_nth by lia. f_equal. lia.
      + rewrite !nth_upd_other by exact N. reflexivity. }
  intros c v. split; intros (idx & Hi & Hc & Hva).
  - rewrite Hs in Hi. exists (upd idx k (nth k (f_shape f) 0 - 1 - nth k idx 0)%Z). split; [now apply Hin|].
    split; [now rewrite Hc, Hco|]. rewrite Hva. apply Hv. now apply in_shape_length.
  - exists (upd idx k (nth k (f_shape f) 0 - 1 - nth k idx 0)%Z). pose proof (Hin _ Hi) as Hi'.
    pose proof (in_shape_length _ _ Hi) as Li.
    assert (E : upd (upd idx k (nth k (f_shape f) 0 - 1 - nth k idx 0)%Z) k
       (nth k (f_shape f) 0 - 1 - nth k (upd idx k (nth k (f_shape f) 0 - 1 - nth k idx 0)%Z) 0)%Z = idx).
    { rewrite upd_upd, nth_upd_same by congruence. apply (upd_same_nth _ _ _ 0%Z); [lia|congruence]. }
    split; [now rewrite Hs|]. split; [rewrite Hc, Hco by exact Hi'; now rewrite E|].
    rewrite Hva. unfold f_shape in *. rewrite Hv by (rewrite upd_length; exact Li). now rewrite E.
Qed.
Lemma transpose_samples {V} p (f g : field V) : length (f_axes f) = length (f_shape f) ->
  perm_of (length (f_shape f)) p -> f_data g = nd_transpose p (f_data f) -> f_axes g = permute axis0 p (f_axes f) ->
  forall c v, length c = length (f_shape f) -> (sample g (permute 0 p c) v <-> sample f c v).
Proof.
  intros La Hp Hd Ha. pose proof Hp as (Lp & Hnd & Hb).
  assert (Hs : f_shape g = permute 0%Z p (f_shape f)) by (unfold f_shape; now rewrite Hd).
  assert (Hco : forall idx, in_shape (f_shape f) idx = true ->
    coords (f_axes g) (permute 0%Z p idx) = permute 0 p (coords (f_axes f) idx)).
  { intros idx Hi. pose proof (in_shape_length _ _ Hi) as Li. apply list_Q_ext.
    - rewrite coords_length, !permute_length by (rewrite Ha, !permute_length; reflexivity). reflexivity.
    - rewrite coords_length by (rewrite Ha, !permute_length; reflexivity). rewrite permute_length. intros j Hj.
      rewrite nth_coords by (rewrite ?Ha, !permute_length; auto). rewrite Ha, !nth_permute by exact Hj.
      assert (In (nth j p 0%nat) p) by (now apply nth_In).
      rewrite nth_coords; [reflexivity|congruence|]. rewrite Li. now apply Hb. }
  intros c v Lc. split; intros (idx & Hi & Hc & Hv).
  - rewrite Hs in Hi. assert (Li : length idx = length (f_shape f)) by (rewrite (in_shape_length _ _ Hi), permute_length; exact Lp).
    exists (unpermute p idx). pose proof (in_shape_unpermute _ _ _ Hp Hi) as Hi'. split; [exact Hi'|]. split.
    + rewrite <- (permute_unpermute p idx) in Hc by (now rewrite Li). rewrite Hco in Hc by exact Hi'.
      assert (Lu : length (coords (f_axes f) (unpermute p idx)) = length (f_shape f))
        by (rewrite coords_length; rewrite unpermute_length; congruence).
      apply list_Q_ext; [congruence|]. intros j Hj.
      destruct (index_of_nth j p) as [E1 E2]; [apply (perm_of_In _ _ _ Hp); lia|].
      apply (f_equal (fun l => nth (index_of j p) l 0)) in Hc. rewrite !nth_permute in Hc by exact E2. now rewrite E1 in Hc.
    + rewrite Hv, Hd. reflexivity.
  - exists (permute 0%Z p idx). pose proof (in_shape_length _ _ Hi) as Li. split; [rewrite Hs; now rewrite in_shape_permute|].
    split; [now rewrite Hco, Hc|]. rewrite Hv, Hd. unfold nd_transpose. cbn [a_at]. now rewrite unpermute_permute by (now rewrite Li).
Qed.

(** * Round trips *)
Lemma permute_nth_ext {A} (d : A) n p p' l : length l = n -> perm_of n p -> perm_of n p' ->
  (forall i, (i < n)%nat -> nth (nth i p' 0%nat) p 0%nat = i) -> permute d p' (permute d p l) = l.
Proof.
  intros L (Lp & _ & Hb) (Lp' & _ & Hb') Hi. apply (nth_ext _ _ d d); [rewrite permute_length; congruence|].
  rewrite permute_length, Lp'. intros i H. rewrite nth_permute by lia.
  rewrite nth_permute; [now rewrite Hi|]. rewrite Lp. apply Hb', nth_In. lia.
Qed.
Lemma transpose_round_trip {V} (f g : field V) axes axes' p p' : orderly f ->
  mapM (py_pos (length (f_shape f))) axes = Ok p -> mapM (py_pos (length (f_shape f))) axes' = Ok p' ->
  perm_of (length (f_shape f)) p -> perm_of (length (f_shape f)) p' ->
  (forall i, (i < length (f_shape f))%nat -> nth (nth i p' 0%nat) p 0%nat = i) ->
  field_transpose f (Some axes) = Ok g -> exists h, field_transpose g (Some axes') = Ok h /\ field_same h f.
Proof.
  intros Hf Hm Hm' Hp Hp' Hi H.
  destruct (transpose_total f axes p Hf Hm Hp) as (g' & E & (D & A & S1 & S2 & S3 & S4) & Hg).
  rewrite H in E. injection E as <-.
  assert (Sh : f_shape g = permute 0%Z p (f_shape f)) by (unfold f_shape; now rewrite D).
  assert (L : length (f_shape g) = length (f_shape f)) by (rewrite Sh, permute_length; apply Hp).
  rewrite <- L in Hm', Hp'. destruct (transpose_total g axes' p' Hg Hm' Hp') as (h & E & (D' & A' & S1' & S2' & S3' & S4') & Hh).
  exists h. split; [exact E|]. rewrite L in Hp'.
  assert (Sh' : f_shape h = f_shape f).
  { unfold f_shape. rewrite D'. cbn [nd_transpose a_shape]. change (a_shape (f_data g)) with (f_shape g). rewrite Sh.
    now apply (permute_nth_ext _ (length (f_shape f))). }
  split; [split; [exact Sh'|]|].
  - change (forall idx, in_shape (f_shape h) idx = true -> a_at (f_data h) idx = a_at (f_data f) idx).
    intros idx Hidx. rewrite Sh' in Hidx. pose proof (in_shape_length _ _ Hidx) as Li.
    rewrite D', D. cbn [nd_transpose a_at]. f_equal.
    assert (Lu : length (unpermute p' idx) = length idx) by (rewrite unpermute_length, Li; apply Hp').
    assert (Luu : length (unpermute p (unpermute p' idx)) = length idx) by (rewrite unpermute_length, Li; apply Hp).
    rewrite <- (permute_unpermute p' idx) at 2 by (now rewrite Li).
    rewrite <- (permute_unpermute p (unpermute p' idx)) at 2 by (now rewrite Lu, Li).
    symmetry. apply (permute_nth_ext _ (length (f_shape f))); auto. congruence.
  - split; [|split; [congruence|split; [congruence|split; congruence]]].
    rewrite A', A. rewrite (permute_nth_ext _ (length (f_shape f))); auto; [apply axes_same_refl|]. now apply orderly_length.
Qed.

(** the argument lists built by swapaxes and rot90 *)
Lemma zlist_upd n k i : map Z.of_nat (upd (seq 0 n) k i) = upd (zlist n) k (Z.of_nat i).
Proof. unfold zlist. now rewrite map_upd. Qed.
Lemma mapM_py_pos_nat n l : (forall k, In k l -> (k < n)%nat) -> mapM (py_pos n) (map Z.of_nat l) = Ok l.
Proof.
  induction l as [|k l IH]; intro H; [reflexivity|]. cbn [map mapM]. rewrite py_pos_nat by (apply H; now left).
  cbn [bind]. rewrite IH; [reflexivity|]. intros j Hj. apply H. now right.
Qed.
Lemma mapM_upd n (l : list Z) p k x i : mapM (py_pos n) l = Ok p -> py_pos n x = Ok i ->
  mapM (py_pos n) (upd l k x) = Ok (upd p k i).
Proof.
  revert p k; induction l as [|y l IH]; intros p k H Hx; cbn [mapM] in H; [injection H as <-; reflexivity|].
  apply bind_ok in H as (j & Hj & H). apply bind_ok in H as (r & Hr & H). injection H as <-.
  destruct k as [|k]; cbn [upd mapM].
  - rewrite Hx. cbn [bind]. rewrite Hr. reflexivity.
  - rewrite Hj. cbn [bind]. rewrite (IH r k Hr Hx). reflexivity.
Qed.
Lemma swapaxes_perm {V} (f : field V) a b ka kb : nonempty (f_shape f) ->
  py_pos (length (f_shape f)) a = Ok ka -> py_pos (length (f_shape f)) b = Ok kb ->
  exists axes, field_swapaxes f a b = field_transpose f (Some axes) /\
    mapM (py_pos (length (f_shape f))) axes = Ok (swap_perm (length (f_shape f)) ka kb).
Proof.
  intros Hn Ha Hb. unfold field_swapaxes. rewrite nonempty_dims by exact Hn. rewrite Nat2Z.id.
  set (n := length (f_shape f)) in *.
  assert (Lz : length (zlist n) = n) by (unfold zlist; now rewrite map_length, seq_length).
  unfold setidx. rewrite Lz, Ha. cbn [bind]. rewrite upd_length, Lz, Hb. cbn [bind]. eexists. split; [reflexivity|].
  unfold swap_perm, put2. apply mapM_upd; [|exact Ha]. apply mapM_upd; [|exact Hb]. unfold zlist. apply mapM_py_pos_nat.
  intros k Hk. apply in_seq in Hk. lia.
Qed.
Lemma swapaxes_total {V} (f : field V) a b ka kb : orderly f ->
  py_pos (length (f_shape f)) a = Ok ka -> py_pos (length (f_shape f)) b = Ok kb ->
  exists g, field_swapaxes f a b = Ok g /\ transposed (swap_perm (length (f_shape f)) ka kb) f g /\ orderly g.
Proof.
  intros Hf Ha Hb. destruct (swapaxes_perm f a b ka kb) as (axes & -> & Hm); [apply Hf|exact Ha|exact Hb|].
  apply transpose_total; [exact Hf|exact Hm|]. apply py_pos_ok in Ha as [Ha _]. apply py_pos_ok in Hb as [Hb _].
  now apply swap_perm_of.
Qed.
Lemma swapaxes_twice {V} (f g : field V) a b : orderly f -> field_swapaxes f a b = Ok g ->
  exists h, field_swapaxes g a b = Ok h /\ field_same h f.
Proof.
  intros Hf H. set (n := length (f_shape f)).
  assert (exists ka kb, py_pos n a = Ok ka /\ py_pos n b = Ok kb) as (ka & kb & Ha & Hb).
  { unfold field_swapaxes in H. rewrite nonempty_dims in H by apply Hf. rewrite Nat2Z.id in H. fold n in H.
    assert (Lz : length (zlist n) = n) by (unfold zlist; now rewrite map_length, seq_length).
    apply bind_ok in H as (l & Hl & H). apply bind_ok in H as (l' & Hl' & H).
    apply setidx_ok in Hl as (ka & Hka & ->). apply setidx_ok in Hl' as (kb & Hkb & _).
    rewrite upd_length in Hkb. rewrite Lz in *. eauto. }
  pose proof (py_pos_ok n a ka) as [Pa _]. pose proof (py_pos_ok n b kb) as [Pb _].
  specialize (Pa Ha) as [Pa _]. specialize (Pb Hb) as [Pb _].
  destruct (swapaxes_perm f a b ka kb ltac:(apply Hf) Ha Hb) as (axes & E & Hm).
  destruct (swapaxes_total f a b ka kb Hf Ha Hb) as (g' & E' & (D & _) & Hg). rewrite H in E'. injection E' as <-.
  assert (L : length (f_shape g) = n) by (unfold f_shape; rewrite D; cbn [nd_transpose a_shape]; rewrite permute_length; now apply swap_perm_of).
  destruct (swapaxes_perm g a b ka kb) as (axes' & E' & Hm'); [apply Hg|now rewrite L|now rewrite L|].
  rewrite L in Hm'. rewrite E'. rewrite H in E. symmetry in E. pose proof (swap_perm_of n ka kb Pa Pb) as Hp.
  refine (transpose_round_trip f g axes axes' _ _ Hf Hm Hm' Hp Hp _ E).
  intros i Hi. fold n. rewrite (nth_swap_perm n ka kb i) by assumption.
  rewrite nth_swap_perm; try assumption; destruct (Nat.eqb_spec i kb), (Nat.eqb_spec i ka); subst; try assumption;
    repeat match goal with |- context [Nat.eqb ?x ?y] => destruct (Nat.eqb_spec x y) end; congruence.
Qed.

(** * Rotation *)
Definition rev_axes (q : Z) (x y : axis) : axis * axis :=
  match q with
  | 1%Z => (axis_rev y, x)
  | 2%Z => (axis_rev x, axis_rev y)
  | 3%Z => (y, axis_rev x)
  | _ => (x, y)
  end.
Definition rotated {V} (q : Z) (a b : nat) (f g : field V) : Prop :=
  let na := nth a (f_shape f) 0%Z in let nb := nth b (f_shape f) 0%Z in
  f_shape g = put2 (f_shape f) a (fst (turn_pair q na nb)) b (snd (turn_pair q na nb)) /\
  (forall idx, length idx = length (f_shape f) ->
     a_at (f_data g) idx =
     a_at (f_data f) (put2 idx a (fst (turn_index q na nb (nth a idx 0%Z) (nth b idx 0%Z)))
                               b (snd (turn_index q na nb (nth a idx 0%Z) (nth b idx 0%Z))))) /\
  (let x := nth a (f_axes f) axis0 in let y := nth b (f_axes f) axis0 in
   f_axes g = put2 (f_axes f) a (fst (rev_axes q x y)) b (snd (rev_axes q x y))) /\
  f_ats g = f_ats f /\ f_tao g = f_tao f /\
  l_name (f_top g) = l_name (f_top f) /\ l_unit (f_top g) = l_unit (f_top f).
Lemma flipped_axes {V} k (f g : field V) : flipped k f g ->
  f_shape g = f_shape f /\ f_axes g = upd (f_axes f) k (axis_rev (nth k (f_axes f) axis0)).
Proof.
  intros ((Hs & _) & (ax & ax' & Eax & Ga & Eax') & _). split; [exact Hs|].
  rewrite (nth_error_some_nth _ _ _ _ Eax), Ga, Eax'. reflexivity.
Qed.
Lemma rot90_zero {V} a b (f : field V) : length (f_axes f) = length (f_shape f) ->
  (a < length (f_shape f))%nat -> (b < length (f_shape f))%nat -> rotated 0 a b f f.
Proof.
  intros La Ha Hb. unfold rotated. cbn [turn_pair turn_index rev_axes fst snd].
  split; [symmetry; now apply put2_id|]. split; [intros idx L; rewrite put2_id by (rewrite L; assumption); reflexivity|].
  split; [symmetry; apply put2_id; now rewrite La|]. auto.
Qed.
Lemma rot90_two {V} a b (f g h : field V) : a <> b -> length (f_axes f) = length (f_shape f) ->
  (a < length (f_shape f))%nat -> (b < length (f_shape f))%nat -> flipped a f g -> flipped b g h -> rotated 2 a b f h.
Proof.
  intros N La Ha Hb Fg Fh. pose proof (flipped_axes _ _ _ Fg) as [Sg Ag]. pose proof (flipped_axes _ _ _ Fh) as [Sh Ah].
  destruct Fg as ((_ & Vg) & _ & G1 & G2 & G3 & G4). destruct Fh as ((_ & Vh) & _ & H1 & H2 & H3 & H4).
  unfold rotated. cbn [turn_pair turn_index rev_axes fst snd].
  split; [rewrite put2_id by assumption; congruence|]. split; [|split; [|split; [congruence|split; [congruence|split; congruence]]]].
  - intros idx L. fold (f_shape f) (f_shape g) in *. rewrite Vh by (rewrite Sg; exact L).
    rewrite Vg by (rewrite upd_length; exact L). f_equal. unfold put2. rewrite (upd_comm _ b a) by congruence.
    rewrite nth_upd_other by exact N. now rewrite Sg.
  - rewrite Ah, Ag. rewrite nth_upd_other by congruence. reflexivity.
Qed.
Lemma transposed_swap {V} a b (f g : field V) : length (f_axes f) = length (f_shape f) ->
  (a < length (f_shape f))%nat -> (b < length (f_shape f))%nat ->
  transposed (swap_perm (length (f_shape f)) a b) f g ->
  f_shape g = put2 (f_shape f) a (nth b (f_shape f) 0%Z) b (nth a (f_shape f) 0%Z) /\
  f_axes g = put2 (f_axes f) a (nth b (f_axes f) axis0) b (nth a (f_axes f) axis0) /\
  forall idx, length idx = length (f_shape f) -> a_at (f_data g) idx = a_at (f_data f) (put2 idx a (nth b idx 0%Z) b (nth a idx 0%Z)).
Proof.
  intros La Ha Hb (D & A & _). split; [|split].
  - unfold f_shape at 1. rewrite D. cbn [nd_transpose a_shape]. now apply permute_swap.
  - rewrite A. rewrite <- La. apply permute_swap; now rewrite La.
  - intros idx L. rewrite D. cbn [nd_transpose a_at]. rewrite <- L. rewrite unpermute_swap by (now rewrite L). reflexivity.
Qed.
Lemma rot90_one {V} a b (f g h : field V) : a <> b -> length (f_axes f) = length (f_shape f) ->
  (a < length (f_shape f))%nat -> (b < length (f_shape f))%nat -> flipped b f g ->
  transposed (swap_perm (length (f_shape f)) a b) g h -> rotated 1 a b f h.
Proof.
  intros N La Ha Hb Fg Th. pose proof (flipped_axes _ _ _ Fg) as [Sg Ag].
  destruct Fg as ((_ & Vg) & _ & G1 & G2 & G3 & G4). pose proof Th as (_ & _ & H1 & H2 & H3 & H4).
  rewrite <- Sg in Th. apply transposed_swap in Th as (Sh & Ah & Vh); try (rewrite Sg; assumption).
  2:{ rewrite Ag, upd_length, Sg. exact La. }
  unfold rotated. cbn [turn_pair turn_index rev_axes fst snd].
  split; [now rewrite Sh, Sg|]. split; [|split; [|split; [congruence|split; [congruence|split; congruence]]]].
  - intros idx L. rewrite Vh by (rewrite Sg; exact L). fold (f_shape f) in Vg. rewrite Vg by (rewrite put2_length; exact L).
    f_equal. unfold put2. rewrite upd_upd. f_equal. rewrite nth_upd_same by (rewrite upd_length, L; exact Hb). reflexivity.
  - rewrite Ah, Ag. rewrite nth_upd_same by (rewrite La; exact Hb). rewrite nth_upd_other by exact N.
    unfold put2. rewrite (upd_comm _ b a) by congruence. now rewrite upd_upd.
Qed.
Lemma rot90_three {V} a b (f g h : field V) : a <> b -> length (f_axes f) = length (f_shape f) ->
  (a < length (f_shape f))%nat -> (b < length (f_shape f))%nat ->
  transposed (swap_perm (length (f_shape f)) a b) f g -> flipped b g h -> rotated 3 a b f h.
Proof.
  intros N La Ha Hb Tg Fh. pose proof (flipped_axes _ _ _ Fh) as [Sh Ah].
  destruct Fh as ((_ & Vh) & _ & G1 & G2 & G3 & G4). pose proof Tg as (_ & _ & H1 & H2 & H3 & H4).
  apply transposed_swap in Tg as (Sg & Ag & Vg); try assumption.
  unfold rotated. cbn [turn_pair turn_index rev_axes fst snd].
  split; [congruence|]. split; [|split; [|split; [congruence|split; [congruence|split; congruence]]]].
  - intros idx L. fold (f_shape g) in Vh. rewrite Vh by (rewrite Sg, put2_length; exact L).
    rewrite Vg by (rewrite upd_length; exact L). f_equal. rewrite Sg, nth_put2 by assumption. rewrite Nat.eqb_refl.
    rewrite nth_upd_same by (rewrite L; exact Hb). rewrite nth_upd_other by exact N. unfold put2.
    rewrite (upd_comm _ b a) by congruence. now rewrite upd_upd.
  - rewrite Ah, Ag. unfold put2 at 2. rewrite nth_upd_same by (rewrite upd_length, La; exact Hb).
    unfold put2. now rewrite upd_upd.
Qed.
Lemma swap_samples {V} a b (f g : field V) : length (f_axes f) = length (f_shape f) ->
  (a < length (f_shape f))%nat -> (b < length (f_shape f))%nat ->
  transposed (swap_perm (length (f_shape f)) a b) f g ->
  forall c v, length c = length (f_shape f) -> (sample g (put2 c a (nth b c 0) b (nth a c 0)) v <-> sample f c v).
Proof.
  intros La Ha Hb (D & A & _) c v L. rewrite <- (permute_swap 0 c a b) by (rewrite L; assumption). rewrite L.
  apply transpose_samples; auto. now apply swap_perm_of.
Qed.
Lemma rot90_total {V} spl (f : field V) k a0 a1 a b : orderly f ->
  py_pos (length (f_shape f)) a0 = Ok a -> py_pos (length (f_shape f)) a1 = Ok b -> a <> b ->
  exists g, field_rot90 spl f k a0 a1 = Ok g /\ rotated (k mod 4) a b f g /\ orderly g /\
    turned_samples (k mod 4) a b f g.
Proof.
  intros Hf Ha Hb N. pose proof (orderly_length f Hf) as La. pose proof Ha as Ha'. pose proof Hb as Hb'.
  apply py_pos_ok in Ha' as [Hla Ha']. apply py_pos_ok in Hb' as [Hlb Hb'].
  unfold field_rot90. destruct (Z.eqb_spec a0 a1) as [|_]; [exfalso; lia|].
  destruct (_ || _)%Z eqn:E.
  { rewrite !orb_true_iff, !Z.leb_le, !Z.ltb_lt in E. lia. }
  clear E. pose proof (Z.mod_pos_bound k 4 ltac:(lia)) as Hk.
  set (n := length (f_shape f)) in *. set (q := (k mod 4)%Z) in *.
  assert (Gz : forall i j, py_pos n i = Ok j -> getidx (zlist n) i = Ok (Z.of_nat j)).
  { intros i j Hj. apply getidx_some. exists j. unfold zlist. rewrite map_length, seq_length. split; [exact Hj|].
    rewrite nth_error_map. apply py_pos_ok in Hj as [Hj _]. rewrite (nth_error_nth' _ 0%nat) by (now rewrite seq_length).
    now rewrite seq_nth by exact Hj. }
  assert (Lz : length (zlist n) = n) by (unfold zlist; now rewrite map_length, seq_length).
  assert (Sz : setidx (zlist n) a0 (Z.of_nat b) = Ok (upd (zlist n) a (Z.of_nat b))) by (unfold setidx; now rewrite Lz, Ha).
  assert (Sz' : setidx (upd (zlist n) a (Z.of_nat b)) a1 (Z.of_nat a) = Ok (map Z.of_nat (swap_perm n a b))).
  { unfold setidx. rewrite upd_length, Lz, Hb. cbn [bind]. unfold swap_perm, put2. rewrite map_upd, zlist_upd. reflexivity. }
  assert (Pm : mapM (py_pos n) (map Z.of_nat (swap_perm n a b)) = Ok (swap_perm n a b))
    by (apply mapM_py_pos_nat; apply swap_perm_of; assumption).
  assert (q = 0 \/ q = 1 \/ q = 2 \/ q = 3)%Z as Hq by lia.
  assert (Tseq : forall g : field V, orderly g -> length (f_shape g) = n ->
    exists h, field_transpose_seq g (map Z.of_nat (swap_perm n a b)) = Ok h /\ transposed (swap_perm n a b) g h /\ orderly h).
  { intros g Hg Lg. unfold field_transpose_seq. rewrite nonempty_dims by apply Hg.
    destruct (Z.eqb_spec (Z.of_nat (length (f_shape g))) 1); [exfalso; lia|].
    apply transpose_total; rewrite ?Lg; auto. now apply swap_perm_of. }
  destruct Hq as [Hq|[Hq|[Hq|Hq]]]; rewrite Hq; cbn [Z.eqb Pos.eqb].
  - exists f. split; [reflexivity|]. split; [now apply rot90_zero|]. split; [exact Hf|].
    intros c v L. cbn [turn_pair fst snd]. rewrite put2_id by (rewrite L; assumption). reflexivity.
  - rewrite (Gz _ _ Ha), (Gz _ _ Hb). cbn [bind]. rewrite Sz. cbn [bind]. rewrite Sz'. cbn [bind].
    destruct (flip_total spl f a1 b Hf Hb) as (g & -> & Fg & Hg). cbn [bind].
    pose proof (flipped_axes _ _ _ Fg) as [Sg _].
    destruct (Tseq g Hg ltac:(now rewrite Sg)) as (h & -> & Th & Hh). exists h. split; [reflexivity|].
    split; [now apply (rot90_one a b f g h)|]. split; [exact Hh|].
    intros c v L. cbn [turn_pair fst snd]. rewrite <- (flip_samples b f g Hf Hlb Fg c v).
    unfold n in Th. rewrite <- Sg in Th. pose proof (orderly_length g Hg).
    apply swap_samples; auto; now rewrite Sg.
  - destruct (flip_total spl f a0 a Hf Ha) as (g & -> & Fg & Hg). cbn [bind]. pose proof (flipped_axes _ _ _ Fg) as [Sg _].
    destruct (flip_total spl g a1 b Hg ltac:(now rewrite Sg)) as (h & -> & Fh & Hh). exists h. split; [reflexivity|].
    split; [now apply (rot90_two a b f g h)|]. split; [exact Hh|].
    intros c v L. cbn [turn_pair fst snd]. rewrite put2_id by (rewrite L; assumption).
    rewrite <- (flip_samples a f g Hf Hla Fg c v). apply (flip_samples b g h Hg); [now rewrite Sg|exact Fh].
  - rewrite (Gz _ _ Ha), (Gz _ _ Hb). cbn [bind]. rewrite Sz. cbn [bind]. rewrite Sz'. cbn [bind].
    destruct (Tseq f Hf eq_refl) as (g & -> & Tg & Hg). cbn [bind].
    assert (Lg : length (f_shape g) = n).
    { pose proof Tg as (D & _). unfold f_shape. rewrite D. cbn [nd_transpose a_shape]. rewrite permute_length. now apply swap_perm_of. }
    destruct (flip_total spl g a1 b Hg ltac:(now rewrite Lg)) as (h & -> & Fh & Hh). exists h. split; [reflexivity|].
    split; [now apply (rot90_three a b f g h)|]. split; [exact Hh|].
    intros c v L. cbn [turn_pair fst snd]. rewrite <- (swap_samples a b f g La Hla Hlb Tg c v L).
    apply (flip_samples b g h Hg); [now rewrite Lg|exact Fh].
Qed.
Lemma axes_same_put2 l a x b y x' y' : axis_same x x' -> axis_same y y' ->
  Forall2 axis_same (put2 l a x b y) (put2 l a x' b y').
Proof. intros H1 H2. unfold put2. apply axes_same_upd; [|exact H2]. apply axes_same_upd; [apply axes_same_refl|exact H1]. Qed.
Definition rotated_like {V} (q : Z) (a b : nat) (f g : field V) : Prop :=
  let na := nth a (f_shape f) 0%Z in let nb := nth b (f_shape f) 0%Z in
  f_shape g = put2 (f_shape f) a (fst (turn_pair q na nb)) b (snd (turn_pair q na nb)) /\
  (forall idx, length idx = length (f_shape f) ->
     a_at (f_data g) idx =
     a_at (f_data f) (put2 idx a (fst (turn_index q na nb (nth a idx 0%Z) (nth b idx 0%Z)))
                               b (snd (turn_index q na nb (nth a idx 0%Z) (nth b idx 0%Z))))) /\
  (let x := nth a (f_axes f) axis0 in let y := nth b (f_axes f) axis0 in
   Forall2 axis_same (f_axes g) (put2 (f_axes f) a (fst (rev_axes q x y)) b (snd (rev_axes q x y)))) /\
  f_ats g = f_ats f /\ f_tao g = f_tao f /\
  l_name (f_top g) = l_name (f_top f) /\ l_unit (f_top g) = l_unit (f_top f).
Lemma rotated_alike {V} q a b (f g : field V) : rotated q a b f g -> rotated_like q a b f g.
Proof.
  intros (H1 & H2 & H3 & H4). split; [exact H1|]. split; [exact H2|]. split; [|exact H4]. cbv zeta in *. rewrite H3. apply axes_same_refl.
Qed.
Lemma axis_same_sym x y : axis_same x y -> axis_same y x.
Proof. intros (? & ? & ? & ? & ? & ? & ?). unfold axis_same. repeat (split; [congruence || now symmetry|]). congruence. Qed.
Lemma axis_same_trans x y z : axis_same x y -> axis_same y z -> axis_same x z.
Proof.
  intros (H1 & H2 & H3 & H4 & H5 & H6 & H7) (K1 & K2 & K3 & K4 & K5 & K6 & K7).
  split; [congruence|]. split; [congruence|]. split; [congruence|]. split; [congruence|].
  split; [now rewrite H5|]. split; [now rewrite H6|congruence].
Qed.
Lemma axes_same_trans l m r : Forall2 axis_same l m -> Forall2 axis_same m r -> Forall2 axis_same l r.
Proof.
  intros H. revert r. induction H; intros r K; inversion K; subst; constructor; eauto using axis_same_trans.
Qed.
Lemma axes_same_sym l m : Forall2 axis_same l m -> Forall2 axis_same m l.
Proof. induction 1; constructor; auto using axis_same_sym. Qed.
Lemma axis_rev_same x y : axis_same x y -> axis_rev x = axis_rev y.
Proof. intros (H1 & H2 & H3 & H4 & _). unfold axis_rev. now rewrite H1, H2, H3, H4. Qed.
Lemma axes_same_nth l m k : Forall2 axis_same l m -> axis_same (nth k l axis0) (nth k m axis0).
Proof. intro H. revert k. induction H; intros [|k]; cbn; auto using axis_same_refl. Qed.
Lemma axes_same_put l m a x b y x' y' : Forall2 axis_same l m -> axis_same x x' -> axis_same y y' ->
  Forall2 axis_same (put2 l a x b y) (put2 m a x' b y').
Proof. intros H H1 H2. unfold put2. apply axes_same_upd; [|exact H2]. now apply axes_same_upd. Qed.
Lemma rev_axes_same q x y x' y' : axis_same x x' -> axis_same y y' ->
  axis_same (fst (rev_axes q x y)) (fst (rev_axes q x' y')) /\ axis_same (snd (rev_axes q x y)) (snd (rev_axes q x' y')).
Proof.
  intros Hx Hy. pose proof (axis_rev_same _ _ Hx) as Rx. pose proof (axis_rev_same _ _ Hy) as Ry.
  unfold rev_axes. destruct q as [|[[|[]|]|[[]|[]|]|]|]; cbn [fst snd]; rewrite ?Rx, ?Ry; split; auto using axis_same_refl.
Qed.
Lemma rotated_compose {V} q r a b (f g h : field V) : (0 <= q < 4)%Z -> (0 <= r < 4)%Z ->
  a <> b -> length (f_axes f) = length (f_shape f) ->
  (a < length (f_shape f))%nat -> (b < length (f_shape f))%nat -> Forall axis_proper (f_axes f) ->
  rotated_like q a b f g -> rotated_like r a b g h -> rotated_like ((q + r) mod 4) a b f h.
Proof.
  intros Hq Hr N La Ha Hb Hp (Sg & Vg & Ag & G1 & G2 & G3 & G4) (Sh & Vh & Ah & H1 & H2 & H3 & H4). cbv zeta in *.
  set (na := nth a (f_shape f) 0%Z) in *. set (nb := nth b (f_shape f) 0%Z) in *.
  set (x := nth a (f_axes f) axis0) in *. set (y := nth b (f_axes f) axis0) in *.
  assert (Px : axis_proper x) by (rewrite Forall_forall in Hp; apply Hp, nth_In; lia).
  assert (Py : axis_proper y) by (rewrite Forall_forall in Hp; apply Hp, nth_In; lia).
  rewrite Sg in Sh, Vh. rewrite put2_length in Vh.
  assert (Nb : Nat.eqb a b = false) by (now apply Nat.eqb_neq).
  assert (Nx : axis_same (nth a (f_axes g) axis0) (fst (rev_axes q x y))).
  { eapply axis_same_trans; [apply axes_same_nth, Ag|]. rewrite nth_put2 by (now rewrite La). rewrite Nb, Nat.eqb_refl. apply axis_same_refl. }
  assert (Ny : axis_same (nth b (f_axes g) axis0) (snd (rev_axes q x y))).
  { eapply axis_same_trans; [apply axes_same_nth, Ag|]. rewrite nth_put2 by (now rewrite La). rewrite Nat.eqb_refl. apply axis_same_refl. }
  destruct (rev_axes_same r _ _ _ _ Nx Ny) as [Rx Ry].
  assert (Ah' := axes_same_trans _ _ _ Ah (axes_same_put _ _ a _ b _ _ _ Ag Rx Ry)). rewrite put2_put2 in Ah' by exact N.
  rewrite !nth_put2 in Sh by assumption. rewrite !Nat.eqb_refl, Nb, put2_put2 in Sh by exact N.
  assert (Cq : (q = 0 \/ q = 1 \/ q = 2 \/ q = 3)%Z) by lia. assert (Cr : (r = 0 \/ r = 1 \/ r = 2 \/ r = 3)%Z) by lia.
  unfold rotated_like. fold na nb x y. cbv zeta.
  split; [|split; [|split; [|split; [congruence|split; [congruence|split; congruence]]]]].
  - rewrite Sh. destruct Cq as [->|[->|[->| ->]]]; destruct Cr as [->|[->|[->| ->]]]; reflexivity.
  - intros idx L. rewrite Vh by exact L. rewrite Vg by (rewrite put2_length; exact L).
    rewrite !nth_put2 by (rewrite ?L; assumption). rewrite !Nat.eqb_refl, Nb, put2_put2 by exact N. f_equal.
    destruct Cq as [->|[->|[->| ->]]]; destruct Cr as [->|[->|[->| ->]]]; cbn [turn_index turn_pair fst snd];
      match goal with |- context [((?u + ?v) mod 4)%Z] => let w := eval vm_compute in ((u + v) mod 4)%Z in change ((u + v) mod 4)%Z with w end;
      cbn [turn_index turn_pair fst snd]; f_equal; try f_equal; lia.
  - eapply axes_same_trans; [exact Ah'|].
    destruct Cq as [->|[->|[->| ->]]]; destruct Cr as [->|[->|[->| ->]]];
      match goal with |- context [((?u + ?v) mod 4)%Z] => let w := eval vm_compute in ((u + v) mod 4)%Z in change ((u + v) mod 4)%Z with w end;
      cbn [rev_axes fst snd]; apply axes_same_put2; auto using axis_same_refl, axis_rev_rev.
Qed.
Lemma rotated_same {V} q a b (f h h' : field V) : rotated_like q a b f h -> rotated_like q a b f h' -> field_same h h'.
Proof.
  intros (Sh & Vh & Ah & H1 & H2 & H3 & H4) (Sh' & Vh' & Ah' & I1 & I2 & I3 & I4). cbv zeta in *.
  split; [split; [exact (eq_trans Sh (eq_sym Sh'))|]|split; [|split; [congruence|split; [congruence|split; congruence]]]].
  - intros idx Hi. apply in_shape_length in Hi. change (a_shape (f_data h)) with (f_shape h) in Hi.
    rewrite Sh, put2_length in Hi. rewrite Vh, Vh' by exact Hi. reflexivity.
  - exact (axes_same_trans _ _ _ Ah (axes_same_sym _ _ Ah')).
Qed.

Lemma rev_axes_turn q x y : axis_proper x -> axis_proper y ->
  axis_same (fst (rev_axes q x y)) (fst (turn_axes q x y)) /\ axis_same (snd (rev_axes q x y)) (snd (turn_axes q x y)).
Proof.
  intros Hx Hy. unfold rev_axes, turn_axes.
  destruct q as [|[[|[]|]|[[]|[]|]|]|]; cbn [fst snd]; split; auto using axis_same_refl, axis_rev_back.
Qed.
Lemma rotated_turn_axes {V} q a b (f g : field V) : orderly f -> (a < length (f_shape f))%nat -> (b < length (f_shape f))%nat ->
  rotated q a b f g ->
  Forall2 axis_same (f_axes g)
    (put2 (f_axes f) a (fst (turn_axes q (nth a (f_axes f) axis0) (nth b (f_axes f) axis0)))
                     b (snd (turn_axes q (nth a (f_axes f) axis0) (nth b (f_axes f) axis0)))).
Proof.
  intros Hf Ha Hb (_ & _ & A & _). cbv zeta in A. rewrite A. pose proof (orderly_length f Hf) as La.
  destruct Hf as (_ & _ & Hp & _). rewrite Forall_forall in Hp.
  apply axes_same_put2; apply rev_axes_turn; apply Hp, nth_In; lia.
Qed.
Lemma rot90_add {V} spl (f : field V) k l a0 a1 a b : orderly f ->
  py_pos (length (f_shape f)) a0 = Ok a -> py_pos (length (f_shape f)) a1 = Ok b -> a <> b ->
  exists g h h', field_rot90 spl f k a0 a1 = Ok g /\ field_rot90 spl g l a0 a1 = Ok h /\
    field_rot90 spl f (k + l) a0 a1 = Ok h' /\ field_same h h'.
Proof.
  intros Hf Ha Hb N. destruct (rot90_total spl f k a0 a1 a b Hf Ha Hb N) as (g & E & R & Hg & _).
  assert (L : length (f_shape g) = length (f_shape f)) by (destruct R as (-> & _); apply put2_length).
  destruct (rot90_total spl g l a0 a1 a b Hg ltac:(now rewrite L) ltac:(now rewrite L) N) as (h & E' & R' & _).
  destruct (rot90_total spl f (k + l) a0 a1 a b Hf Ha Hb N) as (h' & E'' & R'' & _).
  exists g, h, h'. repeat (split; [assumption|]).
  apply py_pos_ok in Ha as [Ha _]. apply py_pos_ok in Hb as [Hb _]. apply rotated_alike in R, R', R''.
  apply (rotated_same ((k + l) mod 4) a b f); [|exact R'']. rewrite Zplus_mod. pose proof (orderly_length f Hf).
  apply (rotated_compose (k mod 4) (l mod 4) a b f g h); auto; try (apply Z.mod_pos_bound; lia). apply Hf.
Qed.
Lemma rot90_mod4 {V} spl (f : field V) k l a0 a1 : (k mod 4 = l mod 4)%Z -> field_rot90 spl f k a0 a1 = field_rot90 spl f l a0 a1.
Proof. intro H. unfold field_rot90. now rewrite H. Qed.
Lemma turn_times_total {V} spl n (f f0 : field V) q k a0 a1 a b : orderly f0 -> orderly f ->
  py_pos (length (f_shape f0)) a0 = Ok a -> py_pos (length (f_shape f0)) a1 = Ok b -> a <> b ->
  rotated_like (q mod 4) a b f0 f ->
  exists g, turn_times spl n k a0 a1 f = Ok g /\ orderly g /\ rotated_like ((q + Z.of_nat n * k) mod 4) a b f0 g.
Proof.
  revert f q. induction n as [|n IH]; intros f q H0 Hf Ha Hb N R.
  - exists f. split; [reflexivity|]. split; [exact Hf|]. now rewrite Z.add_0_r.
  - assert (L : length (f_shape f) = length (f_shape f0)) by (destruct R as (-> & _); apply put2_length).
    destruct (rot90_total spl f k a0 a1 a b Hf ltac:(now rewrite L) ltac:(now rewrite L) N) as (g & E & R' & Hg & _).
    cbn [turn_times]. rewrite E. cbn [bind]. pose proof Ha as Ha'. pose proof Hb as Hb'.
    apply py_pos_ok in Ha' as [Ha' _]. apply py_pos_ok in Hb' as [Hb' _]. apply rotated_alike in R'.
    pose proof (orderly_length f0 H0).
    assert (R2 : rotated_like ((q + k) mod 4) a b f0 g).
    { rewrite Zplus_mod. apply (rotated_compose (q mod 4) (k mod 4) a b f0 f g); auto; try (apply Z.mod_pos_bound; lia). apply H0. }
    destruct (IH g (q + k)%Z H0 Hg Ha Hb N R2) as (h & Eh & Hh & R3). exists h. split; [exact Eh|]. split; [exact Hh|].
    replace (q + Z.of_nat (S n) * k)%Z with (q + k + Z.of_nat n * k)%Z by lia. exact R3.
Qed.
Lemma rot90_times {V} spl (f : field V) n k a0 a1 a b : orderly f ->
  py_pos (length (f_shape f)) a0 = Ok a -> py_pos (length (f_shape f)) a1 = Ok b -> a <> b ->
  exists g h, turn_times spl n k a0 a1 f = Ok g /\ field_rot90 spl f (Z.of_nat n * k) a0 a1 = Ok h /\ field_same g h.
Proof.
  intros Hf Ha Hb N. pose proof Ha as Ha'. pose proof Hb as Hb'.
  apply py_pos_ok in Ha' as [Ha' _]. apply py_pos_ok in Hb' as [Hb' _]. pose proof (orderly_length f Hf) as La.
  destruct (turn_times_total spl n f f 0 k a0 a1 a b Hf Hf Ha Hb N) as (g & E & Hg & R);
    [apply rotated_alike, (rot90_zero a b f La Ha' Hb')|].
  destruct (rot90_total spl f (Z.of_nat n * k) a0 a1 a b Hf Ha Hb N) as (h & E' & R' & _).
  exists g, h. split; [exact E|]. split; [exact E'|]. apply rotated_alike in R'. exact (rotated_same _ _ _ _ _ _ R R').
Qed.
Lemma rot90_four {V} spl (f : field V) a0 a1 a b : orderly f ->
  py_pos (length (f_shape f)) a0 = Ok a -> py_pos (length (f_shape f)) a1 = Ok b -> a <> b ->
  exists g, turn_times spl 4 1 a0 a1 f = Ok g /\ field_same g f.
Proof.
  intros Hf Ha Hb N. destruct (rot90_times spl f 4 1 a0 a1 a b Hf Ha Hb N) as (g & h & E & E' & S).
  exists g. split; [exact E|]. destruct (rot90_total spl f (Z.of_nat 4 * 1) a0 a1 a b Hf Ha Hb N) as (h' & E'' & R & _).
  rewrite E' in E''. injection E'' as <-.
  pose proof Ha as Ha'. pose proof Hb as Hb'. apply py_pos_ok in Ha' as [Ha' _]. apply py_pos_ok in Hb' as [Hb' _].
  pose proof (rot90_zero a b f (orderly_length f Hf) Ha' Hb') as R0.
  destruct (turn_times_total spl 4 f f 0 1 a0 a1 a b Hf Hf Ha Hb N) as (g' & Eg & _ & R4); [now apply rotated_alike|].
  rewrite E in Eg. injection Eg as <-. apply rotated_alike in R0. exact (rotated_same _ _ _ _ _ _ R4 R0).
Qed.
