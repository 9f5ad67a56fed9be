(** Proofs about the axis model. *)
From Coq Require Import Lia Lqa ZifyBool ZifyNat Qround.
From Verif Require Import PyBase PyBaseFacts NumpyModel NumpyFacts AxisModel AxisSpec.

(** * Sublists *)
Lemma sublist_length {A} i j (l : list A) :
  (j <= length l)%nat -> length (sublist i j l) = (j - i)%nat.
Proof.
  intro H. unfold sublist. rewrite firstn_length, skipn_length. lia.
Qed.
Lemma nth_skipn {A} (l : list A) a k d : nth k (skipn a l) d = nth (a + k) l d.
Proof.
  revert l; induction a as [|a IH]; intros l; simpl; [reflexivity|].
  destruct l; simpl; [now destruct k|apply IH].
Qed.
Lemma nth_firstn {A} (l : list A) n k d : (k < n)%nat -> nth k (firstn n l) d = nth k l d.
Proof.
  revert l k; induction n as [|n IH]; intros l k H; [lia|].
  destruct l; [now destruct k|]. destruct k; [reflexivity|]. simpl. apply IH. lia.
Qed.
Lemma nth_sublist {A} i j (l : list A) k d :
  (k < j - i)%nat -> nth k (sublist i j l) d = nth (i + k) l d.
Proof. intro H. unfold sublist. rewrite nth_firstn by exact H. apply nth_skipn. Qed.
Lemma sublist_all {A} (l : list A) : sublist 0 (length l) l = l.
Proof. unfold sublist. rewrite Nat.sub_0_r. simpl. apply firstn_all. Qed.

(** the adjusted, non negative bounds of a forward slice *)
Definition lo_bound (len : nat) (s : option Z) : nat :=
  match s with None => 0%nat | Some v => Z.to_nat (adjust_bound (Z.of_nat len) 1 v) end.
Definition hi_bound (len : nat) (s : option Z) : nat :=
  match s with None => len | Some v => Z.to_nat (adjust_bound (Z.of_nat len) 1 v) end.

Lemma adjust_bound_nonneg len v :
  (0 <= v)%Z -> adjust_bound (Z.of_nat len) 1 v = Z.min v (Z.of_nat len).
Proof.
  intro H. unfold adjust_bound. change (1 <? 0)%Z with false. cbv iota.
  destruct (Z.ltb_spec v 0); [lia|]. destruct (Z.leb_spec (Z.of_nat len) v); lia.
Qed.
Lemma adjust_bound_negv len v :
  (v < 0)%Z -> adjust_bound (Z.of_nat len) 1 v = Z.max 0 (v + Z.of_nat len).
Proof.
  intro H. unfold adjust_bound. change (1 <? 0)%Z with false. cbv iota.
  destruct (Z.ltb_spec v 0); [|lia]. destruct (Z.ltb_spec (v + Z.of_nat len) 0); lia.
Qed.
Lemma lo_bound_le len s : (lo_bound len s <= len)%nat.
Proof. destruct s as [v|]; simpl; [|lia]. pose proof (adjust_bound_pos (Z.of_nat len) 1 v). lia. Qed.
Lemma hi_bound_le len s : (hi_bound len s <= len)%nat.
Proof. destruct s as [v|]; simpl; [|lia]. pose proof (adjust_bound_pos (Z.of_nat len) 1 v). lia. Qed.

Lemma getslice_fwd {A} (l : list A) st sp step :
  step = None \/ step = Some 1%Z ->
  getslice l (mkslice st sp step) =
  Ok (sublist (lo_bound (length l) st) (hi_bound (length l) sp) l).
Proof.
  intros Hstep.
  assert (E : slice_indices (mkslice st sp step) (Z.of_nat (length l)) =
              Ok (Z.of_nat (lo_bound (length l) st), Z.of_nat (hi_bound (length l) sp), 1%Z)).
  { unfold slice_indices. simpl s_step. simpl s_start. simpl s_stop.
    destruct Hstep as [-> | ->]; simpl;
    (f_equal; f_equal; f_equal; [destruct st as [v|] | destruct sp as [v|]]; simpl lo_bound; simpl hi_bound;
     try (pose proof (adjust_bound_pos (Z.of_nat (length l)) 1 v); lia); lia). }
  unfold getslice. rewrite E. cbn [bind]. f_equal.
  rewrite take_idx_range1.
  - unfold sublist. f_equal; [lia|]. f_equal. lia.
  - lia.
  - pose proof (hi_bound_le (length l) sp). lia.
Qed.

(** * The constructor on explicit grid and nodes *)
Lemma cells_up_sincr_node node grid : cells_up node grid -> sincr node.
Proof.
  intros [Hl H]. apply sincr_step. intros i Hi. destruct (H i) as [H1 H2]; [lia|]. lra.
Qed.
Lemma cells_up_sincr_grid node grid : cells_up node grid -> sincr grid.
Proof.
  intros [Hl H]. apply sincr_step. intros i Hi.
  destruct (H i) as [H1 H2]; [lia|]. destruct (H (S i)) as [H3 H4]; [lia|]. lra.
Qed.
Lemma cells_down_sdecr_node node grid : cells_down node grid -> sdecr node.
Proof.
  intros [Hl H]. apply sdecr_step. intros i Hi. destruct (H i) as [H1 H2]; [lia|]. lra.
Qed.
Lemma cells_down_sdecr_grid node grid : cells_down node grid -> sdecr grid.
Proof.
  intros [Hl H]. apply sdecr_step. intros i Hi.
  destruct (H i) as [H1 H2]; [lia|]. destruct (H (S i)) as [H3 H4]; [lia|]. lra.
Qed.

Definition made (nm un : string) (gn g : list Q) : axis :=
  mkAxis nm un gn g (nth 0 gn 0, nth (length g) gn 0) (Z.of_nat (length g)).

Lemma last_nth_len (gn g : list Q) d :
  length gn = S (length g) -> last gn d = nth (length g) gn 0.
Proof.
  intro H. rewrite last_nth, H. simpl. rewrite Nat.sub_0_r. apply nth_indep. lia.
Qed.

Lemma check_compatible_ok_above gn g :
  length gn = S (length g) ->
  (forall i, (i < length g)%nat -> nth i gn 0 < nth i g 0) ->
  check_compatible g gn = Ok tt.
Proof.
  intros Hl H. unfold check_compatible.
  rewrite np_broadcast2_same by (rewrite length_removelast; lia). simpl.
  assert (HL : length g = length (removelast gn)) by (rewrite length_removelast; lia).
  rewrite (proj2 (np_all_map2_iff _ _ _ HL)); [reflexivity|].
  intros i Hi. rewrite nth_removelast by lia. apply Qltb_lt. now apply H.
Qed.
Lemma check_compatible_ok_below gn g :
  length gn = S (length g) ->
  (exists i, (i < length g)%nat /\ nth (S i) gn 0 <= nth i g 0) ->
  check_compatible g gn = Ok tt.
Proof.
  intros Hl (i & Hi & H). unfold check_compatible.
  rewrite np_broadcast2_same by (rewrite length_removelast; lia). simpl.
  destruct (np_all _); [reflexivity|].
  simpl. rewrite np_broadcast2_same by (rewrite length_tl; lia). simpl.
  destruct (np_all (map2 _ g (tl gn))) eqn:E; [|reflexivity].
  rewrite np_all_map2_iff in E by (rewrite length_tl; lia).
  specialize (E i Hi). rewrite nth_tl in E. apply Qltb_lt in E. lra.
Qed.
Lemma check_compatible_inv gn g :
  length gn = S (length g) -> check_compatible g gn = Ok tt ->
  (forall i, (i < length g)%nat -> nth i gn 0 < nth i g 0) \/
  (exists i, (i < length g)%nat /\ nth (S i) gn 0 <= nth i g 0).
Proof.
  intros Hl. unfold check_compatible.
  rewrite np_broadcast2_same by (rewrite length_removelast; lia). simpl.
  destruct (np_all _) eqn:E; simpl.
  - intros _. left. rewrite np_all_map2_iff in E by (rewrite length_removelast; lia).
    intros i Hi. specialize (E i Hi). rewrite nth_removelast in E by lia. now apply Qltb_lt.
  - rewrite np_broadcast2_same by (rewrite length_tl; lia). simpl.
    destruct (np_all (map2 _ g (tl gn))) eqn:E'; [discriminate|]. intros _. right.
    assert (Hex : exists i, (i < length g)%nat /\ (nth i g 0 <?q nth (S i) gn 0) = false).
    { clear E. assert (Hl' : length g = length (tl gn)) by (rewrite length_tl; lia).
      destruct (existsb (fun i => negb (nth i g 0 <?q nth (S i) gn 0)) (seq 0 (length g))) eqn:X.
      - apply existsb_exists in X as (i & Hi & Hb). apply in_seq in Hi.
        exists i. split; [lia|]. now apply negb_true_iff.
      - exfalso. assert (np_all (map2 (fun g0 x => g0 <?q x) g (tl gn)) = true); [|congruence].
        apply np_all_map2_iff; [exact Hl'|]. intros i Hi. rewrite nth_tl.
        destruct (nth i g 0 <?q nth (S i) gn 0) eqn:Y; [reflexivity|].
        assert (existsb (fun i => negb (nth i g 0 <?q nth (S i) gn 0)) (seq 0 (length g)) = true);
          [|congruence].
        apply existsb_exists. exists i. split; [apply in_seq; lia|]. now rewrite Y. }
    destruct Hex as (i & Hi & Hb). exists i. split; [exact Hi|]. now apply Qltb_nlt.
Qed.

Lemma mk_axis_explicit spl nm un gn g :
  length gn = S (length g) ->
  negb (monotonicity gn =? 0)%Z = true -> negb (monotonicity g =? 0)%Z = true ->
  check_compatible g gn = Ok tt ->
  mk_axis spl nm un (Some gn) (Some g) None None = Ok (made nm un gn g).
Proof.
  intros Hl Hn Hg Hc. unfold mk_axis. cbn [check_monotone].
  rewrite Hn, Hg. cbn [guard bind]. rewrite Hc. cbn [bind].
  destruct gn as [|gn0 gn']; [simpl in Hl; lia|].
  rewrite (last_nth_len (gn0 :: gn') g gn0 Hl). reflexivity.
Qed.
Lemma mk_axis_up spl nm un gn g :
  cells_up gn g -> mk_axis spl nm un (Some gn) (Some g) None None = Ok (made nm un gn g).
Proof.
  intros H. pose proof H as [Hl Hc]. apply mk_axis_explicit; [exact Hl|..].
  - apply sincr_monotone. eapply cells_up_sincr_node; exact H.
  - apply sincr_monotone. eapply cells_up_sincr_grid; exact H.
  - apply check_compatible_ok_above; [exact Hl|]. intros i Hi. apply Hc, Hi.
Qed.
Lemma mk_axis_down spl nm un gn g :
  cells_down gn g -> mk_axis spl nm un (Some gn) (Some g) None None = Ok (made nm un gn g).
Proof.
  intros H. pose proof H as [Hl Hc]. apply mk_axis_explicit; [exact Hl|..].
  - apply sdecr_monotone. eapply cells_down_sdecr_node; exact H.
  - apply sdecr_monotone. eapply cells_down_sdecr_grid; exact H.
  - destruct g as [|g0 g'].
    + apply check_compatible_ok_above; [exact Hl|]. simpl. intros; lia.
    + apply check_compatible_ok_below; [exact Hl|]. exists 0%nat. split; [simpl; lia|].
      destruct (Hc 0%nat ltac:(simpl; lia)). lra.
Qed.

Lemma made_describes nm un gn g : describes (made nm un gn g).
Proof. unfold describes, made; simpl. repeat split; reflexivity. Qed.
Lemma made_up nm un gn g : cells_up gn g -> axis_up (made nm un gn g).
Proof. intro H. split; [exact H|apply made_describes]. Qed.
Lemma made_down nm un gn g : cells_down gn g -> axis_down (made nm un gn g).
Proof. intro H. split; [exact H|apply made_describes]. Qed.
Lemma made_proper nm un gn g :
  cells_up gn g \/ cells_down gn g -> axis_proper (made nm un gn g).
Proof. intros [H|H]; [left; now apply made_up|right; now apply made_down]. Qed.

Lemma proper_cells ax : axis_proper ax ->
  cells_up (ax_node ax) (ax_grid ax) \/ cells_down (ax_node ax) (ax_grid ax).
Proof. intros [[H _]|[H _]]; auto. Qed.
Lemma proper_describes ax : axis_proper ax -> describes ax.
Proof. intros [[_ H]|[_ H]]; exact H. Qed.
Lemma proper_length ax : axis_proper ax -> length (ax_node ax) = S (length (ax_grid ax)).
Proof. intros [[[H _] _]|[[H _] _]]; exact H. Qed.
Lemma mk_axis_cells spl nm un gn g :
  cells_up gn g \/ cells_down gn g ->
  mk_axis spl nm un (Some gn) (Some g) None None = Ok (made nm un gn g).
Proof. intros [H|H]; [now apply mk_axis_up|now apply mk_axis_down]. Qed.

(** * Slicing (C06) *)
Lemma cells_up_sublist gn g i j :
  (i <= j)%nat -> (j <= length g)%nat -> cells_up gn g ->
  cells_up (sublist i (S j) gn) (sublist i j g).
Proof.
  intros Hij Hj [Hl H]. split.
  - rewrite !sublist_length by lia. lia.
  - intros k Hk. rewrite sublist_length in Hk by lia. rewrite !nth_sublist by lia.
    rewrite <- plus_n_Sm. apply H. lia.
Qed.
Lemma cells_down_sublist gn g i j :
  (i <= j)%nat -> (j <= length g)%nat -> cells_down gn g ->
  cells_down (sublist i (S j) gn) (sublist i j g).
Proof.
  intros Hij Hj [Hl H]. split.
  - rewrite !sublist_length by lia. lia.
  - intros k Hk. rewrite sublist_length in Hk by lia. rewrite !nth_sublist by lia.
    rewrite <- plus_n_Sm. apply H. lia.
Qed.
Lemma cells_sublist gn g i j :
  (i <= j)%nat -> (j <= length g)%nat -> cells_up gn g \/ cells_down gn g ->
  cells_up (sublist i (S j) gn) (sublist i j g) \/ cells_down (sublist i (S j) gn) (sublist i j g).
Proof.
  intros Hi Hj [H|H]; [left; now apply cells_up_sublist|right; now apply cells_down_sublist].
Qed.

Lemma node_slice_lo len st sp step :
  (match st with Some s => (0 <= s <= Z.of_nat len)%Z | None => True end) ->
  lo_bound (S len) (s_start (node_slice (mkslice st sp step))) = lo_bound len st.
Proof.
  destruct st as [s|]; cbn [s_start s_stop s_step node_slice lo_bound]; [|reflexivity]. intros Hs.
  destruct (Z.eqb_spec s 0) as [->|]; cbn [lo_bound].
  - rewrite adjust_bound_nonneg by lia. lia.
  - rewrite !adjust_bound_nonneg by lia. lia.
Qed.
Lemma node_slice_hi len st sp step :
  step = None \/ step = Some 1%Z ->
  (0 < hi_bound len sp)%nat ->
  hi_bound (S len) (s_stop (node_slice (mkslice st sp step))) = S (hi_bound len sp).
Proof.
  intros Hstep. destruct sp as [s|]; cbn [s_start s_stop s_step node_slice hi_bound]; [|reflexivity].
  replace (match step with Some st0 => if (st0 =? -1)%Z then (-1)%Z else 1%Z | None => 1%Z end)
    with 1%Z by (destruct Hstep as [-> | ->]; reflexivity).
  destruct (Z.ltb_spec 0 s); cbn [hi_bound].
  - rewrite !adjust_bound_nonneg by lia. lia.
  - destruct (Z.eq_dec s 0) as [->|].
    + rewrite adjust_bound_nonneg by lia. lia.
    + intro Hpos. rewrite adjust_bound_negv in * by lia. rewrite adjust_bound_negv in * by lia.
      rewrite ?Nat2Z.inj_succ in *. lia.
Qed.

Definition start_ok (len : nat) (st : option Z) : Prop :=
  match st with Some s => (0 <= s <= Z.of_nat len)%Z | None => True end.

Lemma axis_slice_fwd spl ax st sp step :
  axis_proper ax -> step = None \/ step = Some 1%Z ->
  start_ok (length (ax_grid ax)) st ->
  let i := lo_bound (length (ax_grid ax)) st in
  let j := hi_bound (length (ax_grid ax)) sp in
  (i <= j)%nat -> (0 < j)%nat ->
  axis_slice spl ax (mkslice st sp step) =
    Ok (made (ax_name ax) (ax_unit ax) (sublist i (S j) (ax_node ax)) (sublist i j (ax_grid ax))).
Proof.
  intros Hp Hstep Hst i j Hij Hj. unfold axis_slice.
  assert (Hok : match s_step (mkslice st sp step) with None => true | Some s => (Z.abs s =? 1)%Z end = true)
    by (simpl; destruct Hstep as [-> | ->]; reflexivity).
  rewrite Hok. cbn [negb]. rewrite getslice_fwd by exact Hstep. cbn [bind].
  set (ns := node_slice (mkslice st sp step)).
  assert (Ens : ns = mkslice (s_start ns) (s_stop ns) None) by reflexivity.
  rewrite Ens. rewrite getslice_fwd by auto. cbn [bind].
  rewrite (proper_length ax Hp).
  unfold ns. rewrite (node_slice_lo (length (ax_grid ax)) st sp step Hst).
  rewrite (node_slice_hi (length (ax_grid ax)) st sp step Hstep Hj).
  fold i j. apply mk_axis_cells. apply cells_sublist; [exact Hij| |now apply proper_cells].
  apply hi_bound_le.
Qed.

Lemma axis_slice_fwd_full spl ax st sp step :
  axis_proper ax -> step = None \/ step = Some 1%Z ->
  start_ok (length (ax_grid ax)) st ->
  let i := lo_bound (length (ax_grid ax)) st in
  let j := hi_bound (length (ax_grid ax)) sp in
  (i <= j)%nat -> (0 < j)%nat ->
  exists r, axis_slice spl ax (mkslice st sp step) = Ok r /\
    getslice (ax_grid ax) (mkslice st sp step) = Ok (ax_grid r) /\
    ax_node r = sublist i (S j) (ax_node ax) /\
    ax_name r = ax_name ax /\ ax_unit r = ax_unit ax /\
    axis_proper r.
Proof.
  intros Hp Hstep Hst i j Hij Hj.
  eexists. split; [now apply axis_slice_fwd|].
  split; [cbn [made ax_grid]; now apply getslice_fwd|].
  split; [reflexivity|]. split; [reflexivity|]. split; [reflexivity|].
  apply made_proper. apply cells_sublist; [exact Hij|apply hi_bound_le|now apply proper_cells].
Qed.

Lemma mk_axis_no_nodes spl nm un g ext n a :
  mk_axis spl nm un (Some []) g ext n = Ok a -> False.
Proof.
  unfold mk_axis. intro H. apply bind_ok in H as (u & _ & H). apply bind_ok in H as (u' & _ & H).
  cbn [bind] in H. apply bind_ok in H as (g' & _ & H). discriminate H.
Qed.

Lemma sublist_empty {A} i j (l : list A) : (j <= i)%nat -> sublist i j l = [].
Proof. intro H. unfold sublist. replace (j - i)%nat with 0%nat by lia. reflexivity. Qed.

(** Whenever slicing with a non-negative start succeeds the result is right. *)
Lemma axis_slice_sound spl ax st sp step r :
  axis_proper ax -> step = None \/ step = Some 1%Z ->
  (match st with Some s => (0 <= s)%Z | None => True end) ->
  axis_slice spl ax (mkslice st sp step) = Ok r ->
  let i := lo_bound (length (ax_grid ax)) st in
  let j := hi_bound (length (ax_grid ax)) sp in
  (i <= j)%nat /\
  getslice (ax_grid ax) (mkslice st sp step) = Ok (ax_grid r) /\
  ax_node r = sublist i (S j) (ax_node ax) /\
  ax_name r = ax_name ax /\ ax_unit r = ax_unit ax /\ axis_proper r.
Proof.
  intros Hp Hstep Hst H i j. unfold axis_slice in H.
  assert (Hok : match s_step (mkslice st sp step) with None => true | Some s => (Z.abs s =? 1)%Z end = true)
    by (simpl; destruct Hstep as [-> | ->]; reflexivity).
  rewrite Hok in H. cbn [negb] in H. rewrite getslice_fwd in H by exact Hstep. cbn [bind] in H.
  set (ns := node_slice (mkslice st sp step)) in H.
  assert (Ens : ns = mkslice (s_start ns) (s_stop ns) None) by reflexivity.
  rewrite Ens in H. rewrite getslice_fwd in H by auto. cbn [bind] in H.
  rewrite (proper_length ax Hp) in H.
  set (len := length (ax_grid ax)) in *.
  set (lo' := lo_bound (S len) (s_start ns)) in *.
  set (hi' := hi_bound (S len) (s_stop ns)) in *.
  assert (Hne : (lo' < hi')%nat).
  { destruct (le_lt_dec hi' lo') as [Hle|Hlt]; [|exact Hlt]. exfalso.
    rewrite (sublist_empty lo' hi') in H by exact Hle. eapply mk_axis_no_nodes; exact H. }
  assert (Hhi' : (hi' <= S len)%nat) by apply hi_bound_le.
  (* start *)
  assert (Hs : start_ok len st).
  { destruct st as [s|]; [|exact I]. simpl. split; [exact Hst|].
    destruct (Z_le_gt_dec s (Z.of_nat len)) as [|Hgt]; [assumption|]. exfalso.
    assert (lo' = S len); [|lia]. unfold lo', ns. cbn [s_start node_slice].
    destruct (Z.eqb_spec s 0); [lia|]. cbn [lo_bound]. rewrite adjust_bound_nonneg by lia. lia. }
  assert (Hlo : lo' = i).
  { unfold lo', ns. rewrite (node_slice_lo len st sp step Hs). reflexivity. }
  assert (Hhi : hi' = S j).
  { destruct (Nat.eq_dec j 0) as [Hj0|Hj0].
    - unfold j in *. destruct sp as [s|]; [|simpl in *; lia].
      unfold hi', ns in *. cbn [s_stop node_slice s_step] in *.
      destruct (Z.ltb_spec 0 s) as [Hs0|Hs0].
      + cbn [hi_bound] in Hj0. rewrite adjust_bound_nonneg in Hj0 by lia.
        cbn [hi_bound] in *.
        replace (match step with Some st0 => if (st0 =? -1)%Z then (-1)%Z else 1%Z | None => 1%Z end)
          with 1%Z in * by (destruct Hstep as [-> | ->]; reflexivity).
        rewrite (adjust_bound_nonneg len) by lia. rewrite (adjust_bound_nonneg (S len)) by lia. lia.
      + destruct (Z.eq_dec s 0) as [->|Hsn].
        * cbn [hi_bound] in *. rewrite !adjust_bound_nonneg in * by lia. lia.
        * cbn [hi_bound] in *. rewrite (adjust_bound_negv len) in Hj0 by lia.
          rewrite (adjust_bound_negv (S len)) in * by lia.
          rewrite (adjust_bound_negv len) by lia. lia.
    - unfold hi', ns. rewrite (node_slice_hi len st sp step Hstep); [reflexivity|].
      fold j. lia. }
  rewrite Hlo, Hhi in H.
  assert (Hc : cells_up (sublist i (S j) (ax_node ax)) (sublist i j (ax_grid ax)) \/
               cells_down (sublist i (S j) (ax_node ax)) (sublist i j (ax_grid ax))).
  { apply cells_sublist; [lia|apply hi_bound_le|now apply proper_cells]. }
  fold i j in H. rewrite (mk_axis_cells _ _ _ _ _ Hc) in H. injection H as <-.
  split; [lia|]. split; [rewrite getslice_fwd by exact Hstep; reflexivity|].
  split; [reflexivity|]. split; [reflexivity|]. split; [reflexivity|]. now apply made_proper.
Qed.

(** * Reversal (C07) *)
Lemma cells_up_rev gn g : cells_up gn g -> cells_down (rev gn) (rev g).
Proof.
  intros [Hl H]. split; [rewrite !rev_length; exact Hl|].
  intros i Hi. rewrite rev_length in Hi. rewrite !rev_nth by lia.
  destruct (H (length g - S i)%nat) as [H1 H2]; [lia|].
  replace (length gn - S (S i))%nat with (length g - S i)%nat by lia.
  replace (length gn - S i)%nat with (S (length g - S i)) by lia. auto.
Qed.
Lemma cells_down_rev gn g : cells_down gn g -> cells_up (rev gn) (rev g).
Proof.
  intros [Hl H]. split; [rewrite !rev_length; exact Hl|].
  intros i Hi. rewrite rev_length in Hi. rewrite !rev_nth by lia.
  destruct (H (length g - S i)%nat) as [H1 H2]; [lia|].
  replace (length gn - S (S i))%nat with (length g - S i)%nat by lia.
  replace (length gn - S i)%nat with (S (length g - S i)) by lia. auto.
Qed.
Lemma axis_reversed_ok spl ax :
  axis_proper ax ->
  axis_reversed spl ax = Ok (made (ax_name ax) (ax_unit ax) (rev (ax_node ax)) (rev (ax_grid ax))).
Proof.
  intro Hp. unfold axis_reversed. rewrite !getslice_rev. cbn [bind].
  apply mk_axis_cells. apply proper_cells in Hp as [H|H].
  - right. now apply cells_up_rev.
  - left. now apply cells_down_rev.
Qed.

Lemma axis_eqb_pointwise a b :
  length (ax_node a) = length (ax_node b) -> length (ax_grid a) = length (ax_grid b) ->
  fst (ax_extent a) == fst (ax_extent b) -> snd (ax_extent a) == snd (ax_extent b) ->
  (forall i, (i < length (ax_node a))%nat -> nth i (ax_node a) 0 == nth i (ax_node b) 0) ->
  (forall i, (i < length (ax_grid a))%nat -> nth i (ax_grid a) 0 == nth i (ax_grid b) 0) ->
  axis_eqb a b = Ok true.
Proof.
  intros Hn Hg He1 He2 Hnn Hgg. unfold axis_eqb.
  rewrite (isclose_refl _ _ He1), (isclose_refl _ _ He2). cbn [andb negb].
  rewrite np_broadcast2_same by exact Hn. cbn [bind].
  rewrite (proj2 (np_all_map2_iff _ _ _ Hn)); [|intros i Hi; apply isclose_refl; auto].
  cbn [negb]. rewrite np_broadcast2_same by exact Hg. cbn [bind].
  rewrite (proj2 (np_all_map2_iff _ _ _ Hg)); [reflexivity|intros i Hi; apply isclose_refl; auto].
Qed.

Lemma nth_0_rev (l : list Q) n : length l = S n -> nth 0 (rev l) 0 = nth n l 0.
Proof. intro H. rewrite rev_nth by lia. f_equal. lia. Qed.
Lemma nth_n_rev (l : list Q) n : length l = S n -> nth n (rev l) 0 = nth 0 l 0.
Proof. intro H. rewrite rev_nth by lia. f_equal. lia. Qed.

Lemma axis_reversed_spec spl ax :
  axis_proper ax ->
  exists r, axis_reversed spl ax = Ok r /\
    ax_grid r = rev (ax_grid ax) /\ ax_node r = rev (ax_node ax) /\
    fst (ax_extent r) == snd (ax_extent ax) /\ snd (ax_extent r) == fst (ax_extent ax) /\
    ax_name r = ax_name ax /\ ax_unit r = ax_unit ax /\ ax_n r = ax_n ax /\
    (axis_up ax -> axis_down r) /\ (axis_down ax -> axis_up r) /\
    exists rr, axis_reversed spl r = Ok rr /\
      ax_grid rr = ax_grid ax /\ ax_node rr = ax_node ax /\ ax_n rr = ax_n ax /\
      ax_name rr = ax_name ax /\ ax_unit rr = ax_unit ax /\
      fst (ax_extent rr) == fst (ax_extent ax) /\ snd (ax_extent rr) == snd (ax_extent ax) /\
      axis_eqb rr ax = Ok true.
Proof.
  intro Hp. pose proof (proper_length ax Hp) as Hl.
  pose proof (proper_describes ax Hp) as (He0 & He1 & Hn).
  rewrite axis_reversed_ok by exact Hp. eexists; split; [reflexivity|].
  cbn [made ax_grid ax_node ax_extent ax_name ax_unit ax_n fst snd].
  split; [reflexivity|]. split; [reflexivity|].
  split; [rewrite He1; rewrite (nth_0_rev _ _ Hl); reflexivity|].
  split; [rewrite He0, rev_length; rewrite (nth_n_rev _ _ Hl); reflexivity|].
  split; [reflexivity|]. split; [reflexivity|].
  split; [rewrite rev_length; now symmetry|].
  split; [intros [Hc _]; apply made_down; now apply cells_up_rev|].
  split; [intros [Hc _]; apply made_up; now apply cells_down_rev|].
  rewrite axis_reversed_ok.
  2:{ apply made_proper. apply proper_cells in Hp as [H|H].
      - right. now apply cells_up_rev.
      - left. now apply cells_down_rev. }
  eexists; split; [reflexivity|].
  cbn [made ax_grid ax_node ax_extent ax_name ax_unit ax_n fst snd]. rewrite !rev_involutive.
  split; [reflexivity|]. split; [reflexivity|]. split; [now symmetry|].
  split; [reflexivity|]. split; [reflexivity|].
  split; [now rewrite He0|]. split; [now rewrite He1|].
  apply axis_eqb_pointwise; simpl; rewrite ?rev_involutive; try reflexivity; intros; try reflexivity;
    [now rewrite He0|now rewrite He1].
Qed.

(** * Position of a value in the grid *)
Lemma up_extent_le ax : axis_up ax ->
  fst (ax_extent ax) <= snd (ax_extent ax).
Proof.
  intros [Hc (H0 & H1 & _)]. rewrite H0, H1.
  pose proof (cells_up_sincr_node _ _ Hc) as Hs. destruct Hc as [Hl _].
  destruct (length (ax_grid ax)) as [|n] eqn:E; [lra|].
  apply Qlt_le_weak. apply Hs; lia.
Qed.
Lemma up_not_reversed ax : axis_up ax -> isreversed ax = false.
Proof. intro H. apply Qltb_nlt. now apply up_extent_le. Qed.
Lemma down_reversed ax : axis_down ax -> (0 < length (ax_grid ax))%nat -> isreversed ax = true.
Proof.
  intros [Hc (H0 & H1 & _)] Hn. apply Qltb_lt. rewrite H0, H1.
  pose proof (cells_down_sdecr_node _ _ Hc) as Hs. destruct Hc as [Hl _]. apply Hs; lia.
Qed.

Lemma grid_position_up ax v :
  axis_up ax -> exists p, grid_position ax v = Z.of_nat p /\ (p <= length (ax_grid ax))%nat /\
    forall i, (i < length (ax_grid ax))%nat -> (nth i (ax_grid ax) 0 < v <-> (i < p)%nat).
Proof.
  intro H. unfold grid_position, sortgrid. rewrite (up_not_reversed ax H).
  exists (searchsorted_left (ax_grid ax) v). split; [reflexivity|].
  apply searchsorted_left_spec. destruct H as [H _]. eapply cells_up_sincr_grid; exact H.
Qed.
Lemma grid_position_down ax v :
  axis_down ax -> exists p, grid_position ax v = Z.of_nat p /\ (p <= length (ax_grid ax))%nat /\
    forall i, (i < length (ax_grid ax))%nat -> (v < nth i (ax_grid ax) 0 <-> (i < p)%nat).
Proof.
  intro H. destruct (Nat.eq_dec (length (ax_grid ax)) 0) as [E0|E0].
  { exists 0%nat. apply length_zero_iff_nil in E0. unfold grid_position, sortgrid.
    destruct H as [_ (_ & _ & Hn)]. rewrite Hn, E0. simpl. split; [|split; [lia|intros; lia]].
    destruct (isreversed ax); reflexivity. }
  pose proof (down_reversed ax H) as Hr. unfold grid_position, sortgrid. rewrite Hr by lia.
  destruct H as [Hc (_ & _ & Hn)].
  assert (Hs : sincr (rev (ax_grid ax))) by (apply sdecr_rev; eapply cells_down_sdecr_grid; exact Hc).
  destruct (searchsorted_right_spec (rev (ax_grid ax)) v Hs) as [Hle Hsp].
  rewrite rev_length in *.
  exists (length (ax_grid ax) - searchsorted_right (rev (ax_grid ax)) v)%nat.
  split; [rewrite Hn; lia|]. split; [lia|].
  intros i Hi. specialize (Hsp (length (ax_grid ax) - S i)%nat ltac:(lia)).
  rewrite rev_nth in Hsp by lia.
  replace (length (ax_grid ax) - S (length (ax_grid ax) - S i))%nat with i in Hsp by lia.
  split.
  - intro Hv. destruct (le_lt_dec (length (ax_grid ax) - searchsorted_right (rev (ax_grid ax)) v) i); [|lia].
    exfalso. assert (nth i (ax_grid ax) 0 <= v) by (apply Hsp; lia). lra.
  - intro Hip. apply Qnot_le_lt. intro Hv. apply Hsp in Hv. lia.
Qed.
Lemma sortgrid_sorted ax : axis_proper ax -> sortedb (sortgrid ax) = true.
Proof.
  intros H. destruct (Nat.eq_dec (length (ax_grid ax)) 0) as [E0|E0].
  { apply length_zero_iff_nil in E0. unfold sortgrid. rewrite E0. destruct (isreversed ax); reflexivity. }
  apply sincr_sortedb. unfold sortgrid. destruct H as [H|H].
  - rewrite (up_not_reversed ax H). destruct H as [H _]. eapply cells_up_sincr_grid; exact H.
  - rewrite (down_reversed ax H) by lia. apply sdecr_rev. destruct H as [H _].
    eapply cells_down_sdecr_grid; exact H.
Qed.

(** * Nearest index (C03) *)
Lemma unimodal_min (d : nat -> Q) n p k :
  (p <= n)%nat -> (0 < n)%nat ->
  (forall i j, (i < j)%nat -> (j < p)%nat -> d j < d i) ->
  (forall i j, (p <= i)%nat -> (i < j)%nat -> (j < n)%nat -> d i < d j) ->
  k = (if (0 <? p)%nat then
         if (p =? n)%nat then p - 1
         else if d (p - 1)%nat <?q d p then p - 1 else p
       else p)%nat ->
  (k < n)%nat /\ forall j, (j < n)%nat -> d k <= d j /\ (d j == d k -> (j <= k)%nat).
Proof.
  intros Hpn Hn Hdec Hinc ->.
  destruct (Nat.ltb_spec 0 p) as [Hp0|Hp0].
  - destruct (Nat.eqb_spec p n) as [->|Hpn'].
    + split; [lia|]. intros j Hj. split; [|lia].
      destruct (Nat.eq_dec j (n - 1)) as [->|]; [lra|]. apply Qlt_le_weak, Hdec; lia.
    + destruct (Qltb_spec (d (p - 1)%nat) (d p)) as [Hlt|Hge].
      * split; [lia|]. intros j Hj. destruct (le_lt_dec p j) as [Hpj|Hjp].
        -- assert (d p <= d j).
           { destruct (Nat.eq_dec j p) as [->|]; [lra|]. apply Qlt_le_weak, Hinc; lia. }
           split; [lra|]. intro E. lra.
        -- split; [|lia]. destruct (Nat.eq_dec j (p - 1)) as [->|]; [lra|].
           apply Qlt_le_weak, Hdec; lia.
      * apply Qnot_lt_le in Hge. split; [lia|]. intros j Hj.
        destruct (le_lt_dec p j) as [Hpj|Hjp].
        -- destruct (Nat.eq_dec j p) as [->|]; [split; [lra|lia]|].
           assert (d p < d j) by (apply Hinc; lia). split; [lra|]. intro; lra.
        -- split; [|lia]. destruct (Nat.eq_dec j (p - 1)) as [->|]; [lra|].
           assert (d (p - 1)%nat < d j) by (apply Hdec; lia). lra.
  - assert (p = 0%nat) as -> by lia. split; [lia|]. intros j Hj.
    destruct (Nat.eq_dec j 0) as [->|]; [split; [lra|lia]|].
    assert (d 0%nat < d j) by (apply Hinc; lia). split; [lra|intro; lra].
Qed.

Lemma getidx_nth (l : list Q) i : (i < length l)%nat -> getidx l (Z.of_nat i) = Ok (nth i l 0).
Proof.
  intro H. unfold getidx. destruct (Z.ltb_spec (Z.of_nat i) 0); [lia|].
  replace ((0 <=? Z.of_nat i)%Z && (Z.of_nat i <? Z.of_nat (length l))%Z) with true
    by (symmetry; apply andb_true_iff; split; [apply Z.leb_le|apply Z.ltb_lt]; lia).
  rewrite Nat2Z.id. now rewrite (nth_error_nth' l 0 H).
Qed.

Lemma find_nearest_shape ax v p :
  axis_proper ax -> (0 < length (ax_grid ax))%nat ->
  grid_position ax v = Z.of_nat p -> (p <= length (ax_grid ax))%nat ->
  let d := fun i => qabs (v - nth i (ax_grid ax) 0) in
  find_nearest_index ax v =
  Ok (Z.of_nat (if (0 <? p)%nat then
         if (p =? length (ax_grid ax))%nat then p - 1
         else if d (p - 1)%nat <?q d p then p - 1 else p
       else p)%nat).
Proof.
  intros Hp Hn Hpos Hple d. unfold find_nearest_index. rewrite (sortgrid_sorted ax Hp). cbn [negb].
  rewrite Hpos. destruct (proper_describes ax Hp) as (_ & _ & HN). rewrite HN.
  destruct (Z.ltb_spec 0 (Z.of_nat p)) as [H0|H0]; destruct (Nat.ltb_spec 0 p); try lia; [|reflexivity].
  destruct (Z.eqb_spec (Z.of_nat p) (Z.of_nat (length (ax_grid ax)))) as [E|E];
    destruct (Nat.eqb_spec p (length (ax_grid ax))); try lia.
  - f_equal. lia.
  - replace (Z.of_nat p - 1)%Z with (Z.of_nat (p - 1)) by lia.
    rewrite !getidx_nth by lia. cbn [bind]. fold (d (p - 1)%nat) (d p).
    destruct (d (p - 1)%nat <?q d p); f_equal.
Qed.

Lemma qabs_le_zero_flip a : a <= 0 -> qabs a == - a.
Proof.
  intro H. unfold qabs. destruct (Qleb_spec 0 a); lra.
Qed.

Lemma find_nearest_correct ax v :
  axis_proper ax -> (0 < length (ax_grid ax))%nat ->
  exists k, find_nearest_index ax v = Ok (Z.of_nat k) /\ (k < length (ax_grid ax))%nat /\
    forall j, (j < length (ax_grid ax))%nat ->
      qabs (v - nth k (ax_grid ax) 0) <= qabs (v - nth j (ax_grid ax) 0) /\
      (qabs (v - nth j (ax_grid ax) 0) == qabs (v - nth k (ax_grid ax) 0) -> (j <= k)%nat).
Proof.
  intros Hp Hn.
  set (d := fun i => qabs (v - nth i (ax_grid ax) 0)).
  assert (Hpos : exists p, grid_position ax v = Z.of_nat p /\ (p <= length (ax_grid ax))%nat /\
     (forall i j, (i < j)%nat -> (j < p)%nat -> d j < d i) /\
     (forall i j, (p <= i)%nat -> (i < j)%nat -> (j < length (ax_grid ax))%nat -> d i < d j)).
  { destruct Hp as [Hp|Hp].
    - destruct (grid_position_up ax v Hp) as (p & E & Hle & Hsp).
      destruct Hp as [Hc _]. pose proof (cells_up_sincr_grid _ _ Hc) as Hs.
      exists p. split; [exact E|]. split; [exact Hle|]. split.
      + intros i j Hij Hjp. unfold d.
        assert (nth i (ax_grid ax) 0 < nth j (ax_grid ax) 0) by (apply Hs; lia).
        assert (nth j (ax_grid ax) 0 < v) by (apply Hsp; lia).
        rewrite !qabs_pos by lra. lra.
      + intros i j Hpi Hij Hj. unfold d.
        assert (nth i (ax_grid ax) 0 < nth j (ax_grid ax) 0) by (apply Hs; lia).
        assert (v <= nth i (ax_grid ax) 0).
        { apply Qnot_lt_le. intro Hc'. apply Hsp in Hc'; lia. }
        rewrite (qabs_le_zero_flip (v - nth i (ax_grid ax) 0)) by lra.
        rewrite (qabs_le_zero_flip (v - nth j (ax_grid ax) 0)) by lra. lra.
    - destruct (grid_position_down ax v Hp) as (p & E & Hle & Hsp).
      destruct Hp as [Hc _]. pose proof (cells_down_sdecr_grid _ _ Hc) as Hs.
      exists p. split; [exact E|]. split; [exact Hle|]. split.
      + intros i j Hij Hjp. unfold d.
        assert (nth j (ax_grid ax) 0 < nth i (ax_grid ax) 0) by (apply Hs; lia).
        assert (v < nth j (ax_grid ax) 0) by (apply Hsp; lia).
        rewrite (qabs_le_zero_flip (v - nth i (ax_grid ax) 0)) by lra.
        rewrite (qabs_le_zero_flip (v - nth j (ax_grid ax) 0)) by lra. lra.
      + intros i j Hpi Hij Hj. unfold d.
        assert (nth j (ax_grid ax) 0 < nth i (ax_grid ax) 0) by (apply Hs; lia).
        assert (nth i (ax_grid ax) 0 <= v).
        { apply Qnot_lt_le. intro Hc'. apply Hsp in Hc'; lia. }
        rewrite !qabs_pos by lra. lra. }
  destruct Hpos as (p & E & Hle & Hdec & Hinc).
  pose proof (find_nearest_shape ax v p Hp Hn E Hle) as Hf. cbv zeta in Hf.
  eexists. split; [exact Hf|].
  apply (unimodal_min d (length (ax_grid ax)) p); auto.
Qed.

(** * Slicing by coordinates (C05) *)
Lemma filter_split (f : Q -> bool) l p q :
  (p <= q)%nat -> (q <= length l)%nat ->
  (forall i, (i < length l)%nat -> f (nth i l 0) = ((p <=? i)%nat && (i <? q)%nat)) ->
  filter f l = sublist p q l.
Proof.
  revert p q; induction l as [|x l IH]; intros p q Hpq Hq H; simpl in Hq.
  - assert (q = 0%nat) as -> by lia. assert (p = 0%nat) as -> by lia. reflexivity.
  - simpl filter. pose proof (H 0%nat ltac:(simpl; lia)) as H0. simpl nth in H0. rewrite H0.
    destruct p as [|p].
    + destruct q as [|q]; simpl.
      * unfold sublist; simpl. rewrite (IH 0%nat 0%nat); [reflexivity|lia|lia|].
        intros i Hi. specialize (H (S i) ltac:(simpl; lia)). simpl nth in H. rewrite H.
        destruct i; reflexivity.
      * unfold sublist; simpl. f_equal.
        rewrite (IH 0%nat q); [unfold sublist; simpl; now rewrite Nat.sub_0_r|lia|lia|].
        intros i Hi. specialize (H (S i) ltac:(simpl; lia)). simpl nth in H. exact H.
    + destruct q as [|q]; [lia|]. simpl. unfold sublist; simpl.
      rewrite (IH p q); [reflexivity|lia|lia|].
      intros i Hi. specialize (H (S i) ltac:(simpl; lia)). simpl nth in H. exact H.
Qed.

Lemma extent_value_start ax (a : option num) :
  (0 < length (ax_node ax))%nat ->
  match a with Some x => Ok (num_val x) | None => getidx (ax_node ax) 0 end =
  Ok (match a with Some x => num_val x | None => nth 0 (ax_node ax) 0 end).
Proof. intro H. destruct a; [reflexivity|]. exact (getidx_nth (ax_node ax) 0 H). Qed.
Lemma getidx_last (l : list Q) n : length l = S n -> getidx l (-1) = Ok (nth n l 0).
Proof.
  intro H. unfold getidx. change (-1 <? 0)%Z with true. cbv iota. rewrite H.
  replace ((0 <=? -1 + Z.of_nat (S n))%Z && (-1 + Z.of_nat (S n) <? Z.of_nat (S n))%Z) with true
    by (symmetry; apply andb_true_iff; split; [apply Z.leb_le|apply Z.ltb_lt]; lia).
  replace (Z.to_nat (-1 + Z.of_nat (S n))) with n by lia.
  rewrite (nth_error_nth' l 0) by lia. reflexivity.
Qed.
Lemma extent_value_stop ax (b : option num) :
  length (ax_node ax) = S (length (ax_grid ax)) ->
  match b with Some x => Ok (num_val x) | None => getidx (ax_node ax) (-1) end =
  Ok (match b with Some x => num_val x | None => nth (length (ax_grid ax)) (ax_node ax) 0 end).
Proof. intro H. destruct b; [reflexivity|]. now apply getidx_last. Qed.

Lemma inside_domain_up ax v :
  axis_up ax -> (inside_domain ax v = true <-> fst (ax_extent ax) <= v /\ v <= snd (ax_extent ax)).
Proof.
  intro H. pose proof (up_extent_le ax H) as Hle. unfold inside_domain.
  destruct (ax_extent ax) as [e0 e1]. cbn [fst snd] in *.
  rewrite (proj2 (Qle_bool_iff _ _) Hle). rewrite andb_true_iff, !Qle_bool_iff. reflexivity.
Qed.
Lemma inside_domain_down ax v :
  axis_down ax -> (inside_domain ax v = true <-> snd (ax_extent ax) <= v /\ v <= fst (ax_extent ax)).
Proof.
  intro H. assert (Hle : snd (ax_extent ax) <= fst (ax_extent ax)).
  { destruct H as [Hc (H0 & H1 & _)]. rewrite H0, H1.
    pose proof (cells_down_sdecr_node _ _ Hc) as Hs. destruct Hc as [Hl _].
    destruct (length (ax_grid ax)) as [|n] eqn:E; [lra|]. apply Qlt_le_weak. apply Hs; lia. }
  unfold inside_domain. destruct (ax_extent ax) as [e0 e1]. cbn [fst snd] in *.
  destruct (Qleb_spec e0 e1); rewrite andb_true_iff, !Qle_bool_iff; split; intros [? ?]; split; lra.
Qed.

Lemma extent_to_slice_eq ax a b :
  axis_proper ax ->
  inside_domain ax (bound_lo ax a) || inside_domain ax (bound_hi ax b) = true ->
  extent_to_slice ax a b =
  Ok (mkslice (Some (grid_position ax (bound_lo ax a))) (Some (grid_position ax (bound_hi ax b)))
              (if Bool.eqb (bound_hi ax b <?q bound_lo ax a) (isreversed ax) then None else Some (-1)%Z)).
Proof.
  intros Hp Hin. unfold extent_to_slice. pose proof (proper_length ax Hp) as Hl.
  rewrite extent_value_start by lia. cbn [bind].
  rewrite extent_value_stop by exact Hl. cbn [bind].
  fold (bound_lo ax a) (bound_hi ax b). rewrite Hin. cbn [negb].
  rewrite (sortgrid_sorted ax Hp). reflexivity.
Qed.

Lemma coordinate_slice_common spl ax a b p q f :
  axis_proper ax ->
  opt_is_real a || opt_is_real b = true ->
  inside_domain ax (bound_lo ax a) || inside_domain ax (bound_hi ax b) = true ->
  grid_position ax (bound_lo ax a) = Z.of_nat p ->
  grid_position ax (bound_hi ax b) = Z.of_nat q ->
  (p <= q)%nat -> (q <= length (ax_grid ax))%nat ->
  ((p < q)%nat -> Bool.eqb (bound_hi ax b <?q bound_lo ax a) (isreversed ax) = true) ->
  (forall i, (i < length (ax_grid ax))%nat -> f (nth i (ax_grid ax) 0) = ((p <=? i)%nat && (i <? q)%nat)) ->
  (filter f (ax_grid ax) <> [] ->
     exists r, axis_getitem spl ax (IKey (KSlice a b None)) = Ok (inr r) /\ axis_proper r /\
               ax_grid r = filter f (ax_grid ax) /\
               ax_node r = sublist p (S q) (ax_node ax)) /\
  (forall r, axis_getitem spl ax (IKey (KSlice a b None)) = Ok (inr r) -> ax_grid r = filter f (ax_grid ax)).
Proof.
  intros Hp Hreal Hin Ep Eq Hpq Hq Hdir Hf.
  rewrite (filter_split f (ax_grid ax) p q Hpq Hq Hf).
  unfold axis_getitem, normalize_slice. rewrite Hreal.
  rewrite (extent_to_slice_eq ax a b Hp Hin). rewrite Ep, Eq. cbn [rmap bind].
  assert (Hlo : lo_bound (length (ax_grid ax)) (Some (Z.of_nat p)) = p)
    by (cbn [lo_bound]; rewrite adjust_bound_nonneg by lia; lia).
  assert (Hhi : hi_bound (length (ax_grid ax)) (Some (Z.of_nat q)) = q)
    by (cbn [hi_bound]; rewrite adjust_bound_nonneg by lia; lia).
  destruct (Nat.eq_dec p q) as [->|Hne].
  - rewrite (sublist_empty q q) by lia. split; [congruence|].
    intros r Hr. destruct (axis_slice _ _ _) as [r'|] eqn:E in Hr; [|discriminate].
    injection Hr as <-. clear -E Hp Hq.
    unfold axis_slice in E. cbn [s_step] in E.
    destruct (negb _) in E; [discriminate|].
    apply bind_ok in E as (g & Hg & E). apply bind_ok in E as (gn & _ & E).
    assert (g = []).
    { unfold getslice in Hg. apply bind_ok in Hg as ([[x y] z] & Hs & Hg). injection Hg as <-.
      unfold slice_indices in Hs. cbn [s_start s_stop s_step] in Hs.
      destruct (Bool.eqb _ _) in Hs; cbn in Hs; injection Hs as <- <- <-.
      - unfold py_range. rewrite range_len_step1. rewrite Z.sub_diag. reflexivity.
      - unfold py_range. rewrite range_len_stepm1. rewrite Z.sub_diag. reflexivity. }
    subst g. unfold mk_axis in E.
    repeat (apply bind_ok in E as (? & ? & E)).
    match goal with H : bind _ _ = Ok _ |- _ => apply bind_ok in H as (? & ? & H); injection H as <- end.
    destruct x1; [discriminate|].
    repeat (apply bind_ok in E as (? & ? & E)). injection E as <-. reflexivity.
  - rewrite Hdir by lia.
    assert (Hs := axis_slice_fwd spl ax (Some (Z.of_nat p)) (Some (Z.of_nat q)) None Hp (or_introl eq_refl)).
    cbv zeta in Hs. rewrite Hlo, Hhi in Hs. unfold start_ok in Hs.
    rewrite Hs by lia. cbn [rmap]. split.
    + intros _. eexists. split; [reflexivity|]. split; [|split; reflexivity].
      apply made_proper. apply cells_sublist; [lia|lia|now apply proper_cells].
    + intros r Hr. injection Hr as <-. reflexivity.
Qed.

Lemma coordinate_slice_up spl ax a b :
  axis_up ax -> opt_is_real a || opt_is_real b = true ->
  (fst (ax_extent ax) <= bound_lo ax a <= snd (ax_extent ax)) \/
  (fst (ax_extent ax) <= bound_hi ax b <= snd (ax_extent ax)) ->
  bound_lo ax a <= bound_hi ax b ->
  let sel := filter (fun g => (bound_lo ax a <=?q g) && (g <?q bound_hi ax b)) (ax_grid ax) in
  (sel <> [] -> exists r, axis_getitem spl ax (IKey (KSlice a b None)) = Ok (inr r) /\
                          axis_proper r /\ ax_grid r = sel) /\
  (forall r, axis_getitem spl ax (IKey (KSlice a b None)) = Ok (inr r) -> ax_grid r = sel).
Proof.
  intros Hup Hreal Hin Hab sel.
  destruct (grid_position_up ax (bound_lo ax a) Hup) as (p & Ep & Hp & Hsp).
  destruct (grid_position_up ax (bound_hi ax b) Hup) as (q & Eq & Hq & Hsq).
  assert (Hpq : (p <= q)%nat).
  { destruct (le_lt_dec p q) as [|Hlt]; [assumption|]. exfalso.
    assert (nth q (ax_grid ax) 0 < bound_lo ax a) by (apply Hsp; lia).
    assert (H' : nth q (ax_grid ax) 0 < bound_hi ax b) by lra. apply Hsq in H'; lia. }
  destruct (coordinate_slice_common spl ax a b p q
              (fun g => (bound_lo ax a <=?q g) && (g <?q bound_hi ax b))) as [H1 H2]; auto.
  - now left.
  - apply orb_true_iff. destruct Hin as [H|H]; [left|right]; now apply inside_domain_up.
  - intros _. rewrite (up_not_reversed ax Hup). rewrite (proj2 (Qltb_nlt _ _) Hab). reflexivity.
  - intros i Hi. f_equal.
    + destruct (Nat.leb_spec p i) as [H|H].
      * apply Qle_bool_iff. apply Qnot_lt_le. intro Hc. apply Hsp in Hc; lia.
      * apply Qleb_nle. apply Hsp; lia.
    + destruct (Nat.ltb_spec i q) as [H|H].
      * apply Qltb_lt. apply Hsq; lia.
      * apply Qltb_nlt. apply Qnot_lt_le. intro Hc. apply Hsq in Hc; lia.
  - split; [|exact H2]. intro Hne. destruct (H1 Hne) as (r & ? & ? & ? & _). eauto.
Qed.

Lemma coordinate_slice_down spl ax a b :
  axis_down ax -> opt_is_real a || opt_is_real b = true ->
  (snd (ax_extent ax) <= bound_lo ax a <= fst (ax_extent ax)) \/
  (snd (ax_extent ax) <= bound_hi ax b <= fst (ax_extent ax)) ->
  bound_hi ax b <= bound_lo ax a ->
  let sel := filter (fun g => (bound_hi ax b <?q g) && (g <=?q bound_lo ax a)) (ax_grid ax) in
  (sel <> [] -> exists r, axis_getitem spl ax (IKey (KSlice a b None)) = Ok (inr r) /\
                          axis_proper r /\ ax_grid r = sel) /\
  (forall r, axis_getitem spl ax (IKey (KSlice a b None)) = Ok (inr r) -> ax_grid r = sel).
Proof.
  intros Hdn Hreal Hin Hab sel.
  destruct (grid_position_down ax (bound_lo ax a) Hdn) as (p & Ep & Hp & Hsp).
  destruct (grid_position_down ax (bound_hi ax b) Hdn) as (q & Eq & Hq & Hsq).
  assert (Hpq : (p <= q)%nat).
  { destruct (le_lt_dec p q) as [|Hlt]; [assumption|]. exfalso.
    assert (bound_lo ax a < nth q (ax_grid ax) 0) by (apply Hsp; lia).
    assert (H' : bound_hi ax b < nth q (ax_grid ax) 0) by lra. apply Hsq in H'; lia. }
  destruct (coordinate_slice_common spl ax a b p q
              (fun g => (bound_hi ax b <?q g) && (g <=?q bound_lo ax a))) as [H1 H2]; auto.
  - now right.
  - apply orb_true_iff. destruct Hin as [H|H]; [left|right]; now apply inside_domain_down.
  - intros Hlt. rewrite (down_reversed ax Hdn) by lia.
    assert (bound_hi ax b < nth p (ax_grid ax) 0) by (apply Hsq; lia).
    assert (nth p (ax_grid ax) 0 <= bound_lo ax a).
    { apply Qnot_lt_le. intro Hc. apply Hsp in Hc; lia. }
    rewrite (proj2 (Qltb_lt _ _)) by lra. reflexivity.
  - intros i Hi. rewrite andb_comm. f_equal.
    + destruct (Nat.leb_spec p i) as [H|H].
      * apply Qle_bool_iff. apply Qnot_lt_le. intro Hc. apply Hsp in Hc; lia.
      * apply Qleb_nle. apply Hsp; lia.
    + destruct (Nat.ltb_spec i q) as [H|H].
      * apply Qltb_lt. apply Hsq; lia.
      * apply Qltb_nlt. apply Qnot_lt_le. intro Hc. apply Hsq in Hc; lia.
  - split; [|exact H2]. intro Hne. destruct (H1 Hne) as (r & ? & ? & ? & _). eauto.
Qed.

(** * Uniform axes (C01, C04) *)
Lemma uniform_step (a b : Q) n :
  (1 <= n)%nat -> inject_Z (Z.of_nat n) * ((b - a) / inject_Z (Z.of_nat n)) == b - a.
Proof.
  intro H. field. apply inject_Z_nz. lia.
Qed.
Lemma uniform_h_pos a b n : (1 <= n)%nat -> a < b -> 0 < (b - a) / inject_Z (Z.of_nat n).
Proof. intros Hn Hab. apply Qlt_shift_div_l; [apply inject_Z_pos; lia|lra]. Qed.
Lemma uniform_h_neg a b n : (1 <= n)%nat -> b < a -> (b - a) / inject_Z (Z.of_nat n) < 0.
Proof. intros Hn Hab. apply Qlt_shift_div_r; [apply inject_Z_pos; lia|lra]. Qed.

Lemma uniform_up a b n ax : (1 <= n)%nat -> a < b -> axis_uniform a b n ax -> axis_up ax.
Proof.
  intros Hn Hab (Hln & Hlg & HN & He0 & He1 & Hnode & Hgrid).
  pose proof (uniform_h_pos a b n Hn Hab) as Hh.
  split; [split|split; [|split]].
  - lia.
  - intros i Hi. rewrite Hgrid by lia. rewrite !Hnode by lia. rewrite inject_Z_S.
    set (h := (b - a) / inject_Z (Z.of_nat n)) in *. split; nra.
  - rewrite He0, Hnode by lia. simpl Z.of_nat. ring.
  - rewrite He1, Hlg, Hnode by lia. rewrite uniform_step by lia. ring.
  - now rewrite HN, Hlg.
Qed.
Lemma uniform_down a b n ax : (1 <= n)%nat -> b < a -> axis_uniform a b n ax -> axis_down ax.
Proof.
  intros Hn Hab (Hln & Hlg & HN & He0 & He1 & Hnode & Hgrid).
  pose proof (uniform_h_neg a b n Hn Hab) as Hh.
  split; [split|split; [|split]].
  - lia.
  - intros i Hi. rewrite Hgrid by lia. rewrite !Hnode by lia. rewrite inject_Z_S.
    set (h := (b - a) / inject_Z (Z.of_nat n)) in *. split; nra.
  - rewrite He0, Hnode by lia. simpl Z.of_nat. ring.
  - rewrite He1, Hlg, Hnode by lia. rewrite uniform_step by lia. ring.
  - now rewrite HN, Hlg.
Qed.
Lemma uniform_proper a b n ax : (1 <= n)%nat -> ~ a == b -> axis_uniform a b n ax -> axis_proper ax.
Proof.
  intros Hn Hab H. destruct (Q_dec a b) as [[Hlt|Hgt]|E]; [..|contradiction].
  - left. eapply uniform_up; eauto.
  - right. eapply uniform_down; eauto.
Qed.

Lemma uniform_islinear a b n ax : (1 <= n)%nat -> axis_uniform a b n ax -> islinear ax = Ok true.
Proof.
  intros Hn (Hln & Hlg & HN & He0 & He1 & Hnode & Hgrid). unfold islinear.
  destruct (Z.ltb_spec (ax_n ax) 3) as [H3|H3]; [reflexivity|].
  unfold h_islinear. destruct (ax_node ax) as [|g0 gr] eqn:Egn; [simpl in Hln; lia|].
  rewrite <- Egn in *.
  destruct (np_linspace_total g0 (last (ax_node ax) g0) (Z.of_nat (length (ax_node ax)))) as [l Hl]; [lia|].
  rewrite Hl. cbn [bind]. f_equal.
  destruct (np_linspace_ok _ _ _ _ Hl) as [Hll Hlv]. rewrite Nat2Z.id in Hll.
  apply np_all_map2_iff; [now symmetry|]. intros i Hi. apply isclose_refl.
  rewrite Hlv by lia. rewrite Hnode by lia.
  assert (E0 : g0 == a).
  { replace g0 with (nth 0 (ax_node ax) 0) by (rewrite Egn; reflexivity).
    rewrite Hnode by lia. simpl Z.of_nat. ring. }
  assert (E1 : last (ax_node ax) g0 == b).
  { rewrite last_nth, Hln. simpl. rewrite Nat.sub_0_r. rewrite (nth_indep _ g0 0) by lia.
    rewrite Hnode by lia. rewrite uniform_step by lia. ring. }
  rewrite E1, E0, Hln. replace (Z.of_nat (S n) - 1)%Z with (Z.of_nat n) by lia. reflexivity.
Qed.

Lemma qabs_compat a b : a == b -> qabs a == qabs b.
Proof. intro H. rewrite !qabs_Qabs, H. reflexivity. Qed.

Lemma uniform_spacing a b n ax :
  (1 <= n)%nat -> axis_uniform a b n ax ->
  exists h, spacing ax = Ok h /\ h * inject_Z (Z.of_nat n) == qabs (b - a).
Proof.
  intros Hn H. unfold spacing. rewrite (uniform_islinear a b n ax Hn H). cbn [bind negb].
  destruct H as (Hln & Hlg & HN & He0 & He1 & Hnode & Hgrid).
  change 1%Z with (Z.of_nat 1). change 0%Z with (Z.of_nat 0). rewrite !getidx_nth by lia. cbn [bind].
  eexists; split; [reflexivity|].
  assert (Hpos : 0 < inject_Z (Z.of_nat n)) by (apply inject_Z_pos; lia).
  assert (E : (nth 1 (ax_node ax) 0 - nth 0 (ax_node ax) 0) * inject_Z (Z.of_nat n) == b - a).
  { rewrite !Hnode by lia. simpl (Z.of_nat 0). simpl (Z.of_nat 1).
    setoid_replace ((a + inject_Z 1 * ((b - a) / inject_Z (Z.of_nat n)) -
       (a + inject_Z 0 * ((b - a) / inject_Z (Z.of_nat n)))) * inject_Z (Z.of_nat n))
      with (inject_Z (Z.of_nat n) * ((b - a) / inject_Z (Z.of_nat n))).
    - apply uniform_step; lia.
    - change (inject_Z 1) with 1. change (inject_Z 0) with 0. ring. }
  rewrite <- (qabs_compat _ _ E). rewrite !qabs_Qabs. rewrite Qabs.Qabs_Qmult.
  rewrite (Qabs.Qabs_pos (inject_Z (Z.of_nat n))) by lra. reflexivity.
Qed.

Lemma nth_map_seq {A} (f : nat -> A) n i d : (i < n)%nat -> nth i (map f (seq 0 n)) d = f i.
Proof.
  intro H. rewrite (nth_indep _ d (f 0%nat)) by (rewrite map_length, seq_length; lia).
  rewrite map_nth, seq_nth by lia. reflexivity.
Qed.
Lemma arange_length n : length (arange_Q n) = n.
Proof. unfold arange_Q. now rewrite map_length, seq_length. Qed.
Lemma nth_arange n i : (i < n)%nat -> nth i (arange_Q n) 0 = inject_Z (Z.of_nat i).
Proof. intro H. unfold arange_Q. now rewrite nth_map_seq. Qed.

Lemma mk_axis_extent_uniform spl nm un a b n :
  reproduces_lines spl -> (1 <= n)%nat ->
  exists ax, mk_axis spl nm un None None (Some (a, b)) (Some (Z.of_nat n)) = Ok ax /\
    axis_uniform a b n ax /\ ax_name ax = nm /\ ax_unit ax = un.
Proof.
  intros Hspl Hn. unfold mk_axis. cbn [check_monotone bind].
  destruct (np_linspace_total a b (Z.of_nat n + 1)) as [gn Hgn]; [lia|].
  rewrite Hgn. cbn [bind].
  destruct (np_linspace_ok _ _ _ _ Hgn) as [Hl Hv].
  assert (Hlen : length gn = S n) by lia. clear Hl.
  set (h := (b - a) / inject_Z (Z.of_nat n)) in *.
  assert (Hnode : forall i, (i <= n)%nat -> nth i gn 0 == a + inject_Z (Z.of_nat i) * h).
  { intros i Hi. rewrite Hv by lia. replace (Z.of_nat n + 1 - 1)%Z with (Z.of_nat n) by lia. reflexivity. }
  assert (Hg : exists g, grid_from_nodes spl gn = Ok g /\ length g = n /\
             forall i, (i < n)%nat -> nth i g 0 == a + (inject_Z (Z.of_nat i) + (1 # 2)) * h).
  { unfold grid_from_nodes. destruct (Nat.ltb_spec 3 (length gn)) as [H3|H3].
    - eexists; split; [reflexivity|]. split; [rewrite map_length, seq_length; lia|].
      intros i Hi. rewrite nth_map_seq by lia.
      rewrite (Hspl _ _ (a + (1 # 2) * h) h).
      + ring.
      + now rewrite map_length, arange_length.
      + rewrite map_length, arange_length. lia.
      + rewrite map_length, arange_length. intros k Hk.
        rewrite (nth_indep _ 0 (0 - qhalf)) by (rewrite map_length, arange_length; lia).
        rewrite (nth_indep (map _ _) 0 (0 - qhalf)) by (rewrite map_length, arange_length; lia).
        rewrite !(map_nth (fun k => k - qhalf)). rewrite !nth_arange by lia.
        rewrite inject_Z_S. lra.
      + rewrite map_length, arange_length. intros k Hk.
        rewrite (nth_indep (map _ _) 0 (0 - qhalf)) by (rewrite map_length, arange_length; lia).
        rewrite (map_nth (fun k => k - qhalf)). rewrite nth_arange by lia.
        rewrite Hnode by lia. unfold qhalf. ring.
    - destruct gn as [|x0 [|x1 gr]]; [simpl in Hlen; lia..|].
      cbn [convolve_valid]. eexists; split; [reflexivity|].
      split; [rewrite pair_means_length; lia|]. intros i Hi.
      rewrite nth_pair_means by lia. rewrite !Hnode by lia. rewrite inject_Z_S. unfold qhalf. ring. }
  destruct Hg as (g & -> & Hlg & Hgv). cbn [bind].
  destruct gn as [|gn0 gr] eqn:Egn; [simpl in Hlen; lia|]. rewrite <- Egn in *.
  assert (E0 : gn0 == a).
  { replace gn0 with (nth 0 gn 0) by (rewrite Egn; reflexivity). rewrite Hnode by lia. simpl Z.of_nat. ring. }
  assert (E1 : last gn gn0 = b) by (eapply np_linspace_last; [|exact Hgn]; lia).
  rewrite E1. replace (a ==?q gn0) with true by (symmetry; apply Qeq_bool_iff; now symmetry).
  replace (b ==?q b) with true by (symmetry; apply Qeq_bool_iff; reflexivity).
  cbn [negb orb bind]. rewrite Hlg, Z.eqb_refl. cbn [bind].
  eexists; split; [reflexivity|]. split; [|split; reflexivity].
  split; [exact Hlen|]. split; [exact Hlg|]. split; [reflexivity|].
  split; [reflexivity|]. split; [reflexivity|]. split; assumption.
Qed.

(** the linear index map *)
Lemma uniform_value_to_index a b n ax v :
  (1 <= n)%nat -> ~ a == b -> axis_uniform a b n ax ->
  exists x, value_to_index ax v = Ok x /\
            v == a + (x + (1 # 2)) * ((b - a) / inject_Z (Z.of_nat n)).
Proof.
  intros Hn Hab H. unfold value_to_index. rewrite (uniform_islinear a b n ax Hn H). cbn [bind].
  destruct H as (Hln & Hlg & HN & He0 & He1 & Hnode & Hgrid).
  unfold value_to_index_linear. destruct (ax_extent ax) as [e0 e1]. cbn [fst snd] in *.
  destruct (Qeqb_spec (e1 - e0) 0) as [E|E].
  - exfalso. apply Hab. lra.
  - eexists; split; [reflexivity|]. rewrite HN. unfold qhalf.
    rewrite <- He0, <- He1. field. split; [|exact E]. apply inject_Z_nz. lia.
Qed.

Lemma uniform_index_inj a b n x y :
  (1 <= n)%nat -> ~ a == b ->
  a + (x + (1 # 2)) * ((b - a) / inject_Z (Z.of_nat n)) ==
  a + (y + (1 # 2)) * ((b - a) / inject_Z (Z.of_nat n)) -> x == y.
Proof.
  intros Hn Hab E.
  assert (Hz : ~ inject_Z (Z.of_nat n) == 0) by (apply inject_Z_nz; lia).
  assert (Hd : ~ b - a == 0) by (intro; apply Hab; lra).
  assert (E' : (x - y) * (b - a) == 0).
  { setoid_replace ((x - y) * (b - a))
      with (inject_Z (Z.of_nat n) * ((a + (x + (1 # 2)) * ((b - a) / inject_Z (Z.of_nat n))) -
            (a + (y + (1 # 2)) * ((b - a) / inject_Z (Z.of_nat n))))) by (field; exact Hz).
    rewrite E. ring. }
  apply Qmult_integral in E' as [E'|E']; [lra|contradiction].
Qed.

Lemma qabs_lt_iff x e : qabs x < e <-> - e < x /\ x < e.
Proof.
  unfold qabs. destruct (Qleb_spec 0 x); split; intros; try (split; lra); lra.
Qed.

Lemma uniform_round a b n ax v x k :
  (1 <= n)%nat -> ~ a == b -> axis_uniform a b n ax ->
  value_to_index ax v = Ok x ->
  - (1 # 2) <= x <= inject_Z (Z.of_nat n) - (1 # 2) ->
  qabs (x - inject_Z k) < 1 # 2 ->
  find_nearest_index ax v = Ok k.
Proof.
  intros Hn Hab H Hx Hrange Hk.
  destruct (uniform_value_to_index a b n ax v Hn Hab H) as (x' & Hx' & Hv).
  rewrite Hx in Hx'. injection Hx' as <-.
  pose proof (uniform_proper a b n ax Hn Hab H) as Hp.
  destruct H as (Hln & Hlg & HN & He0 & He1 & Hnode & Hgrid).
  apply qabs_lt_iff in Hk.
  assert (Hk0 : (0 <= k)%Z).
  { destruct (Z_le_gt_dec 0 k) as [|Hneg]; [assumption|]. exfalso.
    assert (inject_Z k <= inject_Z (-1)) by (apply inject_Z_le; lia).
    change (inject_Z (-1)) with (- (1)) in *. lra. }
  assert (Hkn : (k < Z.of_nat n)%Z).
  { destruct (Z_lt_le_dec k (Z.of_nat n)) as [|Hge]; [assumption|]. exfalso.
    apply inject_Z_le in Hge. lra. }
  destruct (find_nearest_correct ax v Hp) as (j & Hj & Hjn & Hmin); [lia|].
  rewrite Hj. f_equal.
  set (h := (b - a) / inject_Z (Z.of_nat n)) in *.
  specialize (Hmin (Z.to_nat k) ltac:(lia)) as [Hmin _].
  rewrite !qabs_Qabs in Hmin.
  assert (Ed : forall i, (i < n)%nat -> v - nth i (ax_grid ax) 0 == (x - inject_Z (Z.of_nat i)) * h).
  { intros i Hi. rewrite Hgrid by lia. rewrite Hv. ring. }
  rewrite !Ed in Hmin by lia. rewrite !Qabs.Qabs_Qmult in Hmin.
  rewrite Z2Nat.id in Hmin by lia.
  assert (Hh : 0 < Qabs.Qabs h).
  { destruct (Qlt_le_dec 0 (Qabs.Qabs h)) as [|Hle]; [assumption|]. exfalso.
    pose proof (Qabs.Qabs_nonneg h) as Hge. assert (E : Qabs.Qabs h == 0) by lra.
    assert (h == 0) by (revert E; apply Qabs.Qabs_case; intros; lra).
    apply Hab. pose proof (uniform_step a b n Hn) as Hs. fold h in Hs. rewrite H in Hs. lra. }
  apply Qmult_lt_0_le_reg_r in Hmin; [|exact Hh].
  rewrite <- !qabs_Qabs in Hmin.
  assert (Hk' : qabs (x - inject_Z k) < 1 # 2) by (apply qabs_lt_iff; exact Hk).
  assert (Hj' : qabs (x - inject_Z (Z.of_nat j)) < 1 # 2) by lra.
  apply qabs_lt_iff in Hj'.
  assert (H1 : inject_Z (Z.of_nat j) < inject_Z (k + 1)).
  { rewrite inject_Z_plus. change (inject_Z 1) with 1. lra. }
  assert (H2 : inject_Z k < inject_Z (Z.of_nat j + 1)).
  { rewrite inject_Z_plus. change (inject_Z 1) with 1. lra. }
  rewrite <- Zlt_Qlt in H1, H2. lia.
Qed.

(** * Halving (C08) *)
Lemma getslice_nth_Q (l r : list Q) sl a b s k :
  slice_indices sl (Z.of_nat (length l)) = Ok (a, b, s) ->
  getslice l sl = Ok r -> (k < range_len a b s)%nat ->
  nth k r 0 = nth (Z.to_nat (a + Z.of_nat k * s)) l 0.
Proof.
  intros Hi Hr Hk. pose proof (getslice_nth l sl r a b s k Hi Hr) as H.
  pose proof (getslice_length l sl r a b s Hi Hr) as Hlr.
  rewrite (proj2 (Nat.ltb_lt _ _) Hk) in H.
  rewrite (nth_error_nth' r 0) in H by lia.
  symmetry in H. apply nth_error_nth with (d := 0) in H. now symmetry.
Qed.

Lemma even_entries (l : list Q) :
  exists r, getslice l (mkslice None None (Some 2%Z)) = Ok r /\
    length r = ((length l + 1) / 2)%nat /\
    forall k, (k < length r)%nat -> nth k r 0 = nth (2 * k) l 0.
Proof.
  set (sl := mkslice None None (Some 2%Z)).
  assert (Hi : slice_indices sl (Z.of_nat (length l)) = Ok (0%Z, Z.of_nat (length l), 2%Z)) by reflexivity.
  destruct (getslice l sl) as [r|e] eqn:E; [|unfold getslice in E; rewrite Hi in E; discriminate].
  exists r. split; [reflexivity|].
  pose proof (getslice_length l sl r _ _ _ Hi E) as Hlr.
  assert (Hr : range_len 0 (Z.of_nat (length l)) 2 = ((length l + 1) / 2)%nat).
  { unfold range_len. change (2 <? 0)%Z with false. cbv iota.
    destruct (Z.ltb_spec 0 (Z.of_nat (length l))); [|replace (length l) with 0%nat by lia; reflexivity].
    zify. Z.to_euclidean_division_equations. lia. }
  split; [lia|]. intros k Hk.
  rewrite (getslice_nth_Q l r sl _ _ _ k Hi E) by lia. f_equal. lia.
Qed.
Lemma even_entries_but_last (l : list Q) :
  exists r, getslice l (mkslice None (Some (-1)%Z) (Some 2%Z)) = Ok r /\
    length r = (length l / 2)%nat /\
    forall k, (k < length r)%nat -> nth k r 0 = nth (2 * k) l 0.
Proof.
  set (sl := mkslice None (Some (-1)%Z) (Some 2%Z)).
  set (e := if (0 <? length l)%nat then (Z.of_nat (length l) - 1)%Z else 0%Z).
  assert (Hi : slice_indices sl (Z.of_nat (length l)) = Ok (0%Z, e, 2%Z)).
  { unfold slice_indices, sl, e, adjust_bound. cbn [s_step s_start s_stop].
    change (2 =? 0)%Z with false. change (2 <? 0)%Z with false. change (-1 <? 0)%Z with true. cbv iota.
    destruct (Nat.ltb_spec 0 (length l)); destruct (Z.ltb_spec (-1 + Z.of_nat (length l)) 0);
      try lia; try reflexivity. do 3 f_equal; lia. }
  destruct (getslice l sl) as [r|e'] eqn:E; [|unfold getslice in E; rewrite Hi in E; discriminate].
  exists r. split; [reflexivity|].
  pose proof (getslice_length l sl r _ _ _ Hi E) as Hlr.
  assert (Hr : range_len 0 e 2 = (length l / 2)%nat).
  { unfold range_len, e. change (2 <? 0)%Z with false. cbv iota.
    destruct (Nat.ltb_spec 0 (length l)); [|replace (length l) with 0%nat by lia; reflexivity].
    destruct (Z.ltb_spec 0 (Z.of_nat (length l) - 1));
      [|replace (length l) with 1%nat by lia; reflexivity].
    zify. Z.to_euclidean_division_equations. lia. }
  split; [lia|]. intros k Hk.
  rewrite (getslice_nth_Q l r sl _ _ _ k Hi E) by lia. f_equal. lia.
Qed.
Lemma odd_entries (l : list Q) :
  exists r, getslice l (mkslice (Some 1%Z) None (Some 2%Z)) = Ok r /\
    length r = (length l / 2)%nat /\
    forall k, (k < length r)%nat -> nth k r 0 = nth (2 * k + 1) l 0.
Proof.
  set (sl := mkslice (Some 1%Z) None (Some 2%Z)).
  set (s := if (0 <? length l)%nat then 1%Z else 0%Z).
  assert (Hi : slice_indices sl (Z.of_nat (length l)) = Ok (s, Z.of_nat (length l), 2%Z)).
  { unfold slice_indices, sl, s, adjust_bound. cbn [s_step s_start s_stop].
    change (2 =? 0)%Z with false. change (2 <? 0)%Z with false. change (1 <? 0)%Z with false. cbv iota.
    destruct (Nat.ltb_spec 0 (length l)); destruct (Z.leb_spec (Z.of_nat (length l)) 1);
      try lia; try reflexivity. all: do 3 f_equal; lia. }
  destruct (getslice l sl) as [r|e'] eqn:E; [|unfold getslice in E; rewrite Hi in E; discriminate].
  exists r. split; [reflexivity|].
  pose proof (getslice_length l sl r _ _ _ Hi E) as Hlr.
  assert (Hr : range_len s (Z.of_nat (length l)) 2 = (length l / 2)%nat).
  { unfold range_len, s. change (2 <? 0)%Z with false. cbv iota.
    destruct (Nat.ltb_spec 0 (length l)); [|replace (length l) with 0%nat by lia; reflexivity].
    destruct (Z.ltb_spec 1 (Z.of_nat (length l)));
      [|replace (length l) with 1%nat by lia; reflexivity].
    zify. Z.to_euclidean_division_equations. lia. }
  split; [lia|]. intros k Hk.
  rewrite (getslice_nth_Q l r sl _ _ _ k Hi E) by lia. f_equal. unfold s.
  destruct (Nat.ltb_spec 0 (length l)); [lia|]. exfalso.
  rewrite Hlr, Hr in Hk. replace (length l) with 0%nat in Hk by lia. simpl in Hk. lia.
Qed.

Lemma half_resolution_spec spl ax :
  axis_proper ax ->
  exists r, axis_half_resolution spl ax = Ok r /\
    length (ax_grid r) = (length (ax_grid ax) / 2)%nat /\
    (forall i, (i < length (ax_grid ax) / 2)%nat ->
       nth i (ax_grid r) 0 == (nth (2 * i) (ax_grid ax) 0 + nth (2 * i + 1) (ax_grid ax) 0) / 2) /\
    (forall i, (i <= length (ax_grid ax) / 2)%nat -> nth i (ax_node r) 0 = nth (2 * i) (ax_node ax) 0) /\
    (axis_up ax -> axis_up r) /\ (axis_down ax -> axis_down r) /\
    ax_name r = ax_name ax /\ ax_unit r = ax_unit ax /\
    (Nat.even (length (ax_grid ax)) = true ->
       fst (ax_extent r) == fst (ax_extent ax) /\ snd (ax_extent r) == snd (ax_extent ax)).
Proof.
  intro Hp. pose proof (proper_length ax Hp) as Hl.
  unfold axis_half_resolution.
  destruct (even_entries (ax_node ax)) as (gn & -> & Hlgn & Hgn).
  destruct (even_entries_but_last (ax_grid ax)) as (g0 & -> & Hlg0 & Hg0).
  destruct (odd_entries (ax_grid ax)) as (g1 & -> & Hlg1 & Hg1). cbn [bind].
  rewrite np_broadcast2_same by lia. cbn [bind].
  set (g := map (Qmult qhalf) (map2 Qplus g0 g1)).
  set (m := (length (ax_grid ax) / 2)%nat) in *.
  assert (Hlgn' : length gn = S m) by (unfold m; rewrite Hlgn, Hl; zify; Z.to_euclidean_division_equations; lia).
  assert (Hm : (2 * m <= length (ax_grid ax))%nat)
    by (unfold m; zify; Z.to_euclidean_division_equations; lia).
  assert (Hlg : length g = m) by (unfold g; rewrite map_length, map2_length; lia).
  assert (Hgv : forall i, (i < m)%nat ->
     nth i g 0 == (nth (2 * i) (ax_grid ax) 0 + nth (2 * i + 1) (ax_grid ax) 0) / 2).
  { intros i Hi. unfold g.
    rewrite (nth_indep _ 0 (qhalf * 0)) by (rewrite map_length, map2_length; lia).
    rewrite (map_nth (Qmult qhalf)). rewrite (nth_map2 _ _ _ _ 0 0) by lia.
    rewrite Hg0, Hg1 by lia. unfold qhalf. field. }
  assert (Hnv : forall i, (i <= m)%nat -> nth i gn 0 = nth (2 * i) (ax_node ax) 0)
    by (intros i Hi; apply Hgn; lia).
  assert (Hup : cells_up (ax_node ax) (ax_grid ax) -> cells_up gn g).
  { intros Hc. pose proof (cells_up_sincr_grid _ _ Hc) as Hs. destruct Hc as [_ Hc]. split; [lia|].
    intros i Hi. rewrite Hgv, !Hnv by lia.
    destruct (Hc (2 * i)%nat ltac:(lia)) as [H1 H2].
    destruct (Hc (2 * i + 1)%nat ltac:(lia)) as [H3 H4].
    replace (S (2 * i + 1)) with (2 * S i)%nat in H4 by lia.
    replace (S (2 * i)) with (2 * i + 1)%nat in H2 by lia.
    split; [apply Qlt_shift_div_l|apply Qlt_shift_div_r]; lra. }
  assert (Hdn : cells_down (ax_node ax) (ax_grid ax) -> cells_down gn g).
  { intros Hc. destruct Hc as [_ Hc]. split; [lia|].
    intros i Hi. rewrite Hgv, !Hnv by lia.
    destruct (Hc (2 * i)%nat ltac:(lia)) as [H1 H2].
    destruct (Hc (2 * i + 1)%nat ltac:(lia)) as [H3 H4].
    replace (S (2 * i + 1)) with (2 * S i)%nat in H3 by lia.
    replace (S (2 * i)) with (2 * i + 1)%nat in H1 by lia.
    split; [apply Qlt_shift_div_l|apply Qlt_shift_div_r]; lra. }
  assert (Hc : cells_up gn g \/ cells_down gn g) by (apply proper_cells in Hp as [H|H]; auto).
  rewrite (mk_axis_cells _ _ _ _ _ Hc). eexists; split; [reflexivity|].
  cbn [made ax_grid ax_node ax_name ax_unit ax_extent fst snd].
  split; [exact Hlg|]. split; [exact Hgv|]. split; [exact Hnv|].
  split; [intros [H _]; apply made_up; auto|].
  split; [intros [H _]; apply made_down; auto|].
  split; [reflexivity|]. split; [reflexivity|].
  intro Heven. destruct (proper_describes ax Hp) as (He0 & He1 & _).
  rewrite He0, He1, Hlg. rewrite !Hnv by lia. split; [reflexivity|].
  replace (2 * m)%nat with (length (ax_grid ax)); [reflexivity|].
  unfold m. apply Nat.even_spec in Heven as [q Hq]. rewrite Hq.
  rewrite Nat.mul_comm, Nat.div_mul by lia. lia.
Qed.

(** * Public forms *)
Lemma axis_getitem_int_slice spl ax st sp step :
  axis_getitem spl ax (IKey (KSlice (option_map NInt st) (option_map NInt sp) step)) =
  rmap inr (axis_slice spl ax (mkslice st sp step)).
Proof. destruct st, sp; reflexivity. Qed.

Lemma int_slice_total spl ax st sp step g :
  axis_proper ax -> step = None \/ step = Some 1%Z ->
  (match st with Some s => (0 <= s)%Z | None => True end) ->
  getslice (ax_grid ax) (mkslice st sp step) = Ok g -> g <> [] ->
  exists r, axis_getitem spl ax (IKey (KSlice (option_map NInt st) (option_map NInt sp) step)) = Ok (inr r).
Proof.
  intros Hp Hstep Hst Hg Hne. rewrite getslice_fwd in Hg by exact Hstep. injection Hg as <-.
  set (i := lo_bound (length (ax_grid ax)) st) in *. set (j := hi_bound (length (ax_grid ax)) sp) in *.
  assert (Hij : (i < j)%nat).
  { destruct (le_lt_dec j i) as [H|H]; [|exact H]. exfalso. apply Hne. now apply sublist_empty. }
  assert (Hj : (j <= length (ax_grid ax))%nat) by apply hi_bound_le.
  assert (Hs : start_ok (length (ax_grid ax)) st).
  { destruct st as [s|]; [|exact I]. simpl. split; [exact Hst|].
    destruct (Z_le_gt_dec s (Z.of_nat (length (ax_grid ax)))); [assumption|]. exfalso.
    unfold i in Hij. cbn [lo_bound] in Hij. rewrite adjust_bound_nonneg in Hij by lia. lia. }
  pose proof (axis_slice_fwd spl ax st sp step Hp Hstep Hs) as H. cbv zeta in H. fold i j in H.
  rewrite axis_getitem_int_slice, H by lia. cbn [rmap]. eauto.
Qed.

Lemma int_slice_sound spl ax st sp step r :
  axis_proper ax -> step = None \/ step = Some 1%Z ->
  (match st with Some s => (0 <= s)%Z | None => True end) ->
  axis_getitem spl ax (IKey (KSlice (option_map NInt st) (option_map NInt sp) step)) = Ok (inr r) ->
  getslice (ax_grid ax) (mkslice st sp step) = Ok (ax_grid r) /\
  (exists i j, (i <= j <= length (ax_grid ax))%nat /\
     ax_grid r = sublist i j (ax_grid ax) /\ ax_node r = sublist i (S j) (ax_node ax)) /\
  ax_name r = ax_name ax /\ ax_unit r = ax_unit ax /\ axis_proper r.
Proof.
  intros Hp Hstep Hst H. rewrite axis_getitem_int_slice in H.
  destruct (axis_slice _ _ _) as [r'|] eqn:E; [|discriminate]. injection H as ->.
  destruct (axis_slice_sound spl ax st sp step r Hp Hstep Hst E) as (Hij & Hg & Hn & H1 & H2 & H3).
  split; [exact Hg|]. split; [|auto].
  rewrite getslice_fwd in Hg by exact Hstep. injection Hg as Hg.
  eexists _, _. split; [split; [exact Hij|apply hi_bound_le]|]. split; [now symmetry|exact Hn].
Qed.

Lemma float_index_nearest spl ax v :
  axis_proper ax -> (0 < length (ax_grid ax))%nat -> inside_domain ax v = true ->
  exists g, axis_getitem spl ax (IKey (KNum (NReal v))) = Ok (inl g) /\ In g (ax_grid ax) /\
    forall g', In g' (ax_grid ax) -> qabs (v - g) <= qabs (v - g').
Proof.
  intros Hp Hn Hin. destruct (find_nearest_correct ax v Hp Hn) as (k & Hk & Hkn & Hmin).
  exists (nth k (ax_grid ax) 0). unfold axis_getitem, normalize_slice. rewrite Hin. cbn [negb].
  rewrite Hk. cbn [bind]. rewrite getidx_nth by exact Hkn. cbn [rmap].
  split; [reflexivity|]. split; [now apply nth_In|].
  intros g' Hg'. apply In_nth with (d := 0) in Hg' as (j & Hj & <-). now apply Hmin.
Qed.

Lemma np_round_exact x k : qabs (x - inject_Z k) < 1 # 2 -> np_round x = k.
Proof.
  intro H. apply qabs_lt_iff in H. unfold np_round.
  set (y := x - qhalf). set (f := (Qnum y / Z.pos (Qden y))%Z).
  assert (Hy : y == x - (1 # 2)) by (unfold y, qhalf; reflexivity).
  assert (Ef : f = Qfloor y) by (unfold f; destruct y; reflexivity).
  assert (Hf1 : inject_Z f <= y) by (rewrite Ef; apply Qfloor_le).
  assert (Hf2 : y < inject_Z (f + 1)) by (rewrite Ef; apply Qlt_floor).
  rewrite inject_Z_plus in Hf2. change (inject_Z 1) with 1 in Hf2.
  assert (A1 : inject_Z f < inject_Z k) by lra.
  assert (A2 : inject_Z k < inject_Z (f + 2)) by (rewrite inject_Z_plus; change (inject_Z 2) with 2; lra).
  rewrite <- Zlt_Qlt in A1, A2. assert (Ek : k = (f + 1)%Z) by lia.
  destruct (Qeqb_spec y (inject_Z f)) as [E|E].
  - exfalso. subst k. rewrite inject_Z_plus in H. change (inject_Z 1) with 1 in H. lra.
  - now symmetry.
Qed.

Lemma uniform_index_of a b n ax v y :
  (1 <= n)%nat -> ~ a == b -> axis_uniform a b n ax ->
  v == a + (y + (1 # 2)) * ((b - a) / inject_Z (Z.of_nat n)) ->
  exists x, value_to_index ax v = Ok x /\ x == y.
Proof.
  intros Hn Hab H Hv. destruct (uniform_value_to_index a b n ax v Hn Hab H) as (x & Hx & Ex).
  exists x. split; [exact Hx|]. apply (uniform_index_inj a b n x y Hn Hab). now rewrite <- Ex, <- Hv.
Qed.
Lemma uniform_index_points a b n ax :
  (1 <= n)%nat -> ~ a == b -> axis_uniform a b n ax ->
  (forall i, (i < n)%nat -> exists x, value_to_index ax (nth i (ax_grid ax) 0) = Ok x /\ x == inject_Z (Z.of_nat i)) /\
  (exists x, value_to_index ax a = Ok x /\ x == - (1 # 2)) /\
  (exists x, value_to_index ax b = Ok x /\ x == inject_Z (Z.of_nat n) - (1 # 2)).
Proof.
  intros Hn Hab H. assert (Hz : ~ inject_Z (Z.of_nat n) == 0) by (apply inject_Z_nz; lia).
  split; [|split].
  - intros i Hi. apply (uniform_index_of a b n); auto. destruct H as (_ & _ & _ & _ & _ & _ & Hg). now apply Hg.
  - apply (uniform_index_of a b n); auto. ring.
  - apply (uniform_index_of a b n); auto. field. exact Hz.
Qed.
Lemma uniform_index_monotone a b n ax v w x y :
  (1 <= n)%nat -> ~ a == b -> axis_uniform a b n ax ->
  value_to_index ax v = Ok x -> value_to_index ax w = Ok y ->
  (a < b -> v < w -> x < y) /\ (b < a -> w < v -> x < y).
Proof.
  intros Hn Hab H Hx Hy.
  destruct (uniform_value_to_index a b n ax v Hn Hab H) as (x' & Hx' & Ev).
  destruct (uniform_value_to_index a b n ax w Hn Hab H) as (y' & Hy' & Ew).
  rewrite Hx in Hx'. injection Hx' as <-. rewrite Hy in Hy'. injection Hy' as <-.
  split; intros H1 H2.
  - pose proof (uniform_h_pos a b n Hn H1) as Hh.
    destruct (Qlt_le_dec x y) as [|Hge]; [assumption|]. exfalso.
    set (h := (b - a) / inject_Z (Z.of_nat n)) in *. nra.
  - pose proof (uniform_h_neg a b n Hn H1) as Hh.
    destruct (Qlt_le_dec x y) as [|Hge]; [assumption|]. exfalso.
    set (h := (b - a) / inject_Z (Z.of_nat n)) in *. nra.
Qed.
