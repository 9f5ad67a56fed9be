(** value_to_index on non-uniform axes; axes from grid points alone. *)
From Coq Require Import Lia Lqa ZifyBool ZifyNat.
From Verif Require Import PyBase PyBaseFacts NumpyModel NumpyFacts AxisModel AxisSpec AxisFacts.

(** * interp1d *)
Definition xs_of (pts : list (Q * Q)) := map fst pts.

Lemma sincr_cons x l : sincr (x :: l) -> forall y, In y l -> x < y.
Proof.
  intros H y Hy. apply In_nth with (d := 0) in Hy as (i & Hi & <-).
  apply (H 0%nat (S i)); simpl; lia.
Qed.

Lemma sort_pts_sorted pts : sincr (xs_of pts) -> sort_pts pts = pts.
Proof.
  induction pts as [|p pts IH]; intro H; [reflexivity|].
  cbn [sort_pts fold_right]. fold (sort_pts pts).
  rewrite IH by (eapply sincr_tl; exact H).
  destruct pts as [|q pts]; [reflexivity|]. cbn [insert_pt].
  assert (fst p < fst q) by (apply (H 0%nat 1%nat); simpl; lia).
  rewrite (proj2 (Qle_bool_iff _ _)) by lra. reflexivity.
Qed.
Lemma insert_pt_last p l : (forall q, In q l -> fst q < fst p) -> insert_pt p l = l ++ [p].
Proof.
  induction l as [|q l IH]; intro H; [reflexivity|]. cbn [insert_pt].
  rewrite (proj2 (Qleb_nle _ _)) by (apply H; now left). simpl. f_equal. apply IH. intros; apply H; now right.
Qed.
Lemma sort_pts_rev pts : sdecr (xs_of pts) -> sort_pts pts = rev pts.
Proof.
  induction pts as [|p pts IH]; intro H; [reflexivity|].
  cbn [sort_pts fold_right]. fold (sort_pts pts).
  rewrite IH by (eapply sdecr_tl; exact H). simpl. apply insert_pt_last.
  intros q Hq. apply in_rev in Hq. apply (in_map fst) in Hq.
  apply In_nth with (d := 0) in Hq as (i & Hi & E). rewrite <- E.
  apply (H 0%nat (S i)); [lia|]. simpl. unfold xs_of. lia.
Qed.

(** linear interpolation between two neighbouring points *)
Definition between (x0 y0 x1 y1 v r : Q) : Prop :=
  r == y0 + (v - x0) / (x1 - x0) * (y1 - y0).

Lemma interp_sorted_spec pts v d :
  sincr (xs_of pts) -> (2 <= length pts)%nat ->
  fst (nth 0 pts d) <= v -> v <= fst (nth (length pts - 1) pts d) ->
  exists k r, (S k < length pts)%nat /\ interp_sorted pts v = Ok r /\
    fst (nth k pts d) <= v /\ v <= fst (nth (S k) pts d) /\
    between (fst (nth k pts d)) (snd (nth k pts d)) (fst (nth (S k) pts d)) (snd (nth (S k) pts d)) v r.
Proof.
  induction pts as [|[x0 y0] pts IH]; intros Hs Hl Hlo Hhi; [simpl in Hl; lia|].
  destruct pts as [|[x1 y1] pts]; [simpl in Hl; lia|].
  cbn [interp_sorted]. cbn [nth fst] in Hlo.
  assert (H01 : x0 < x1) by (apply (Hs 0%nat 1%nat); simpl; lia).
  destruct (Qleb_spec v x1) as [Hv|Hv].
  - rewrite (proj2 (Qltb_nlt v x0)) by lra.
    exists 0%nat. eexists. split; [simpl; lia|]. split; [reflexivity|]. cbn [nth fst snd].
    split; [exact Hlo|]. split; [exact Hv|]. unfold between. field. lra.
  - apply Qnot_le_lt in Hv.
    destruct pts as [|p2 pts].
    + exfalso. simpl in Hhi. lra.
    + destruct IH as (k & r & Hk & E & H1 & H2 & H3).
      * eapply sincr_tl; exact Hs.
      * simpl; lia.
      * simpl. lra.
      * replace (length ((x0, y0) :: (x1, y1) :: p2 :: pts) - 1)%nat
          with (S (length ((x1, y1) :: p2 :: pts) - 1)) in Hhi by (simpl; lia).
        exact Hhi.
      * exists (S k), r. split; [simpl in *; lia|]. split; [exact E|]. auto.
Qed.

(** * The interleaved nodes and grid points *)
Lemma interleave_length gn g :
  length gn = S (length g) -> length (interleave gn g) = (2 * length g + 1)%nat.
Proof.
  revert g; induction gn as [|x gn IH]; intros g H; [simpl in H; lia|].
  destruct g as [|y g]; simpl in *.
  - rewrite H. reflexivity.
  - rewrite IH by lia. lia.
Qed.
Lemma interleave_nth gn g :
  length gn = S (length g) ->
  (forall i, (i <= length g)%nat -> nth (2 * i) (interleave gn g) 0 = nth i gn 0) /\
  (forall i, (i < length g)%nat -> nth (2 * i + 1) (interleave gn g) 0 = nth i g 0).
Proof.
  revert g; induction gn as [|x gn IH]; intros g H; [simpl in H; lia|].
  destruct g as [|y g]; cbn [length interleave] in *.
  - split; intros i Hi; [|lia]. replace i with 0%nat by lia. reflexivity.
  - destruct (IH g ltac:(lia)) as [H1 H2]. split; intros i Hi.
    + destruct i as [|i]; [reflexivity|].
      replace (2 * S i)%nat with (S (S (2 * i))) by lia. cbn [nth]. rewrite H1 by lia. reflexivity.
    + destruct i as [|i]; [reflexivity|].
      replace (2 * S i + 1)%nat with (S (S (2 * i + 1))) by lia. cbn [nth]. rewrite H2 by lia. reflexivity.
Qed.
Lemma interleave_up gn g : cells_up gn g -> sincr (interleave gn g).
Proof.
  intros [Hl Hc]. destruct (interleave_nth gn g Hl) as [H1 H2].
  apply sincr_step. rewrite interleave_length by exact Hl. intros j Hj.
  destruct (Nat.Even_or_Odd j) as [[i ->]|[i ->]].
  - rewrite H1 by lia. replace (S (2 * i)) with (2 * i + 1)%nat by lia. rewrite H2 by lia. apply Hc. lia.
  - rewrite H2 by lia. replace (S (2 * i + 1)) with (2 * S i)%nat by lia. rewrite H1 by lia. apply Hc. lia.
Qed.
Lemma interleave_down gn g : cells_down gn g -> sdecr (interleave gn g).
Proof.
  intros [Hl Hc]. destruct (interleave_nth gn g Hl) as [H1 H2].
  apply sdecr_step. rewrite interleave_length by exact Hl. intros j Hj.
  destruct (Nat.Even_or_Odd j) as [[i ->]|[i ->]].
  - rewrite H1 by lia. replace (S (2 * i)) with (2 * i + 1)%nat by lia. rewrite H2 by lia. apply Hc. lia.
  - rewrite H2 by lia. replace (S (2 * i + 1)) with (2 * S i)%nat by lia. rewrite H1 by lia. apply Hc. lia.
Qed.

Lemma xs_combine (x y : list Q) : length x = length y -> xs_of (combine x y) = x.
Proof.
  unfold xs_of. revert y; induction x as [|a x IH]; intros [|b y] H; simpl in *; try lia; [reflexivity|].
  f_equal. apply IH. lia.
Qed.

(** v lies in segment j of the interleaved points (either orientation) and its
    index is interpolated there *)
Definition in_segment (x : nat -> Q) (j : nat) (v r : Q) : Prop :=
  (x j <= v <= x (S j) \/ x (S j) <= v <= x j) /\
  r == (inject_Z (Z.of_nat j) + (v - x j) / (x (S j) - x j) - 1) / 2.

Lemma value_to_index_nonlinear_segment ax v :
  axis_proper ax -> (1 <= length (ax_grid ax))%nat ->
  let x := fun j => nth j (interleave (ax_node ax) (ax_grid ax)) 0 in
  exists j r, (j < 2 * length (ax_grid ax))%nat /\
    value_to_index_nonlinear ax v = Ok r /\
    in_segment x j (clip_to_extent (ax_extent ax) v) r.
Proof.
  intros Hp Hn x. pose proof (proper_length ax Hp) as Hl.
  destruct (proper_describes ax Hp) as (He0 & He1 & HN).
  set (n := length (ax_grid ax)) in *.
  set (gan := interleave (ax_node ax) (ax_grid ax)) in *.
  assert (Hlgan : length gan = (2 * n + 1)%nat) by (apply interleave_length; exact Hl).
  destruct (interleave_nth _ _ Hl) as [Hxe Hxo]. fold gan n in Hxe, Hxo.
  set (w := clip_to_extent (ax_extent ax) v).
  unfold value_to_index_nonlinear. rewrite Hl. fold n. rewrite Nat.eqb_refl. cbn [negb].
  fold gan w. rewrite HN.
  destruct (np_linspace_total (- qhalf) (inject_Z (Z.of_nat n) - qhalf) (Z.of_nat (length gan))) as [ys Hys]; [lia|].
  rewrite Hys. cbn [bind].
  destruct (np_linspace_ok _ _ _ _ Hys) as [Hly Hyv]. rewrite Nat2Z.id in Hly.
  assert (Hy : forall j, (j <= 2 * n)%nat -> nth j ys 0 == (inject_Z (Z.of_nat j) - 1) / 2).
  { intros j Hj. rewrite Hyv by lia. rewrite Hlgan.
    replace (Z.of_nat (2 * n + 1) - 1)%Z with (2 * Z.of_nat n)%Z by lia.
    rewrite inject_Z_mult. change (inject_Z 2) with 2. unfold qhalf. field. apply inject_Z_nz. lia. }
  unfold interp1d.
  assert (Hcl : length (combine gan ys) = (2 * n + 1)%nat) by (rewrite combine_length; lia).
  assert (Hcn : forall j, (j < 2 * n + 1)%nat ->
     fst (nth j (combine gan ys) (0, 0)) = x j /\ snd (nth j (combine gan ys) (0, 0)) = nth j ys 0).
  { intros j Hj. rewrite combine_nth by lia. split; reflexivity. }
  assert (Hcase : (sincr gan /\ x 0%nat <= w <= x (2 * n)%nat) \/
                  (sdecr gan /\ x (2 * n)%nat <= w <= x 0%nat)).
  { assert (Hx0 : x 0%nat = nth 0 (ax_node ax) 0) by (apply (Hxe 0%nat); lia).
    assert (Hxn : x (2 * n)%nat = nth n (ax_node ax) 0) by (apply Hxe; lia).
    unfold w, clip_to_extent. destruct (ax_extent ax) as [e0 e1] eqn:Ee. cbn [fst snd] in *.
    destruct Hp as [[Hc _]|[Hc _]].
    - left. split; [now apply interleave_up|]. rewrite Hx0, Hxn.
      pose proof (cells_up_sincr_node _ _ Hc 0%nat n ltac:(lia) ltac:(lia)) as Hlt.
      rewrite (proj2 (Qle_bool_iff e0 e1)) by lra.
      destruct (Qltb_spec v e0), (Qltb_spec e1 v); lra.
    - right. split; [now apply interleave_down|]. rewrite Hx0, Hxn.
      pose proof (cells_down_sdecr_node _ _ Hc 0%nat n ltac:(lia) ltac:(lia)) as Hlt.
      rewrite (proj2 (Qleb_nle e0 e1)) by lra.
      destruct (Qltb_spec v e1), (Qltb_spec e0 v); lra. }
  destruct Hcase as [[Hs Hw]|[Hs Hw]].
  - rewrite sort_pts_sorted by (rewrite xs_combine by lia; exact Hs).
    destruct (interp_sorted_spec (combine gan ys) w (0, 0)) as (k & r & Hk & E & H1 & H2 & H3).
    + rewrite xs_combine by lia. exact Hs.
    + lia.
    + rewrite (proj1 (Hcn 0%nat ltac:(lia))). apply Hw.
    + rewrite Hcl. replace (2 * n + 1 - 1)%nat with (2 * n)%nat by lia.
      rewrite (proj1 (Hcn (2 * n)%nat ltac:(lia))). apply Hw.
    + exists k, r. split; [lia|]. split; [exact E|].
      destruct (Hcn k ltac:(lia)) as [Ex Ey]. destruct (Hcn (S k) ltac:(lia)) as [Ex' Ey'].
      rewrite Ex, Ex', Ey, Ey' in *. split; [left; lra|].
      unfold between in H3. rewrite H3, !Hy by lia. rewrite inject_Z_S. field.
      pose proof (Hs k (S k) ltac:(lia) ltac:(lia)) as Hlt. unfold x. lra.
  - rewrite sort_pts_rev by (rewrite xs_combine by lia; exact Hs).
    set (pts := rev (combine gan ys)).
    assert (Hpl : length pts = (2 * n + 1)%nat) by (unfold pts; rewrite rev_length; lia).
    assert (Hpn : forall j, (j < 2 * n + 1)%nat ->
       fst (nth j pts (0, 0)) = x (2 * n - j)%nat /\ snd (nth j pts (0, 0)) = nth (2 * n - j) ys 0).
    { intros j Hj. unfold pts. rewrite rev_nth by lia. rewrite Hcl.
      replace (2 * n + 1 - S j)%nat with (2 * n - j)%nat by lia. apply Hcn. lia. }
    destruct (interp_sorted_spec pts w (0, 0)) as (k & r & Hk & E & H1 & H2 & H3).
    + unfold pts, xs_of. rewrite map_rev. fold (xs_of (combine gan ys)).
      rewrite xs_combine by lia. now apply sdecr_rev.
    + lia.
    + rewrite (proj1 (Hpn 0%nat ltac:(lia))). rewrite Nat.sub_0_r. apply Hw.
    + rewrite Hpl. replace (2 * n + 1 - 1)%nat with (2 * n)%nat by lia.
      rewrite (proj1 (Hpn (2 * n)%nat ltac:(lia))). rewrite Nat.sub_diag. apply Hw.
    + set (j := (2 * n - S k)%nat). exists j, r. split; [lia|]. split; [exact E|].
      destruct (Hpn k ltac:(lia)) as [Ex Ey]. destruct (Hpn (S k) ltac:(lia)) as [Ex' Ey'].
      fold j in Ex', Ey'. replace (2 * n - k)%nat with (S j) in Ex, Ey by lia.
      rewrite Ex, Ex', Ey, Ey' in *. split; [right; lra|].
      unfold between in H3. rewrite H3, !Hy by lia. rewrite inject_Z_S. field.
      pose proof (Hs j (S j) ltac:(lia) ltac:(lia)) as Hlt. unfold x. split; lra.
Qed.

(** * Consequences for strictly monotone points *)
Section Segments.
Variable x : nat -> Q.
Variable m : nat.
Variable up : bool.
Hypothesis Hmono : forall i j, (i < j)%nat -> (j <= m)%nat ->
  if up then x i < x j else x j < x i.

Lemma seg_frac j v r : (j < m)%nat -> in_segment x j v r ->
  exists t, 0 <= t /\ t <= 1 /\ r == (inject_Z (Z.of_nat j) + t - 1) / 2 /\
            v == x j + t * (x (S j) - x j).
Proof.
  intros Hj [Hb Hr]. pose proof (Hmono j (S j) ltac:(lia) ltac:(lia)) as Hm.
  exists ((v - x j) / (x (S j) - x j)).
  assert (Hnz : ~ x (S j) - x j == 0) by (destruct up; intro; lra).
  split; [|split; [|split; [exact Hr|field; exact Hnz]]].
  - destruct up.
    + apply Qle_shift_div_l; [lra|]. destruct Hb; lra.
    + setoid_replace ((v - x j) / (x (S j) - x j)) with ((x j - v) / (x j - x (S j)))
        by (field; split; [lra|exact Hnz]).
      apply Qle_shift_div_l; [lra|]. destruct Hb; lra.
  - destruct up.
    + apply Qle_shift_div_r; [lra|]. destruct Hb; lra.
    + setoid_replace ((v - x j) / (x (S j) - x j)) with ((x j - v) / (x j - x (S j)))
        by (field; split; [lra|exact Hnz]).
      apply Qle_shift_div_r; [lra|]. destruct Hb; lra.
Qed.

Lemma seg_at_point j i r : (j < m)%nat -> (i <= m)%nat -> in_segment x j (x i) r ->
  r == (inject_Z (Z.of_nat i) - 1) / 2.
Proof.
  intros Hj Hi Hseg. destruct (seg_frac j (x i) r Hj Hseg) as (t & Ht0 & Ht1 & Hr & Hv).
  pose proof (Hmono j (S j) ltac:(lia) ltac:(lia)) as Hm.
  assert (Hcase : i = j \/ i = S j).
  { destruct (lt_eq_lt_dec i j) as [[Hlt|]|Hgt]; [|tauto|].
    - exfalso. pose proof (Hmono i j Hlt ltac:(lia)) as H. destruct Hseg as [Hb _]. destruct up; destruct Hb; lra.
    - destruct (Nat.eq_dec i (S j)); [tauto|]. exfalso.
      pose proof (Hmono (S j) i ltac:(lia) Hi) as H. destruct Hseg as [Hb _]. destruct up; destruct Hb; lra. }
  destruct Hcase as [-> | ->].
  - assert (t == 0).
    { assert (E : t * (x (S j) - x j) == 0) by lra. apply Qmult_integral in E as [E|E]; [exact E|].
      exfalso. destruct up; lra. }
    rewrite Hr, H. field.
  - assert (t == 1).
    { assert (E : (t - 1) * (x (S j) - x j) == 0) by lra. apply Qmult_integral in E as [E|E]; [lra|].
      exfalso. destruct up; lra. }
    rewrite Hr, H. rewrite inject_Z_S. field.
Qed.

Lemma seg_strict j k v w r s :
  (j < m)%nat -> (k < m)%nat -> in_segment x j v r -> in_segment x k w s ->
  (if up then v < w else w < v) -> r < s.
Proof.
  intros Hj Hk Hv Hw Hlt.
  destruct (seg_frac j v r Hj Hv) as (t & Ht0 & Ht1 & Hr & Ev).
  destruct (seg_frac k w s Hk Hw) as (u & Hu0 & Hu1 & Hs & Ew).
  pose proof (Hmono j (S j) ltac:(lia) ltac:(lia)) as Hmj.
  pose proof (Hmono k (S k) ltac:(lia) ltac:(lia)) as Hmk.
  assert (Hhalf : inject_Z (Z.of_nat j) + t < inject_Z (Z.of_nat k) + u -> r < s).
  { intro H. rewrite Hr, Hs. apply Qmult_lt_r; [reflexivity|]. lra. }
  apply Hhalf. clear Hhalf.
  destruct (lt_eq_lt_dec j k) as [[Hjk|Ejk]|Hkj].
  - assert (Hz : inject_Z (Z.of_nat j) + 1 <= inject_Z (Z.of_nat k)).
    { rewrite <- inject_Z_S. apply inject_Z_le. lia. }
    destruct (Qlt_le_dec (inject_Z (Z.of_nat j) + t) (inject_Z (Z.of_nat k) + u)) as [|Hge]; [assumption|].
    exfalso. assert (t == 1) by lra. assert (u == 0) by lra.
    assert (Hz' : inject_Z (Z.of_nat k) <= inject_Z (Z.of_nat (S j))) by (rewrite inject_Z_S; lra).
    rewrite <- Zle_Qle in Hz'. assert (k = S j) by lia. subst k.
    rewrite H in Ev. rewrite H0 in Ew. destruct up; lra.
  - subst k. destruct up; nra.
  - exfalso.
    assert (Hx : if up then x (S k) <= x j else x j <= x (S k)).
    { destruct (Nat.eq_dec j (S k)) as [->|]; [destruct up; lra|].
      pose proof (Hmono (S k) j ltac:(lia) ltac:(lia)). destruct up; lra. }
    destruct Hv as [Hbv _]. destruct Hw as [Hbw _]. destruct up; destruct Hbv, Hbw; lra.
Qed.
End Segments.

Definition along (ax : axis) (v w : Q) : Prop :=
  (axis_up ax /\ v < w) \/ (axis_down ax /\ w < v).

Lemma clip_inside e v : (fst e <= v <= snd e \/ snd e <= v <= fst e) -> clip_to_extent e v = v.
Proof.
  intro H. unfold clip_to_extent. destruct e as [a b]. cbn [fst snd] in H.
  destruct (Qleb_spec a b); destruct (Qltb_spec v a), (Qltb_spec v b), (Qltb_spec a v), (Qltb_spec b v);
    try reflexivity; exfalso; destruct H; lra.
Qed.

Lemma nonlinear_index_exact ax :
  axis_proper ax -> (1 <= length (ax_grid ax))%nat ->
  (forall i, (i < length (ax_grid ax))%nat ->
     exists r, value_to_index_nonlinear ax (nth i (ax_grid ax) 0) = Ok r /\ r == inject_Z (Z.of_nat i)) /\
  (forall i, (i <= length (ax_grid ax))%nat ->
     exists r, value_to_index_nonlinear ax (nth i (ax_node ax) 0) = Ok r /\
               r == inject_Z (Z.of_nat i) - (1 # 2)).
Proof.
  intros Hp Hn. set (n := length (ax_grid ax)) in *.
  pose proof (proper_length ax Hp) as Hl.
  destruct (interleave_nth _ _ Hl) as [Hxe Hxo]. fold n in Hxe, Hxo.
  set (x := fun j => nth j (interleave (ax_node ax) (ax_grid ax)) 0) in *.
  assert (Hlx : length (interleave (ax_node ax) (ax_grid ax)) = (2 * n + 1)%nat)
    by (apply interleave_length; exact Hl).
  assert (Hpt : forall i v, (i <= 2 * n)%nat -> v = x i ->
     exists r, value_to_index_nonlinear ax v = Ok r /\ r == (inject_Z (Z.of_nat i) - 1) / 2).
  { intros i v Hi ->.
    destruct (value_to_index_nonlinear_segment ax (x i) Hp Hn) as (j & r & Hj & E & Hseg).
    fold n x in Hj, Hseg.
    assert (Hm : exists up : bool, forall i j, (i < j)%nat -> (j <= 2 * n)%nat -> if up then x i < x j else x j < x i).
    { apply proper_cells in Hp as [H|H].
      - exists true. intros a b Hab Hb. apply (interleave_up _ _ H); lia.
      - exists false. intros a b Hab Hb. apply (interleave_down _ _ H); lia. }
    destruct Hm as [up Hm].
    assert (Hclip : clip_to_extent (ax_extent ax) (x i) = x i).
    { apply clip_inside. destruct (proper_describes ax Hp) as (He0 & He1 & _). rewrite He0, He1.
      fold n. replace (nth 0 (ax_node ax) 0) with (x 0%nat) by (apply (Hxe 0%nat); lia).
      rewrite <- (Hxe n) by lia. fold (x (2 * n)%nat).
      assert (H1 : i = 0%nat \/ (if up then x 0%nat < x i else x i < x 0%nat))
        by (destruct (Nat.eq_dec i 0); [now left|right; apply Hm; lia]).
      assert (H2 : i = (2 * n)%nat \/ (if up then x i < x (2 * n)%nat else x (2 * n)%nat < x i))
        by (destruct (Nat.eq_dec i (2 * n)); [now left|right; apply Hm; lia]).
      pose proof (Hm 0%nat (2 * n)%nat ltac:(lia) ltac:(lia)) as H3.
      destruct up; [left|right]; destruct H1 as [->|H1], H2 as [H2|H2]; try (subst i); try lia; split; lra. }
    rewrite Hclip in Hseg.
    exists r. split; [exact E|]. apply (seg_at_point x (2 * n) up Hm j i r Hj Hi Hseg). }
  split; intros i Hi.
  - destruct (Hpt (2 * i + 1)%nat (nth i (ax_grid ax) 0)) as (r & E & Hr);
      [lia|symmetry; apply Hxo; lia|].
    exists r. split; [exact E|]. rewrite Hr. rewrite Nat2Z.inj_add, Nat2Z.inj_mul.
    rewrite inject_Z_plus, inject_Z_mult. simpl (inject_Z (Z.of_nat 2)). simpl (inject_Z (Z.of_nat 1)). 
    change (inject_Z 2) with 2. change (inject_Z 1) with 1. field.
  - destruct (Hpt (2 * i)%nat (nth i (ax_node ax) 0)) as (r & E & Hr);
      [lia|symmetry; apply Hxe; lia|].
    exists r. split; [exact E|]. rewrite Hr. rewrite Nat2Z.inj_mul, inject_Z_mult.
    simpl (Z.of_nat 2). change (inject_Z 2) with 2. field.
Qed.

Lemma nonlinear_index_strict ax v w :
  axis_proper ax -> (1 <= length (ax_grid ax))%nat ->
  inside_domain ax v = true -> inside_domain ax w = true -> along ax v w ->
  exists r s, value_to_index_nonlinear ax v = Ok r /\ value_to_index_nonlinear ax w = Ok s /\ r < s.
Proof.
  intros Hp Hn Hv Hw Hal. pose proof (proper_length ax Hp) as Hl.
  set (x := fun j => nth j (interleave (ax_node ax) (ax_grid ax)) 0) in *.
  assert (Hlx : length (interleave (ax_node ax) (ax_grid ax)) = (2 * length (ax_grid ax) + 1)%nat)
    by (apply interleave_length; exact Hl).
  destruct (value_to_index_nonlinear_segment ax v Hp Hn) as (j & r & Hj & Er & Hsr).
  destruct (value_to_index_nonlinear_segment ax w Hp Hn) as (k & s & Hk & Es & Hss).
  assert (Hcv : forall u, inside_domain ax u = true -> clip_to_extent (ax_extent ax) u = u).
  { intros u Hu. apply clip_inside. destruct Hal as [[H _]|[H _]].
    - left. now apply inside_domain_up.
    - right. now apply inside_domain_down. }
  rewrite Hcv in Hsr, Hss by assumption.
  exists r, s. split; [exact Er|]. split; [exact Es|].
  destruct Hal as [[[Hc _] Hlt]|[[Hc _] Hlt]].
  - apply (seg_strict x (2 * length (ax_grid ax)) true) with (j := j) (k := k) (v := v) (w := w); try assumption.
    intros a b Hab Hb. apply (interleave_up _ _ Hc); lia.
  - apply (seg_strict x (2 * length (ax_grid ax)) false) with (j := j) (k := k) (v := v) (w := w); try assumption.
    intros a b Hab Hb. apply (interleave_down _ _ Hc); lia.
Qed.

Lemma nonlinear_index_clipped ax v :
  value_to_index_nonlinear ax v = value_to_index_nonlinear ax (clip_to_extent (ax_extent ax) v).
Proof.
  unfold value_to_index_nonlinear. do 2 f_equal.
  assert (H : clip_to_extent (ax_extent ax) (clip_to_extent (ax_extent ax) v) = clip_to_extent (ax_extent ax) v).
  { apply clip_inside. unfold clip_to_extent. destruct (ax_extent ax) as [a b]. cbn [fst snd].
    destruct (Qleb_spec a b); [left|right]; 
      repeat match goal with |- context [?p <?q ?q'] => destruct (Qltb_spec p q') end; lra. }
  now rewrite H.
Qed.

(** * Axes given by their grid points only *)
Lemma set_first_cons x l y : set_first (x :: l) y = y :: l. Proof. reflexivity. Qed.
Lemma set_last_app l x y : set_last (l ++ [x]) y = l ++ [y].
Proof. unfold set_last. destruct (l ++ [x]) eqn:E; [destruct l; discriminate|]. rewrite <- E. now rewrite removelast_last. Qed.
Lemma nth_snoc_last (l : list Q) x n d : length l = n -> nth n (l ++ [x]) d = x.
Proof. intros <-. rewrite app_nth2 by lia. now rewrite Nat.sub_diag. Qed.

(** the nodes in terms of the interior ones *)
Lemma set_last_framed n0 mid x y : set_last (n0 :: mid ++ [x]) y = n0 :: mid ++ [y].
Proof. exact (set_last_app (n0 :: mid) x y). Qed.
Lemma nodes_from_grid_shape (spl : spline_fn) (g mid : list Q) (x y : Q) :
  (2 <= length g)%nat -> length mid = (length g - 1)%nat ->
  (if (3 <? length g)%nat
   then Ok (0 :: map (fun i => spl (arange_Q (length g)) g (inject_Z (Z.of_nat i) + qhalf))
                    (seq 0 (length g - 1)) ++ [0])
   else convolve_full g) = Ok (x :: mid ++ [y]) ->
  exists n0 nl, nodes_from_grid spl g None = Ok (n0 :: mid ++ [nl]) /\
    n0 == 2 * nth 0 g 0 - nth 0 mid 0 /\
    nl == 2 * nth (length g - 1) g 0 - nth (length g - 2) mid 0.
Proof.
  intros Hg Hm E. unfold nodes_from_grid. rewrite E. cbn [bind].
  destruct g as [|g0 gr] eqn:Eg; [simpl in Hg; lia|]. rewrite <- Eg in *.
  rewrite (proj2 (Nat.ltb_lt 1 (length g))) by lia.
  rewrite set_first_cons, set_last_framed.
  eexists _, _. split; [reflexivity|]. split.
  - cbn [nth]. rewrite app_nth1 by lia.
    replace (nth 0 g 0) with g0 by (rewrite Eg; reflexivity). ring.
  - rewrite last_nth. rewrite (nth_indep g g0 0) by lia.
    match goal with |- context [(length (?a :: mid ++ [?b]) - 2)%nat] =>
      replace (length (a :: mid ++ [b]) - 2)%nat with (S (length g - 2))
        by (simpl; rewrite app_length; simpl; lia) end.
    cbn [nth]. rewrite app_nth1 by lia. ring.
Qed.

Lemma nodes_from_grid_spline spl g :
  (4 <= length g)%nat ->
  exists n0 nl mid, nodes_from_grid spl g None = Ok (n0 :: mid ++ [nl]) /\
    length mid = (length g - 1)%nat /\
    (forall i, (i < length g - 1)%nat ->
       nth i mid 0 = spl (arange_Q (length g)) g (inject_Z (Z.of_nat i) + qhalf)) /\
    n0 == 2 * nth 0 g 0 - nth 0 mid 0 /\
    nl == 2 * nth (length g - 1) g 0 - nth (length g - 2) mid 0.
Proof.
  intro Hg.
  set (mid := map (fun i => spl (arange_Q (length g)) g (inject_Z (Z.of_nat i) + qhalf)) (seq 0 (length g - 1))).
  assert (Hm : length mid = (length g - 1)%nat) by (unfold mid; now rewrite map_length, seq_length).
  destruct (nodes_from_grid_shape spl g mid 0 0) as (n0 & nl & E & H1 & H2); [lia|exact Hm| |].
  - rewrite (proj2 (Nat.ltb_lt 3 (length g))) by lia. reflexivity.
  - exists n0, nl, mid. split; [exact E|]. split; [exact Hm|]. split; [|split; assumption].
    intros i Hi. unfold mid. now rewrite nth_map_seq by lia.
Qed.
Lemma nodes_from_grid_short spl g :
  (2 <= length g <= 3)%nat ->
  exists n0 nl mid, nodes_from_grid spl g None = Ok (n0 :: mid ++ [nl]) /\
    length mid = (length g - 1)%nat /\
    (forall i, (i < length g - 1)%nat -> nth i mid 0 == (nth i g 0 + nth (S i) g 0) / 2) /\
    n0 == 2 * nth 0 g 0 - nth 0 mid 0 /\
    nl == 2 * nth (length g - 1) g 0 - nth (length g - 2) mid 0.
Proof.
  intro Hg.
  destruct (nodes_from_grid_shape spl g (pair_means g) (qhalf * hd 0 g) (qhalf * last g (hd 0 g))) as (n0 & nl & E & H1 & H2);
    [lia|apply pair_means_length| |].
  - replace (3 <? length g)%nat with false by (symmetry; apply Nat.ltb_ge; lia).
    destruct g as [|g0 gr]; [simpl in Hg; lia|]. reflexivity.
  - exists n0, nl, (pair_means g). split; [exact E|]. split; [apply pair_means_length|].
    split; [|split; assumption].
    intros i Hi. rewrite nth_pair_means by lia. unfold qhalf. field.
Qed.

Lemma mk_axis_from_grid spl nm un g gn :
  nodes_from_grid spl g None = Ok gn -> cells_up gn g \/ cells_down gn g ->
  mk_axis spl nm un None (Some g) None None = Ok (made nm un gn g).
Proof.
  intros Hgn Hc. pose proof (mk_axis_cells spl nm un gn g Hc) as H.
  unfold mk_axis in *. cbn [check_monotone] in *.
  assert (Hg : negb (monotonicity g =? 0)%Z = true).
  { destruct Hc as [Hc|Hc]; [apply sincr_monotone; eapply cells_up_sincr_grid|apply sdecr_monotone; eapply cells_down_sdecr_grid]; exact Hc. }
  apply bind_ok in H as (u & _ & H). rewrite Hg in *. cbn [guard bind] in *.
  rewrite Hgn. cbn [bind]. exact H.
Qed.

Lemma nth_framed (n0 nl : Q) mid n : length mid = n ->
  nth 0 (n0 :: mid ++ [nl]) 0 = n0 /\ nth (S n) (n0 :: mid ++ [nl]) 0 = nl /\
  forall i, (i < n)%nat -> nth (S i) (n0 :: mid ++ [nl]) 0 = nth i mid 0.
Proof.
  intro H. split; [reflexivity|]. split.
  - cbn [nth]. now apply nth_snoc_last.
  - intros i Hi. cbn [nth]. apply app_nth1. lia.
Qed.

Lemma axis_from_uniform_grid spl nm un g h :
  reproduces_lines spl -> (2 <= length g)%nat -> ~ h == 0 ->
  (forall i, (i < length g)%nat -> nth i g 0 == nth 0 g 0 + inject_Z (Z.of_nat i) * h) ->
  exists ax, mk_axis spl nm un None (Some g) None None = Ok ax /\ ax_grid ax = g /\
    axis_uniform (nth 0 g 0 - (1 # 2) * h)
                 (nth 0 g 0 + (inject_Z (Z.of_nat (length g)) - (1 # 2)) * h) (length g) ax.
Proof.
  intros Hspl Hn Hh Hlin. set (n := length g) in *.
  assert (Hs : exists n0 nl mid, nodes_from_grid spl g None = Ok (n0 :: mid ++ [nl]) /\
    length mid = (n - 1)%nat /\
    (forall i, (i < n - 1)%nat -> nth i mid 0 == nth 0 g 0 + (inject_Z (Z.of_nat i) + (1 # 2)) * h) /\
    n0 == 2 * nth 0 g 0 - nth 0 mid 0 /\
    nl == 2 * nth (n - 1) g 0 - nth (n - 2) mid 0).
  { destruct (le_lt_dec n 3) as [H3|H3].
    - destruct (nodes_from_grid_short spl g) as (n0 & nl & mid & E & Hm & Hv & H0 & H1); [lia|].
      exists n0, nl, mid. split; [exact E|]. split; [exact Hm|]. split; [|split; assumption].
      intros i Hi. rewrite Hv by lia. rewrite (Hlin i), (Hlin (S i)) by lia. rewrite inject_Z_S. field.
    - destruct (nodes_from_grid_spline spl g) as (n0 & nl & mid & E & Hm & Hv & H0 & H1); [lia|].
      exists n0, nl, mid. split; [exact E|]. split; [exact Hm|]. split; [|split; assumption].
      intros i Hi. rewrite Hv by lia. rewrite (Hspl _ _ (nth 0 g 0) h).
      + unfold qhalf. ring.
      + apply arange_length.
      + rewrite arange_length. lia.
      + rewrite arange_length. intros k Hk. rewrite !nth_arange by lia. rewrite inject_Z_S. lra.
      + rewrite arange_length. intros k Hk. rewrite nth_arange by lia. rewrite (Hlin k) by lia. ring. }
  destruct Hs as (n0 & nl & mid & E & Hm & Hv & H0 & H1).
  set (gn := n0 :: mid ++ [nl]) in *.
  destruct (nth_framed n0 nl mid (n - 1) Hm) as (F0 & Fl & Fi). fold gn in F0, Fl, Fi.
  assert (Hln : length gn = S n) by (unfold gn; simpl; rewrite app_length; simpl; lia).
  assert (Hnode : forall i, (i <= n)%nat ->
     nth i gn 0 == nth 0 g 0 + (inject_Z (Z.of_nat i) - (1 # 2)) * h).
  { intros i Hi. destruct i as [|i].
    - rewrite F0, H0, Hv by lia. simpl Z.of_nat. ring.
    - destruct (Nat.eq_dec i (n - 1)) as [->|Hne].
      + rewrite Fl, H1, Hv by lia. rewrite (Hlin (n - 1)%nat) by lia.
        replace (n - 1)%nat with (S (n - 2)) by lia. rewrite !inject_Z_S. ring.
      + rewrite Fi by lia. rewrite Hv by lia. rewrite inject_Z_S. ring. }
  assert (Hc : cells_up gn g \/ cells_down gn g).
  { destruct (Qlt_le_dec 0 h) as [Hp|Hnp].
    - left. split; [lia|]. intros i Hi. fold n in Hi. rewrite (Hlin i) by lia. rewrite !Hnode by lia.
      rewrite inject_Z_S. split; lra.
    - right. assert (h < 0). { destruct (Qlt_le_dec h 0); [assumption|]. exfalso. apply Hh. lra. }
      split; [lia|]. intros i Hi. fold n in Hi. rewrite (Hlin i) by lia. rewrite !Hnode by lia.
      rewrite inject_Z_S. split; lra. }
  rewrite (mk_axis_from_grid spl nm un g gn E Hc). eexists; split; [reflexivity|].
  split; [reflexivity|].
  assert (Hz : ~ inject_Z (Z.of_nat n) == 0) by (apply inject_Z_nz; lia).
  split; [exact Hln|]. split; [reflexivity|]. split; [reflexivity|].
  cbn [made ax_extent ax_node ax_grid fst snd]. fold n.
  split; [rewrite (Hnode 0%nat) by lia; simpl Z.of_nat; ring|].
  split; [rewrite (Hnode n) by lia; reflexivity|].
  split; intros i Hi.
  - rewrite Hnode by lia. field. exact Hz.
  - rewrite Hlin by lia. field. exact Hz.
Qed.

Lemma axis_from_short_grid spl nm un g :
  (2 <= length g <= 3)%nat -> sincr g \/ sdecr g ->
  exists ax, mk_axis spl nm un None (Some g) None None = Ok ax /\ ax_grid ax = g /\ axis_proper ax /\
    (forall i, (i < length g - 1)%nat -> nth (S i) (ax_node ax) 0 == (nth i g 0 + nth (S i) g 0) / 2).
Proof.
  intros Hn Hmon.
  destruct (nodes_from_grid_short spl g Hn) as (n0 & nl & mid & E & Hm & Hv & H0 & H1).
  destruct (nth_framed n0 nl mid _ Hm) as (F0 & Fl & Fi).
  set (gn := n0 :: mid ++ [nl]) in *.
  assert (Hln : length gn = S (length g)) by (unfold gn; simpl; rewrite app_length; simpl; lia).
  assert (Hi : forall i, (i < length g - 1)%nat -> nth (S i) gn 0 == (nth i g 0 + nth (S i) g 0) / 2).
  { intros i Hi. rewrite Fi by lia. now apply Hv. }
  assert (Eh : forall a b : Q, (a + b) / 2 == (1 # 2) * a + (1 # 2) * b) by (intros; field).
  assert (Hc : cells_up gn g \/ cells_down gn g).
  { destruct Hmon as [Hs|Hs]; [left|right]; (split; [exact Hln|]); intros i Hilt.
    - split.
      + destruct i as [|i].
        * rewrite F0, H0, Hv by lia. rewrite Eh. pose proof (Hs 0%nat 1%nat ltac:(lia) ltac:(lia)). lra.
        * rewrite Hi by lia. rewrite Eh. pose proof (Hs i (S i) ltac:(lia) ltac:(lia)). lra.
      + destruct (Nat.eq_dec i (length g - 1)) as [->|].
        * rewrite Fl, H1, Hv by lia. rewrite Eh. replace (S (length g - 2)) with (length g - 1)%nat by lia.
          pose proof (Hs (length g - 2)%nat (length g - 1)%nat ltac:(lia) ltac:(lia)). lra.
        * rewrite Hi by lia. rewrite Eh. pose proof (Hs i (S i) ltac:(lia) ltac:(lia)). lra.
    - split.
      + destruct (Nat.eq_dec i (length g - 1)) as [->|].
        * rewrite Fl, H1, Hv by lia. rewrite Eh. replace (S (length g - 2)) with (length g - 1)%nat by lia.
          pose proof (Hs (length g - 2)%nat (length g - 1)%nat ltac:(lia) ltac:(lia)). lra.
        * rewrite Hi by lia. rewrite Eh. pose proof (Hs i (S i) ltac:(lia) ltac:(lia)). lra.
      + destruct i as [|i].
        * rewrite F0, H0, Hv by lia. rewrite Eh. pose proof (Hs 0%nat 1%nat ltac:(lia) ltac:(lia)). lra.
        * rewrite Hi by lia. rewrite Eh. pose proof (Hs i (S i) ltac:(lia) ltac:(lia)). lra. }
  rewrite (mk_axis_from_grid spl nm un g gn E Hc). eexists; split; [reflexivity|].
  split; [reflexivity|]. split; [now apply made_proper|]. exact Hi.
Qed.
Lemma axis_from_single_point spl nm un x :
  exists ax, mk_axis spl nm un None (Some [x]) None None = Ok ax /\
    ax_grid ax = [x] /\ ax_node ax = [x - qhalf; x + qhalf] /\ axis_up ax.
Proof.
  assert (Hc : cells_up [x - qhalf; x + qhalf] [x]).
  { split; [reflexivity|]. intros i Hi. assert (i = 0%nat) as -> by (simpl in Hi; lia). simpl. unfold qhalf. split; lra. }
  exists (made nm un [x - qhalf; x + qhalf] [x]). split; [|split; [reflexivity|split; [reflexivity|now apply made_up]]].
  apply mk_axis_from_grid; [reflexivity|now left].
Qed.

(** The chord spline has the property assumed of scipy's spline. *)
Lemma chord_spline_lines : reproduces_lines chord_spline.
Proof.
  intros xs ys c d t Hl H4 Hinc Hlin. unfold chord_spline.
  destruct xs as [|x0 [|x1 xs]]; [simpl in H4; lia..|].
  destruct ys as [|y0 [|y1 ys]]; [simpl in Hl; lia..|].
  pose proof (Hinc 0%nat ltac:(simpl in *; lia)) as Hx. cbn [nth] in Hx.
  pose proof (Hlin 0%nat ltac:(simpl in *; lia)) as H0. pose proof (Hlin 1%nat ltac:(simpl in *; lia)) as H1.
  cbn [nth] in H0, H1. rewrite H0, H1. field. lra.
Qed.

(** * What the constructor's check implies (C02) *)
Lemma mk_axis_inv spl nm un gn g ax :
  mk_axis spl nm un (Some gn) (Some g) None None = Ok ax ->
  check_compatible g gn = Ok tt /\ negb (monotonicity gn =? 0)%Z = true /\
  negb (monotonicity g =? 0)%Z = true /\ ax_grid ax = g /\ ax_node ax = gn.
Proof.
  unfold mk_axis. intro H. apply bind_ok in H as (u & H1 & H). apply bind_ok in H as (u' & H2 & H).
  cbn [bind] in H. apply bind_ok in H as (g' & H3 & H).
  apply bind_ok in H3 as ([] & H3 & H4). injection H4 as <-.
  destruct gn as [|gn0 gr]; [discriminate|]. cbn [bind] in H. injection H as <-.
  split; [exact H3|]. split; [eapply guard_ok; exact H1|]. split; [eapply guard_ok; exact H2|].
  split; reflexivity.
Qed.
Lemma monotone_cases l : negb (monotonicity l =? 0)%Z = true -> sincr l \/ sdecr l.
Proof.
  intro H. destruct (monotonicity_range l) as [E|[E|E]].
  - left. now apply monotonicity_1.
  - right. now apply monotonicity_m1.
  - rewrite E in H. discriminate.
Qed.
Lemma accepted_upper_ok_proper spl nm un gn g ax :
  length gn = S (length g) ->
  (forall i, (i < length g)%nat -> nth i g 0 < nth (S i) gn 0) ->
  mk_axis spl nm un (Some gn) (Some g) None None = Ok ax -> axis_up ax.
Proof.
  intros Hl Hup H. destruct (mk_axis_inv _ _ _ _ _ _ H) as (Hc & _ & _ & _ & _).
  assert (Hcu : cells_up gn g).
  { split; [exact Hl|]. intros i Hi. split; [|now apply Hup].
    destruct (check_compatible_inv gn g Hl Hc) as [Ha|(k & Hk & Hb)]; [now apply Ha|].
    exfalso. specialize (Hup k Hk). lra. }
  rewrite (mk_axis_up _ _ _ _ _ Hcu) in H. injection H as <-. now apply made_up.
Qed.
