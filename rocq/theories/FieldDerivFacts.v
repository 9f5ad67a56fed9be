(** The staggered derivative (C65). *)
From Coq Require Import Lia Lqa Permutation Setoid.
From Verif Require Import PyBase PyBaseFacts NumpyModel NumpyFacts QSum AxisModel AxisSpec AxisFacts AxisInterpFacts
  NdModel NdFacts FieldModel FieldSpec FieldInvFacts FieldNodedFacts FieldRearrFacts FieldReduceFacts FieldOpFacts FieldIntFacts
  FieldGridFacts FieldPadFacts.

Lemma slice_tail m : (1 <= m)%Z -> slice_indices (mkslice (Some 1%Z) None None) m = Ok (1%Z, m, 1%Z) /\ range_len 1 m 1 = Z.to_nat (m - 1).
Proof.
  intro H. unfold slice_indices, adjust_bound. cbn [s_start s_stop s_step Z.eqb Z.ltb Z.compare]. split.
  - destruct (Z.leb_spec m 1); do 2 f_equal; f_equal; lia.
  - unfold range_len. cbn [Z.ltb Z.compare]. destruct (Z.ltb_spec 1 m); [f_equal; rewrite Z.div_1_r; lia|]. lia.
Qed.
Lemma slice_front m : (1 <= m)%Z -> slice_indices (mkslice (Some 0%Z) (Some (-1)%Z) None) m = Ok (0%Z, (m - 1)%Z, 1%Z) /\
  range_len 0 (m - 1) 1 = Z.to_nat (m - 1).
Proof.
  intro H. unfold slice_indices, adjust_bound. cbn [s_start s_stop s_step Z.eqb Z.ltb Z.compare]. split.
  - destruct (Z.leb_spec m 0); [lia|]. destruct (Z.ltb_spec (-1 + m) 0); [lia|]. destruct (Z.leb_spec m (-1 + m)); [lia|].
    do 2 f_equal. f_equal. lia.
  - unfold range_len. cbn [Z.ltb Z.compare]. destruct (Z.ltb_spec 0 (m - 1)); [f_equal; rewrite Z.div_1_r; lia|]. lia.
Qed.
Lemma slice_inner m : (2 <= m)%Z -> slice_indices (mkslice (Some 1%Z) (Some (-1)%Z) None) m = Ok (1%Z, (m - 1)%Z, 1%Z) /\
  range_len 1 (m - 1) 1 = Z.to_nat (m - 2).
Proof.
  intro H. unfold slice_indices, adjust_bound. cbn [s_start s_stop s_step Z.eqb Z.ltb Z.compare]. split.
  - destruct (Z.leb_spec m 1); [lia|]. destruct (Z.ltb_spec (-1 + m) 0); [lia|]. destruct (Z.leb_spec m (-1 + m)); [lia|].
    do 2 f_equal. f_equal. lia.
  - unfold range_len. cbn [Z.ltb Z.compare]. destruct (Z.ltb_spec 1 (m - 1)); [f_equal; rewrite Z.div_1_r; lia|]. lia.
Qed.
Lemma inner_nodes (l : list Q) : (2 <= length l)%nat ->
  exists r, getslice l (mkslice (Some 1%Z) (Some (-1)%Z) None) = Ok r /\ length r = (length l - 2)%nat /\
    forall i, (i < length r)%nat -> nth i r 0 = nth (S i) l 0.
Proof.
  intro H. destruct (slice_inner (Z.of_nat (length l)) ltac:(lia)) as [S R].
  destruct (getslice l (mkslice (Some 1%Z) (Some (-1)%Z) None)) as [r|e] eqn:E; [|unfold getslice in E; rewrite S in E; discriminate].
  exists r. split; [reflexivity|]. pose proof (getslice_length _ _ _ _ _ _ S E) as L. rewrite R in L. split; [lia|].
  intros i Hi. rewrite (getslice_nth_Q _ _ _ _ _ _ i S E) by lia. f_equal. lia.
Qed.

Lemma mk_axis_names spl nm un gn g ext n ax : mk_axis spl nm un gn g ext n = Ok ax -> ax_name ax = nm /\ ax_unit ax = un.
Proof.
  unfold mk_axis. intro H. apply bind_ok in H as (u1 & _ & H). apply bind_ok in H as (u2 & _ & H).
  apply bind_ok in H as (gn' & _ & H). apply bind_ok in H as (g' & _ & H). destruct gn' as [|g0 gn']; [discriminate|].
  apply bind_ok in H as (ext' & _ & H). apply bind_ok in H as (n' & _ & H). injection H as <-. auto.
Qed.
Lemma derivative_total spl f k : reproduces_lines spl -> simple_field f -> (k < length (f_shape f))%nat ->
  ascending_uniform (nth k (f_axes f) axis0) -> (3 <= nth k (f_shape f) 0)%Z -> nonempty (f_shape f) ->
  exists g, derivative_stagger spl f (Z.of_nat k) = Ok g /\
    f_shape g = upd (f_shape f) k (nth k (f_shape f) 0 - 1)%Z /\
    (forall idx, in_shape (f_shape g) idx = true ->
       a_at (f_data g) idx == (a_at (f_data f) (upd idx k (nth k idx 0 + 1)%Z) - a_at (f_data f) (upd idx k (nth k idx 0%Z)))
                              / cell_width (nth k (f_axes f) axis0) 0) /\
    (exists ax, f_axes g = upd (f_axes f) k ax /\ ascending_uniform ax /\ ax_len ax = (nth k (f_shape f) 0 - 1)%Z /\
       (forall i, (0 <= i < ax_len ax)%Z -> nth (Z.to_nat i) (ax_grid ax) 0 == nth (Z.to_nat (i + 1)) (ax_node (nth k (f_axes f) axis0)) 0 /\
          cell_width ax i == cell_width (nth k (f_axes f) axis0) 0) /\
       ax_name ax = ax_name (nth k (f_axes f) axis0) /\ ax_unit ax = ax_unit (nth k (f_axes f) axis0)) /\
    consistent g /\ f_inner g = [] /\ l_unit (f_top g) = l_unit (f_top f).
Proof.
  intros Hspl Hs Hk (a & b & n & Hn & Hab & Hu) H3 Hne. pose proof (shape_nonneg f (simple_inv f Hs)) as Hnn.
  pose proof Hs as (Hcf & Hi & Hd3 & Hp). pose proof Hcf as (L & Hl & L2 & L3). set (oax := nth k (f_axes f) axis0) in *.
  assert (Elen : ax_len oax = nth k (f_shape f) 0%Z) by (apply (Hl k); [apply nth_error_nth'; lia|apply nth_error_nth'; lia]).
  pose proof Hu as (Ln & Lg & Nn & X0 & X1 & _). assert (Em : nth k (f_shape f) 0%Z = Z.of_nat n) by (unfold ax_len in Elen; congruence).
  set (m := nth k (f_shape f) 0%Z) in *.
  destruct (uniform_spacing a b n oax Hn Hu) as (h & Eh & Hh).
  assert (Hpos : 0 < inject_Z (Z.of_nat n)) by (apply inject_Z_pos; lia).
  assert (Eab : qabs (b - a) == b - a) by (unfold qabs; destruct (Qleb_spec 0 (b - a)); [reflexivity|lra]).
  rewrite Eab in Hh. assert (Hh0 : 0 < h) by nra.
  pose proof (uniform_width a b n oax h 0 Hn Hu Hh ltac:(lia)) as W.
  pose proof (uniform_at a b n oax h Hn Hu Hh) as [An _].
  destruct (inner_nodes (ax_node oax) ltac:(lia)) as (gr & Egr & Lgr & Vgr).
  assert (Lgr' : length gr = (n - 1)%nat) by lia.
  assert (Vgr' : forall i, (i < length gr)%nat -> nth i gr 0 == nth 0 gr 0 + inject_Z (Z.of_nat i) * h).
  { intros i Hi'. rewrite !Vgr by lia. rewrite !An by lia. rewrite !inject_Z_S. change (inject_Z (Z.of_nat 0)) with 0. ring. }
  destruct (axis_from_uniform_grid spl (ax_name oax) (ax_unit oax) gr h Hspl ltac:(lia) ltac:(lra) Vgr') as (ax & Eax & Gax & Uax).
  assert (Hax' : h * inject_Z (Z.of_nat (length gr)) == nth 0 gr 0 + (inject_Z (Z.of_nat (length gr)) - (1 # 2)) * h - (nth 0 gr 0 - (1 # 2) * h)) by ring.
  unfold derivative_stagger. rewrite (getidx_at _ _ axis0) by lia. cbn [bind]. fold oax.
  rewrite (uniform_islinear a b n oax Hn Hu). cbn [bind negb]. rewrite Egr. cbn [bind]. rewrite Eax. cbn [bind].
  rewrite setidx_at by lia. cbn [bind]. rewrite (nonempty_dims _ Hne), Nat2Z.id.
  rewrite !setidx_at by (rewrite repeat_length; exact Hk). cbn [bind]. rewrite Hi. cbn [data_getitem].
  destruct (slice_tail m ltac:(lia)) as [S1 R1]. destruct (slice_front m ltac:(lia)) as [S2 R2].
  destruct (np_getitem_one (f_data f) k _ _ _ _ Hnn Hk S1) as (b1 & E1 & Sh1 & V1). unfold f_shape, full_slice in *. rewrite E1.
  destruct (np_getitem_one (f_data f) k _ _ _ _ Hnn Hk S2) as (b2 & E2 & Sh2 & V2). rewrite E2. cbn [bind snd].
  rewrite Eh. cbn [bind].
  destruct (np_map2_same (fun x y => (x - y) / h) b1 b2) as (d & Ed & Sd & Vd); [now rewrite Sh1, Sh2, R1, R2|].
  rewrite Ed. cbn [bind]. rewrite R1, Z2Nat.id in Sh1 by lia.
  assert (Nax : ax_len ax = (m - 1)%Z) by (unfold ax_len; destruct Uax as (_ & _ & -> & _); lia).
  assert (Hmap : map ax_len (upd (f_axes f) k ax) = a_shape d).
  { rewrite Sd, Sh1, map_upd, Nax. f_equal. exact (consistent_map f Hcf). }
  rewrite field_of_total; [|exact Hmap|rewrite upd_length, L; exact Hd3].
  eexists. split; [reflexivity|]. cbn [f_data f_top f_inner l_unit]. split; [congruence|]. split; [|split; [|split; [|auto]]].
  - intros idx Hidx. rewrite Sd in Hidx. rewrite (Vd idx Hidx). rewrite Sh1 in Hidx. pose proof (in_shape_length_upd _ _ _ _ Hidx) as Li.
    rewrite (V1 idx Li), (V2 idx Li). rewrite W. replace (1 + nth k idx 0 * 1)%Z with (nth k idx 0 + 1)%Z by lia.
    replace (0 + nth k idx 0 * 1)%Z with (nth k idx 0%Z) by lia. reflexivity.
  - exists ax. cbn [f_axes f_top l_axes]. split; [reflexivity|].
    split; [do 3 eexists; split; [|split; [|exact Uax]]; [lia|]|].
    { assert (2 <= inject_Z (Z.of_nat (length gr))) by (change 2 with (inject_Z 2); rewrite <- Zle_Qle; lia). nra. }
    split; [exact Nax|]. split; [|].
    + intros i Hi'. rewrite Nax in Hi'. split.
      * rewrite Gax, Vgr by lia. replace (Z.to_nat (i + 1)) with (S (Z.to_nat i)) by lia. reflexivity.
      * rewrite (uniform_width _ _ (length gr) ax h i ltac:(lia) Uax Hax' ltac:(lia)). now rewrite W.
    + apply mk_axis_names in Eax. exact Eax.
  - apply map_consistent; unfold f_shape; cbn [f_data f_axes f_top l_axes f_ats f_tao l_ats l_tao]; [exact Hmap|apply repeat_length..].
Qed.

(** * Integral of the derivative *)
Lemma in_shape_entries sh idx O : in_shape sh idx = true -> (forall k, In k O -> (k < length sh)%nat) ->
  in_shape (entries_at 0%Z sh O) (entries_at 0%Z idx O) = true.
Proof.
  intros H HO. unfold entries_at. induction O as [|k O IH]; [reflexivity|]. cbn [map in_shape].
  destruct (in_shape_nth _ _ k 0%Z 0%Z H (HO k (or_introl eq_refl))) as [H1 H2].
  rewrite IH by (intros; apply HO; now right). apply andb_true_iff. split; [|reflexivity].
  apply andb_true_iff. split; [apply Z.leb_le|apply Z.ltb_lt]; assumption.
Qed.
(** the line through idx along dimension k *)
Lemma line_fibre sh k idx : in_shape sh idx = true -> (k < length sh)%nat ->
  lists_fibre sh [k] (entries_at 0%Z idx (others (length sh) [k]))
    (map (fun i => upd idx k (Z.of_nat i)) (seq 0 (Z.to_nat (nth k sh 0%Z)))).
Proof.
  intros Hi Hk. pose proof (in_shape_length _ _ Hi) as Li. split.
  - apply FinFun.Injective_map_NoDup; [|apply seq_NoDup]. intros i j E.
    apply (f_equal (fun l => nth k l 0%Z)) in E. rewrite !nth_upd_same in E by lia. lia.
  - intro j. rewrite in_map_iff. split.
    + intros (i & <- & Hin). apply in_seq in Hin. split.
      * rewrite <- (upd_nth sh k 0%Z Hk). apply in_shape_upd; [exact Hi|exact Hk|lia].
      * unfold entries_at. apply map_ext_in. intros q Hq. apply others_In in Hq as [_ Hq]. apply nth_upd_other. intros ->. apply Hq. now left.
    + intros [Hj E]. pose proof (in_shape_length _ _ Hj) as Lj. pose proof (in_shape_nth _ _ k 0%Z 0%Z Hj Hk) as Hjk.
      exists (Z.to_nat (nth k j 0%Z)). split; [|apply in_seq; lia].
      apply nth_ext with (d := 0%Z) (d' := 0%Z); [rewrite upd_length; lia|]. intros q Hq. rewrite upd_length in Hq.
      destruct (Nat.eq_dec q k) as [->|N]; [rewrite nth_upd_same by lia; lia|]. rewrite nth_upd_other by exact N.
      unfold entries_at in E. assert (Hin : In q (others (length sh) [k])).
      { apply others_In. split; [lia|]. intros [->|[]]. now apply N. }
      symmetry. exact (ext_in_map E q Hin).
Qed.
Lemma qsum_telescope (v : nat -> Q) n : qsum (map (fun i => v (S i) - v i) (seq 0 n)) == v n - v 0%nat.
Proof.
  induction n as [|n IH]; [cbn [seq map]; rewrite qsum_nil; ring|].
  rewrite seq_S, map_app, qsum_app, IH. cbn [map plus]. rewrite qsum_cons, qsum_nil. ring.
Qed.
Lemma derivative_integral spl f k : reproduces_lines spl -> simple_field f -> (k < length (f_shape f))%nat ->
  ascending_uniform (nth k (f_axes f) axis0) -> (3 <= nth k (f_shape f) 0)%Z -> nonempty (f_shape f) ->
  exists g r, derivative_stagger spl f (Z.of_nat k) = Ok g /\ integrate_fast g [Z.of_nat k] = Ok r /\ remains g [k] r /\
    forall idx, in_shape (f_shape f) idx = true ->
      a_at (f_data r) (entries_at 0%Z idx (others (length (f_shape f)) [k]))
      == a_at (f_data f) (upd idx k (nth k (f_shape f) 0 - 1)%Z) - a_at (f_data f) (upd idx k 0%Z).
Proof.
  intros Hspl Hs Hk Ha H3 Hne.
  destruct (derivative_total spl f k Hspl Hs Hk Ha H3 Hne) as (g & Eg & Sg & Vg & (ax & Ag & Aax & Nax & Wax & _) & Cg & _ & _).
  pose proof Hs as ((L & _) & _ & _ & Hp). pose proof (in_shape_length) as ISL.
  assert (Lg : length (f_shape g) = length (f_shape f)) by (rewrite Sg; apply upd_length).
  assert (Hng : nonempty (f_shape g)) by (rewrite Sg; apply Forall_upd; [exact Hne|lia]).
  assert (Hnd : Forall axis_noded (f_axes g)).
  { rewrite Ag. apply Forall_upd; [|now apply ascending_noded]. revert Hp. apply Forall_impl. intros x Hx.
    pose proof (proper_length x Hx). apply proper_describes in Hx as (_ & _ & Hx). split; [exact Hx|lia]. }
  destruct (integrate_fast_total g [Z.of_nat k] [k] Cg Hnd Hng) as (r & Er & Rr & Vr).
  { split; [repeat constructor; intros []|]. split.
    - intro q. cbn [In]. split; intros [E|[]]; left; lia.
    - intros q [<-|[]]. lia. }
  exists g, r. split; [exact Eg|]. split; [exact Er|]. split; [exact Rr|]. intros idx Hidx. pose proof (ISL _ _ Hidx) as Li.
  set (m := nth k (f_shape f) 0%Z) in *. set (idx0 := upd idx k 0%Z).
  assert (H0 : in_shape (f_shape g) idx0 = true) by (rewrite Sg; apply in_shape_upd; [exact Hidx|exact Hk|lia]).
  set (O := others (length (f_shape f)) [k]).
  assert (E0 : entries_at 0%Z idx O = entries_at 0%Z idx0 O).
  { unfold entries_at, idx0. apply map_ext_in. intros q Hq. apply others_In in Hq as [_ Hq]. symmetry. apply nth_upd_other.
    intros ->. apply Hq. now left. }
  rewrite E0. assert (Hin : in_shape (f_shape r) (entries_at 0%Z idx0 O) = true).
  { destruct Rr as (Sr & _). rewrite Sr, Lg. apply in_shape_entries; [exact H0|]. intros q Hq. apply others_In in Hq. lia. }
  specialize (Vr _ Hin).
  assert (Hv : is_integral g [k] (entries_at 0%Z idx0 O)
     (a_at (f_data f) (upd idx k (m - 1)%Z) - a_at (f_data f) (upd idx k 0%Z))).
  { exists (map (fun i => upd idx0 k (Z.of_nat i)) (seq 0 (Z.to_nat (nth k (f_shape g) 0%Z)))).
    split; [unfold O; rewrite <- Lg; apply line_fibre; [exact H0|lia]|]. fold qsum. rewrite Sg, nth_upd_same by exact Hk.
    rewrite map_map. change (fold_right Qplus 0 ?l) with (qsum l).
    rewrite (qsum_map_ext _ (fun i => a_at (f_data f) (upd idx k (Z.of_nat (S i))) - a_at (f_data f) (upd idx k (Z.of_nat i)))).
    - rewrite (qsum_telescope (fun i => a_at (f_data f) (upd idx k (Z.of_nat i)))). rewrite Z2Nat.id by lia. reflexivity.
    - intros i Hi. apply in_seq in Hi. unfold idx0. rewrite upd_upd.
      assert (Hi' : in_shape (f_shape g) (upd idx k (Z.of_nat i)) = true) by (rewrite Sg; apply in_shape_upd; [exact Hidx|exact Hk|lia]).
      rewrite (Vg _ Hi'), nth_upd_same, !upd_upd by lia. replace (Z.of_nat i + 1)%Z with (Z.of_nat (S i)) by lia.
      unfold cell_size. cbn [map fold_right]. rewrite Ag, !nth_upd_same by lia.
      destruct (Wax (Z.of_nat i) ltac:(lia)) as [_ ->].
      assert (~ cell_width (nth k (f_axes f) axis0) 0 == 0).
      { destruct Ha as (a & b & n & Hn & Hab & Hu). rewrite (uniform_width a b n _ ((b - a) / inject_Z (Z.of_nat n)) 0 Hn Hu).
        - pose proof (uniform_h_pos a b n Hn Hab). lra.
        - field. apply inject_Z_nz. lia.
        - lia. }
      field. assumption. }
  exact (is_integral_unique _ _ _ _ _ Vr Hv).
Qed.
Lemma derivative_of_linear spl f k g c s : reproduces_lines spl -> simple_field f -> (k < length (f_shape f))%nat ->
  ascending_uniform (nth k (f_axes f) axis0) -> (3 <= nth k (f_shape f) 0)%Z -> nonempty (f_shape f) ->
  (forall idx, in_shape (f_shape f) idx = true ->
     a_at (f_data f) idx == c (entries_at 0%Z idx (others (length (f_shape f)) [k]))
                            + s * nth (Z.to_nat (nth k idx 0%Z)) (ax_grid (nth k (f_axes f) axis0)) 0) ->
  derivative_stagger spl f (Z.of_nat k) = Ok g ->
  forall idx, in_shape (f_shape g) idx = true -> a_at (f_data g) idx == s.
Proof.
  intros Hspl Hs Hk Ha H3 Hne Hlin Eg idx Hidx.
  destruct (derivative_total spl f k Hspl Hs Hk Ha H3 Hne) as (g' & Eg' & Sg & Vg & _). rewrite Eg in Eg'. injection Eg' as <-.
  rewrite (Vg idx Hidx). rewrite Sg in Hidx. pose proof (in_shape_nth _ _ k 0%Z 0%Z Hidx ltac:(now rewrite upd_length)) as Hik.
  rewrite nth_upd_same in Hik by exact Hk. pose proof (in_shape_length_upd _ _ _ _ Hidx) as Li.
  assert (Hin : forall i, (0 <= i < nth k (f_shape f) 0)%Z -> in_shape (f_shape f) (upd idx k i) = true).
  { intros i Hi. pose proof (in_shape_upd _ _ k i (nth k (f_shape f) 0%Z) Hidx ltac:(now rewrite upd_length) Hi) as H.
    rewrite upd_upd, upd_nth in H by exact Hk. exact H. }
  assert (Eo : forall i, entries_at 0%Z (upd idx k i) (others (length (f_shape f)) [k]) = entries_at 0%Z idx (others (length (f_shape f)) [k])).
  { intro i. unfold entries_at. apply map_ext_in. intros q Hq. apply others_In in Hq as [_ Hq]. apply nth_upd_other. intros ->. apply Hq. now left. }
  rewrite !Hlin by (apply Hin; lia). rewrite !Eo, !nth_upd_same by lia.
  pose proof Hs as ((L & Hl & _) & _). destruct Ha as (a & b & n & Hn & Hab & Hu). set (ax := nth k (f_axes f) axis0) in *.
  assert (Elen : ax_len ax = nth k (f_shape f) 0%Z) by (apply (Hl k); [apply nth_error_nth'; lia|apply nth_error_nth'; lia]).
  assert (En : nth k (f_shape f) 0%Z = Z.of_nat n) by (destruct Hu as (_ & _ & Nn & _); unfold ax_len in Elen; congruence).
  set (h := (b - a) / inject_Z (Z.of_nat n)). assert (Hh : h * inject_Z (Z.of_nat n) == b - a) by (unfold h; field; apply inject_Z_nz; lia).
  destruct (uniform_at a b n ax h Hn Hu Hh) as [_ Hg]. rewrite (uniform_width a b n ax h 0 Hn Hu Hh ltac:(lia)).
  rewrite !Hg by lia. rewrite !Z2Nat.id by lia. rewrite inject_Z_plus. change (inject_Z 1) with 1.
  pose proof (uniform_h_pos a b n Hn Hab). fold h in H. field. lra.
Qed.
