(** Facts about integrals with the methods of scipy. *)
From Coq Require Import Lia Lqa Permutation Setoid Sorted.
From Verif Require Import PyBase PyBaseFacts NumpyModel NumpyFacts QSum AxisModel AxisSpec AxisFacts NdModel NdFacts FieldModel
  FieldSpec FieldInvFacts FieldNodedFacts FieldRearrFacts FieldReduceFacts FieldOpFacts FieldIntFacts IntegModel IntegSpec IntegLines.

(** * An axis whose cells are as wide as the shares of the samples *)
Definition share_nodes (m : line_method) (ax : axis) : list Q :=
  map (fun i => qsum (map (fun j => share m ax (Z.of_nat j)) (seq 0 i))) (seq 0 (S (length (ax_grid ax)))).
Definition wax (m : line_method) (ax : axis) : axis :=
  mkAxis (ax_name ax) (ax_unit ax) (share_nodes m ax) (ax_grid ax) (ax_extent ax) (ax_n ax).
Lemma wax_width m ax i : (0 <= i < Z.of_nat (length (ax_grid ax)))%Z -> cell_width (wax m ax) i == share m ax i.
Proof.
  intro H. unfold cell_width. cbn [ax_node wax]. unfold share_nodes. rewrite !nth_map_seq by lia.
  rewrite seq_S, map_app, qsum_app. cbn [map]. rewrite qsum_cons, qsum_nil. cbn [Nat.add]. rewrite Z2Nat.id by lia. ring.
Qed.
Definition reax (m : line_method) (f : field Q) : field Q :=
  mkField (f_data f) (mkLayer (map (wax m) (f_axes f)) (f_ats f) (f_tao f) (l_name (f_top f)) (l_unit (f_top f))) (f_inner f).
Lemma reax_consistent m f : consistent f -> consistent (reax m f).
Proof.
  intro H. pose proof (consistent_map f H) as M. destruct H as (_ & _ & L1 & L2). apply map_consistent; auto.
  unfold f_axes at 1. cbn [reax f_top l_axes]. rewrite map_map. exact M.
Qed.
Lemma reax_remains m f p g : consistent f -> remains f p g -> remains (reax m f) p (reax m g).
Proof.
  intros Hc H. apply kept_remains in H as (S & A & T & O & N & U); [|exact Hc]. apply remains_kept; [now apply reax_consistent|..]; auto.
  unfold f_axes. cbn [reax f_top l_axes]. fold (f_axes g). fold (f_axes f). now rewrite A, map_kept.
Qed.

Lemma reduced_one {A} (l : list A) k d : (k < length l)%nat -> reduced [k] l = [nth k l d].
Proof.
  unfold reduced. enough (H : forall s, (k < length l)%nat -> drop_from s [(s + k)%nat] l = [nth k l d]) by (intro; now apply (H 0%nat)).
  assert (N : forall (m : list A) s j, (j < s)%nat -> drop_from s [j] m = []).
  { induction m as [|x m IHm]; intros s j H; [reflexivity|]. cbn [drop_from memb existsb]. unfold memb. cbn [existsb].
    destruct (Nat.eqb_spec j s); [lia|]. cbn [orb]. apply IHm. lia. }
  revert k. induction l as [|x l IH]; intros k s H; [cbn in H; lia|]. cbn [drop_from]. unfold memb. cbn [existsb].
  destruct k as [|k].
  - replace (s + 0)%nat with s by lia. rewrite Nat.eqb_refl. cbn [orb]. cbn [nth]. f_equal. apply N. lia.
  - destruct (Nat.eqb_spec (s + S k) s); [lia|]. cbn [orb nth]. replace (s + S k)%nat with (S s + k)%nat by lia. apply IH. cbn in H. lia.
Qed.
Lemma all_idx_one n : all_idx [n] = map (fun i => [i]) (zrange n).
Proof. cbn [all_idx]. induction (zrange n) as [|x l IH]; [reflexivity|]. change (flat_map (fun i : Z => map (cons i) [[]]) (x :: l)) with ([x] :: flat_map (fun i : Z => map (cons i) [[]]) l). rewrite IH. reflexivity. Qed.
Lemma merge_one_nth n k idx i : (k < n)%nat -> length idx = (n - 1)%nat -> nth k (merge_idx n [k] idx [i]) 0%Z = i.
Proof.
  unfold merge_idx. intros Hk Li.
  enough (H : forall n k s idx, (k < n)%nat -> length idx = (n - 1)%nat -> nth k (merge_from n s [(s + k)%nat] idx [i]) 0%Z = i) by (now apply (H n k 0%nat)).
  clear. induction n as [|n IH]; intros k s idx Hk Li; [lia|]. cbn [merge_from]. unfold memb. cbn [existsb]. destruct k as [|k].
  - replace (s + 0)%nat with s by lia. rewrite Nat.eqb_refl. reflexivity.
  - destruct (Nat.eqb_spec (s + S k) s); [lia|]. cbn [orb]. destruct idx as [|j idx]; [cbn in Li; lia|]. cbn [nth].
    replace (s + S k)%nat with (S s + k)%nat by lia. apply IH; [lia|]. cbn in Li. lia.
Qed.
Lemma fibre_one sh k idx : (k < length sh)%nat -> in_shape (kept [k] sh) idx = true ->
  fibre sh [k] idx = map (fun i => merge_idx (length sh) [k] idx [i]) (zrange (nth k sh 0%Z)).
Proof.
  intros Hk Hi. unfold fibre, kept. rewrite <- merge_filter by exact Hi. change (drop_from 0 [k] sh) with (reduced [k] sh).
  rewrite (reduced_one sh k 0%Z) by exact Hk. rewrite all_idx_one, map_map. reflexivity.
Qed.
Lemma zrange_seq n : zrange (Z.of_nat n) = map Z.of_nat (seq 0 n).
Proof. unfold zrange. now rewrite Nat2Z.id. Qed.
Lemma del_length {A} (l : list A) k : (k < length l)%nat -> length (del l k) = (length l - 1)%nat.
Proof. intro H. rewrite <- kept_one, kept_len, others_one by exact H. rewrite app_length, !seq_length. lia. Qed.

Lemma grid_length (f : field Q) k : consistent f -> Forall axis_counted (f_axes f) -> (k < length (f_shape f))%nat ->
  Z.of_nat (length (ax_grid (nth k (f_axes f) axis0))) = nth k (f_shape f) 0%Z.
Proof.
  intros (La & Hc & _) Hn Hk. rewrite Forall_forall in Hn. rewrite <- (Hn (nth k (f_axes f) axis0)) by (apply nth_In; lia).
  apply (Hc k); apply nth_error_nth'; lia.
Qed.
Lemma shape_pos (f : field Q) k : nonempty (f_shape f) -> (k < length (f_shape f))%nat -> (0 < nth k (f_shape f) 0)%Z.
Proof. intros H Hk. unfold nonempty in H. rewrite Forall_forall in H. now apply H, nth_In. Qed.

(** one line through the data *)
Definition line_of (a : nda Q) (k : nat) (idx : list Z) : list Q :=
  map (fun i => a_at a (merge_idx (length (a_shape a)) [k] idx [i])) (zrange (nth k (a_shape a) 0%Z)).
Lemma scipy_step_total m f k : consistent f -> Forall axis_counted (f_axes f) -> nonempty (f_shape f) -> (k < length (f_shape f))%nat ->
  exists g, scipy_step m f (Z.of_nat k) = Ok g /\ remains f [k] g /\ f_inner g = [] /\
    forall idx, in_shape (f_shape g) idx = true ->
      a_at (f_data g) idx = line_integral m (ax_grid (nth k (f_axes f) axis0)) (line_of (f_data f) k idx).
Proof.
  intros Hc Hn Hne Hk. pose proof (grid_length f k Hc Hn Hk) as Lg. pose proof (shape_pos f k Hne Hk) as Pk. pose proof Hc as (La & _ & L1 & L2).
  assert (Hp : forall m, (k < m)%nat -> py_pos m (Z.of_nat k) = Ok k) by (intros j Hj; apply py_pos_ok; lia).
  unfold scipy_step. change (l_axes (f_top f)) with (f_axes f). change (l_ats (f_top f)) with (f_ats f). change (l_tao (f_top f)) with (f_tao f).
  rewrite (getidx_at (f_axes f) k axis0) by lia. cbn [bind].
  rewrite (getidx_at (f_shape f) k 0%Z) by exact Hk. cbn [bind]. rewrite Lg, Z.eqb_refl. cbn [negb].
  destruct (Z.eqb_spec (nth k (f_shape f) 0%Z) 0%Z); [lia|]. cbn [andb].
  set (ax := nth k (f_axes f) axis0) in *.
  assert (Er : np_reduce (line_integral m (ax_grid ax)) (f_data f) (AxInt (Z.of_nat k)) false = Ok (nd_reduce (line_integral m (ax_grid ax)) [k] (f_data f))).
  { unfold np_reduce. cbn [axisarg_positions mapM]. change (a_shape (f_data f)) with (f_shape f). rewrite Hp by exact Hk. reflexivity. }
  rewrite Er. cbn [bind]. unfold delidx. rewrite !Hp by lia. cbn [bind].
  eexists. split; [reflexivity|]. split; [|split; [reflexivity|]].
  - apply remains_kept; [exact Hc|unfold f_shape, f_axes, f_ats, f_tao; cbn [f_data f_top l_axes l_ats l_tao nd_reduce a_shape]..|reflexivity|reflexivity].
    + reflexivity.
    + now rewrite kept_one.
    + now rewrite kept_one.
    + now rewrite kept_one.
  - intros idx Hi. cbn [f_data nd_reduce a_at]. f_equal. unfold line_of. change (a_shape (f_data f)) with (f_shape f).
    rewrite (reduced_one (f_shape f) k 0%Z) by exact Hk. rewrite all_idx_one, map_map. reflexivity.
Qed.
Lemma line_length a k idx : (0 <= nth k (a_shape a) 0)%Z -> Z.of_nat (length (line_of a k idx)) = nth k (a_shape a) 0%Z.
Proof. intro H. unfold line_of, zrange. rewrite !map_length, seq_length. lia. Qed.
Lemma line_nth a k idx i : (0 <= i < nth k (a_shape a) 0)%Z ->
  nth (Z.to_nat i) (line_of a k idx) 0 = a_at a (merge_idx (length (a_shape a)) [k] idx [i]).
Proof. intro H. unfold line_of, zrange. rewrite map_map, nth_map_seq by lia. now rewrite Z2Nat.id by lia. Qed.
Lemma step_value m f k idx : consistent f -> Forall axis_counted (f_axes f) -> nonempty (f_shape f) -> (k < length (f_shape f))%nat ->
  in_shape (kept [k] (f_shape f)) idx = true ->
  line_integral m (ax_grid (nth k (f_axes f) axis0)) (line_of (f_data f) k idx) == integral_value (reax m f) [k] idx.
Proof.
  intros Hc Hn Hne Hk Hi. pose proof (grid_length f k Hc Hn Hk) as Lg. pose proof (shape_pos f k Hne Hk) as Pk. set (ax := nth k (f_axes f) axis0) in *.
  assert (Li : length idx = (length (f_shape f) - 1)%nat) by (apply in_shape_length in Hi; rewrite kept_one, del_length in Hi by exact Hk; lia).
  rewrite (linear_sum (length (ax_grid ax))); [|apply line_linear; lia|pose proof (line_length (f_data f) k idx ltac:(unfold f_shape in *; lia)); unfold f_shape in *; lia].
  unfold integral_value. change (f_shape (reax m f)) with (f_shape f). rewrite fibre_one by assumption. rewrite map_map.
  rewrite <- Lg, zrange_seq, map_map. apply qsum_map_ext. intros i Hin. apply in_seq in Hin.
  pose proof (line_nth (f_data f) k idx (Z.of_nat i)) as E. rewrite Nat2Z.id in E. rewrite E by (unfold f_shape in *; lia).
  change (f_data (reax m f)) with (f_data f). change (a_shape (f_data f)) with (f_shape f).
  unfold cell_size. cbn [map fold_right]. rewrite (merge_one_nth (length (f_shape f)) k idx) by assumption.
  unfold f_axes at 1. cbn [reax f_top l_axes].
  rewrite (nth_indep (map (wax m) (f_axes f)) axis0 (wax m axis0)) by (rewrite map_length; destruct Hc; lia).
  rewrite map_nth. fold ax. rewrite wax_width by lia. unfold share. ring.
Qed.

(** * One axis after the other *)
Definition descending (l : list nat) : Prop := StronglySorted gt l.
Lemma shift_down_below a l : Forall (fun k => k < a)%nat l -> shift_down a l = l.
Proof.
  unfold shift_down. induction 1 as [|x l Hx H IH]; [reflexivity|]. cbn [map]. rewrite IH. f_equal. destruct (Nat.ltb_spec a x); lia.
Qed.
Lemma scipy_loop_total m axes : forall f, consistent f -> Forall axis_counted (f_axes f) -> nonempty (f_shape f) -> descending axes ->
  (forall k, In k axes -> (k < length (f_shape f))%nat) ->
  exists g, scipy_loop m f (map Z.of_nat axes) = Ok g /\ remains f axes g /\
    forall idx, in_shape (f_shape g) idx = true -> a_at (f_data g) idx == integral_value (reax m f) axes idx.
Proof.
  induction axes as [|a rest IH]; intros f Hc Hn Hne Hd Hb.
  { exists f. split; [reflexivity|]. split; [now apply remains_none|]. intros idx Hi. rewrite (integral_none (reax m f)); [reflexivity|exact Hi]. }
  inversion Hd as [|? ? Hd' Fa]; subst. assert (Ha : (a < length (f_shape f))%nat) by (apply Hb; now left).
  assert (Hr : forall k, In k rest -> (k < length (f_shape f))%nat) by (intros k Hk; apply Hb; now right).
  assert (Na : ~ In a rest) by (intro Hin; rewrite Forall_forall in Fa; specialize (Fa a Hin); lia).
  assert (Sd : shift_down a rest = rest) by (apply shift_down_below; revert Fa; apply Forall_impl; intros; lia).
  pose proof (shift_down_bound _ a rest Ha Hr Na) as Hb'. rewrite Sd in Hb'.
  destruct (scipy_step_total m f a Hc Hn Hne Ha) as (g & Eg & Rg & _ & Vg).
  pose proof (remains_consistent f [a] g Hc Rg) as Hcg. pose proof (kept_remains f [a] g Hc Rg) as (Sg & Ag & _).
  destruct (IH g Hcg) as (h & Eh & Rh & Vh); [rewrite Ag; now apply kept_Forall|rewrite Sg; now apply nonempty_kept|exact Hd'| |].
  { intros k Hk. rewrite Sg, kept_len. now apply Hb'. }
  exists h. cbn [map scipy_loop]. rewrite Eg. cbn [bind]. split; [exact Eh|].
  assert (E : lift (length (f_shape f)) [a] rest = a :: rest) by (rewrite <- Sd at 1; now apply lift_shift).
  split.
  - rewrite <- E. now apply (remains_lift f [a] _ g h Hc Rg Rh).
  - intros idx Hi. rewrite (Vh idx Hi). rewrite (integral_lift (reax m f) [a] rest (reax m g)).
    + change (f_shape (reax m f)) with (f_shape f). now rewrite E.
    + now apply reax_consistent.
    + now apply reax_remains.
    + intros i Hin. change (f_data (reax m g)) with (f_data g). rewrite Vg by exact Hin. apply step_value; try assumption. now rewrite <- Sg.
    + exact Hb'.
Qed.
Lemma sorted_desc_nat axes p n : NoDup axes -> requested n axes p ->
  exists q, rev (sort_Z axes) = map Z.of_nat q /\ descending q /\ Permutation q p /\ forall k, In k q -> (k < n)%nat.
Proof.
  intros Nd (Np & Hp & Hb). pose proof (sort_Z_perm axes) as P. pose proof (sort_Z_sorted axes) as So.
  assert (Nd' : NoDup (sort_Z axes)) by (apply (Permutation_NoDup (Permutation_sym P)), Nd).
  pose proof (sorted_desc _ Nd' So) as De. set (s := rev (sort_Z axes)) in *.
  assert (Hs : forall x, In x s <-> In x axes).
  { intro x. unfold s. rewrite <- in_rev. split; apply Permutation_in; [|symmetry]; exact P. }
  assert (Pos : Forall (fun i => 0 <= i)%Z s) by (apply Forall_forall; intros x Hx; apply Hs, Hb in Hx; lia).
  exists (map Z.to_nat s). split; [now apply nonneg_nat|]. split; [|split].
  - clear -De Pos. induction De as [|x l De IH Fa]; [constructor|]. inversion Pos; subst. cbn [map]. constructor; [now apply IH|].
    apply Forall_map. rewrite Forall_forall in *. intros y Hy. specialize (Fa y Hy). specialize (H2 y Hy). lia.
  - apply NoDup_Permutation; [|exact Np|].
    + apply map_to_nat_NoDup; [|exact Pos]. unfold s. now apply NoDup_rev.
    + intro k. rewrite Hp, <- Hs. rewrite Forall_forall in Pos. split.
      * intro H. apply in_map_iff in H as (x & <- & Hx). rewrite Z2Nat.id; auto.
      * intro H. apply in_map_iff. exists (Z.of_nat k). split; [lia|exact H].
  - intros k H. apply in_map_iff in H as (x & <- & Hx). apply Hs, Hb in Hx. lia.
Qed.
Lemma line_integral_value m f p idx v : consistent f -> Forall axis_counted (f_axes f) -> (forall k, In k p -> (k < length (f_shape f))%nat) ->
  is_line_integral m f p idx v <-> v == integral_value (reax m f) p idx.
Proof.
  intros Hc Hn Hb.
  assert (G : forall js, (forall j, In j js -> in_shape (f_shape f) j = true) ->
    fold_right Qplus 0 (map (fun j => a_at (f_data f) j * shares m (f_axes f) p j) js)
    == qsum (map (fun j => a_at (f_data f) j * cell_size (f_axes (reax m f)) p j) js)).
  { intros js Hj. apply qsum_map_ext. intros j Hin. specialize (Hj j Hin).
    enough (E : shares m (f_axes f) p j == cell_size (f_axes (reax m f)) p j) by (now rewrite E).
    unfold shares, cell_size. clear Hin. induction p as [|k p IH]; [reflexivity|]. cbn [map fold_right].
    rewrite IH by (intros i Hi; apply Hb; now right). unfold f_axes at 3. cbn [reax f_top l_axes]. assert (Hk : (k < length (f_shape f))%nat) by (apply Hb; now left).
    rewrite (nth_indep (map (wax m) (f_axes f)) axis0 (wax m axis0)) by (rewrite map_length; destruct Hc; lia). rewrite map_nth.
    rewrite wax_width; [reflexivity|]. rewrite grid_length by assumption. exact (in_shape_nth _ _ k 0%Z 0%Z Hj Hk). }
  assert (A : is_line_integral m f p idx v <-> is_integral (reax m f) p idx v).
  { unfold is_line_integral, is_integral. change (f_shape (reax m f)) with (f_shape f). change (f_data (reax m f)) with (f_data f).
    split; intros (js & Hj & E); exists js; (split; [exact Hj|]); rewrite E; [|symmetry]; apply G; intros j Hin; apply Hj in Hin; apply Hin. }
  rewrite A. apply is_integral_value.
Qed.
Lemma scipy_total m f axes p : consistent f -> Forall axis_counted (f_axes f) -> nonempty (f_shape f) -> NoDup axes ->
  requested (length (f_shape f)) axes p ->
  exists g, integrate_scipy m f axes = Ok g /\ remains f p g /\
    forall idx, in_shape (f_shape g) idx = true -> is_line_integral m f p idx (a_at (f_data g) idx).
Proof.
  intros Hc Hn Hne Nd Hr. destruct (sorted_desc_nat axes p _ Nd Hr) as (q & Eq & Dq & Pq & Bq).
  unfold integrate_scipy. rewrite Eq. destruct (scipy_loop_total m q f Hc Hn Hne Dq Bq) as (g & E & R & V).
  exists g. split; [exact E|]. split; [exact (remains_perm f q p g Pq R)|].
  intros idx Hi. apply line_integral_value; auto.
  - intros k Hk. apply Bq. apply (Permutation_in k (Permutation_sym Pq)). exact Hk.
  - rewrite (V idx Hi). now apply integral_value_perm.
Qed.

(** * Along one axis *)
Lemma merge_in sh k idx i : (k < length sh)%nat -> in_shape (kept [k] sh) idx = true -> (0 <= i < nth k sh 0)%Z ->
  let j := merge_idx (length sh) [k] idx [i] in in_shape sh j = true /\ kept [k] j = idx /\ nth k j 0%Z = i.
Proof.
  intros Hk Hi Hr. cbv zeta.
  assert (Hin : In (merge_idx (length sh) [k] idx [i]) (fibre sh [k] idx)).
  { rewrite fibre_one by assumption. apply in_map_iff. exists i. split; [reflexivity|]. unfold zrange. apply in_map_iff. exists (Z.to_nat i).
    split; [lia|]. apply in_seq. lia. }
  unfold fibre in Hin. apply filter_In in Hin as [H1 H2]. apply all_idx_In in H1. apply idx_eqb_eq in H2. split; [exact H1|]. split; [exact H2|].
  apply merge_one_nth; [exact Hk|]. apply in_shape_length in Hi. rewrite kept_one, del_length in Hi by exact Hk. lia.
Qed.
Lemma requested_one n k : (k < n)%nat -> requested n [Z.of_nat k] [k].
Proof.
  intro H. split; [repeat constructor; intros []|]. split.
  - intro j. cbn [In]. split; [intros [<-|[]]; now left|]. intros [E|[]]; left; lia.
  - intros a [<-|[]]. lia.
Qed.
Lemma scipy_one m f k : integrate_scipy m f [Z.of_nat k] = scipy_step m f (Z.of_nat k).
Proof. unfold integrate_scipy. cbn [sort_Z fold_right insert_Z rev app scipy_loop]. destruct (scipy_step m f (Z.of_nat k)); reflexivity. Qed.
Lemma goes_strictly ax : goes_up ax \/ goes_down ax -> strictly (ax_grid ax).
Proof.
  intros [H|H]; [left|right]; intros i Hi; pose proof (H (Z.of_nat i) ltac:(lia) ltac:(lia)) as G; unfold point in G;
    replace (Z.to_nat (Z.of_nat i + 1)) with (S i) in G by lia; rewrite Nat2Z.id in G; exact G.
Qed.
Lemma exact_along m f k a b c : consistent f -> Forall axis_counted (f_axes f) -> nonempty (f_shape f) -> (k < length (f_shape f))%nat ->
  goes_up (nth k (f_axes f) axis0) \/ goes_down (nth k (f_axes f) axis0) ->
  quadratic_along f k a b c -> (forall o, m = MTrapezoid \/ (nth k (f_shape f) 0 = 2)%Z -> a o == 0) ->
  exists g, integrate_scipy m f [Z.of_nat k] = Ok g /\ remains f [k] g /\
    forall idx, in_shape (f_shape g) idx = true ->
      a_at (f_data g) idx == quadratic_area (a idx) (b idx) (c idx) (point (nth k (f_axes f) axis0) (nth k (f_shape f) 0 - 1)%Z)
                             - quadratic_area (a idx) (b idx) (c idx) (point (nth k (f_axes f) axis0) 0%Z).
Proof.
  intros Hc Hn Hne Hk Hg Hq Ha. rewrite scipy_one. destruct (scipy_step_total m f k Hc Hn Hne Hk) as (g & E & R & _ & Vg).
  exists g. split; [exact E|]. split; [exact R|]. intros idx Hi. rewrite (Vg idx Hi).
  pose proof (kept_remains f [k] g Hc R) as (Sg & _). rewrite Sg in Hi.
  pose proof (grid_length f k Hc Hn Hk) as Lg. pose proof (shape_pos f k Hne Hk) as Pk. set (ax := nth k (f_axes f) axis0) in *.
  pose proof (line_length (f_data f) k idx ltac:(unfold f_shape in *; lia)) as Ll. change (a_shape (f_data f)) with (f_shape f) in Ll.
  assert (Oc : on_curve (a idx) (b idx) (c idx) (ax_grid ax) (line_of (f_data f) k idx)).
  { intros i Hi'. pose proof (line_nth (f_data f) k idx (Z.of_nat i)) as En. rewrite Nat2Z.id in En. rewrite En by (unfold f_shape in *; lia).
    change (a_shape (f_data f)) with (f_shape f).
    destruct (merge_in (f_shape f) k idx (Z.of_nat i) Hk Hi ltac:(lia)) as (M1 & M2 & M3).
    set (j := merge_idx (length (f_shape f)) [k] idx [Z.of_nat i]) in *. pose proof (Hq j M1) as HQ. cbv zeta in HQ. rewrite HQ, M3.
    rewrite <- (in_shape_length _ _ M1), <- kept_at, M2. unfold point. fold ax. now rewrite Nat2Z.id. }
  unfold point. replace (Z.to_nat (nth k (f_shape f) 0 - 1)%Z) with (length (ax_grid ax) - 1)%nat by lia. change (Z.to_nat 0%Z) with 0%nat.
  destruct m; cbn [line_integral].
  - apply simpson_exact; [lia| |lia|now apply goes_strictly|exact Oc].
    destruct (Nat.eq_dec (length (ax_grid ax)) 2) as [E2|N2]; [right; apply Ha; right; lia|now left].
  - assert (A0 : a idx == 0) by (apply Ha; now left).
    assert (QA : forall x, quadratic_area (a idx) (b idx) (c idx) x == quadratic_area 0 (b idx) (c idx) x) by (intro x; unfold quadratic_area; now rewrite A0).
    rewrite !QA. apply trapezoid_exact; [lia|lia|]. intros i Hi'. rewrite (Oc i Hi'). unfold quadratic. now rewrite A0.
Qed.

(** * Constants and signs, along any number of axes *)
Definition span (ax : axis) : Q := nth (length (ax_grid ax) - 1) (ax_grid ax) 0 - nth 0 (ax_grid ax) 0.
Lemma constant_line m x y c : (1 <= length x)%nat -> length y = length x -> strictly x -> (forall i, (i < length x)%nat -> nth i y 0 == c) ->
  line_integral m x y == c * (nth (length x - 1) x 0 - nth 0 x 0).
Proof.
  intros L1 Ly Hs Hy. assert (Oc : on_curve 0 0 c x y) by (intros i Hi; rewrite (Hy i Hi); unfold quadratic; ring).
  destruct m; cbn [line_integral]; [rewrite (simpson_exact 0 0 c)|rewrite (trapezoid_exact 0 c)]; auto; try (unfold quadratic_area; field).
  right. reflexivity.
Qed.
Lemma kept_nth_axes (f : field Q) a k : consistent f -> (a < length (f_shape f))%nat -> (k < a)%nat -> nth k (kept [a] (f_axes f)) axis0 = nth k (f_axes f) axis0.
Proof.
  intros (La & _) Ha Hk. rewrite (kept_at axis0), nth_entries; [|rewrite others_one by lia; rewrite app_length, seq_length; lia].
  f_equal. rewrite others_one by lia. rewrite app_nth1 by (rewrite seq_length; lia). now rewrite seq_nth by lia.
Qed.
Lemma step_line (f : field Q) k (g : field Q) idx : consistent f -> Forall axis_counted (f_axes f) -> nonempty (f_shape f) -> (k < length (f_shape f))%nat ->
  remains f [k] g -> in_shape (f_shape g) idx = true ->
  length (line_of (f_data f) k idx) = length (ax_grid (nth k (f_axes f) axis0)) /\ (1 <= length (ax_grid (nth k (f_axes f) axis0)))%nat /\
  forall i, (i < length (ax_grid (nth k (f_axes f) axis0)))%nat ->
    exists j, in_shape (f_shape f) j = true /\ nth i (line_of (f_data f) k idx) 0 = a_at (f_data f) j.
Proof.
  intros Hc Hn Hne Hk R Hi. pose proof (kept_remains f [k] g Hc R) as (Sg & _). rewrite Sg in Hi.
  pose proof (grid_length f k Hc Hn Hk) as Lg. pose proof (shape_pos f k Hne Hk) as Pk.
  pose proof (line_length (f_data f) k idx ltac:(unfold f_shape in *; lia)) as Ll. change (a_shape (f_data f)) with (f_shape f) in Ll.
  split; [lia|]. split; [lia|]. intros i Hi'.
  pose proof (line_nth (f_data f) k idx (Z.of_nat i)) as En. rewrite Nat2Z.id in En. rewrite En by (unfold f_shape in *; lia).
  change (a_shape (f_data f)) with (f_shape f). destruct (merge_in (f_shape f) k idx (Z.of_nat i) Hk Hi ltac:(lia)) as (M1 & _). eauto.
Qed.
Lemma constant_loop m axes : forall f c, consistent f -> Forall axis_counted (f_axes f) -> nonempty (f_shape f) -> descending axes ->
  (forall k, In k axes -> (k < length (f_shape f))%nat /\ strictly (ax_grid (nth k (f_axes f) axis0))) ->
  (forall idx, in_shape (f_shape f) idx = true -> a_at (f_data f) idx == c) ->
  forall g, scipy_loop m f (map Z.of_nat axes) = Ok g -> forall idx, in_shape (f_shape g) idx = true ->
    a_at (f_data g) idx == c * fold_right Qmult 1 (map (fun k => span (nth k (f_axes f) axis0)) axes).
Proof.
  induction axes as [|a rest IH]; intros f c Hc Hn Hne Hd Hb Hv g E idx Hi.
  { injection E as <-. cbn [map fold_right]. rewrite (Hv idx Hi). ring. }
  inversion Hd as [|? ? Hd' Fa]; subst. destruct (Hb a (or_introl eq_refl)) as [Ha Sa].
  destruct (scipy_step_total m f a Hc Hn Hne Ha) as (h & Eh & Rh & _ & Vh).
  pose proof (remains_consistent f [a] h Hc Rh) as Hch. pose proof (kept_remains f [a] h Hc Rh) as (Sh & Ah & _).
  cbn [map scipy_loop] in E. rewrite Eh in E. cbn [bind] in E. rewrite Forall_forall in Fa.
  rewrite (IH h (c * span (nth a (f_axes f) axis0))) with (g := g); auto.
  - cbn [map fold_right]. replace (map (fun k => span (nth k (f_axes h) axis0)) rest) with (map (fun k => span (nth k (f_axes f) axis0)) rest); [ring|].
    apply map_ext_in. intros k Hk. rewrite Ah, kept_nth_axes; auto. specialize (Fa k Hk). lia.
  - rewrite Ah. now apply kept_Forall.
  - rewrite Sh. now apply nonempty_kept.
  - intros k Hk. specialize (Fa k Hk). rewrite Sh, kept_len, others_one, app_length, !seq_length by exact Ha. split; [lia|].
    rewrite Ah, kept_nth_axes by (auto; lia). apply Hb. now right.
  - intros i Hii. rewrite (Vh i Hii). destruct (step_line f a h i Hc Hn Hne Ha Rh Hii) as (L1 & L2 & L3). unfold span. apply constant_line; auto.
    intros n Hn'. destruct (L3 n Hn') as (j & J1 & J2). rewrite J2. auto.
Qed.
Lemma evenly_steps h ax : evenly h ax -> even_steps h (ax_grid ax).
Proof.
  intros H i Hi. pose proof (H (Z.of_nat i) ltac:(lia) ltac:(lia)) as G. unfold point in G.
  replace (Z.to_nat (Z.of_nat i + 1)) with (S i) in G by lia. now rewrite Nat2Z.id in G.
Qed.
Lemma up_rising ax : goes_up ax -> rising (ax_grid ax).
Proof.
  intros H i Hi. pose proof (H (Z.of_nat i) ltac:(lia) ltac:(lia)) as G. unfold point in G.
  replace (Z.to_nat (Z.of_nat i + 1)) with (S i) in G by lia. now rewrite Nat2Z.id in G.
Qed.
Lemma line_nonneg m ax y : sign_free m ax -> (1 <= length (ax_grid ax))%nat -> length y = length (ax_grid ax) -> (forall i, 0 <= nth i y 0) ->
  0 <= line_integral m (ax_grid ax) y.
Proof.
  intros H L1 Ly Hy. destruct m; cbn [line_integral sign_free] in *.
  - destruct H as (h & Hh & He). apply (simpson_nonneg h); auto. now apply evenly_steps.
  - apply trapezoid_nonneg; auto. now apply up_rising.
Qed.
Lemma nonneg_loop m axes : forall f, consistent f -> Forall axis_counted (f_axes f) -> nonempty (f_shape f) -> descending axes ->
  (forall k, In k axes -> (k < length (f_shape f))%nat /\ sign_free m (nth k (f_axes f) axis0)) ->
  (forall idx, in_shape (f_shape f) idx = true -> 0 <= a_at (f_data f) idx) ->
  forall g, scipy_loop m f (map Z.of_nat axes) = Ok g -> forall idx, in_shape (f_shape g) idx = true -> 0 <= a_at (f_data g) idx.
Proof.
  induction axes as [|a rest IH]; intros f Hc Hn Hne Hd Hb Hv g E idx Hi.
  { injection E as <-. auto. }
  inversion Hd as [|? ? Hd' Fa]; subst. destruct (Hb a (or_introl eq_refl)) as [Ha Sa].
  destruct (scipy_step_total m f a Hc Hn Hne Ha) as (h & Eh & Rh & _ & Vh).
  pose proof (remains_consistent f [a] h Hc Rh) as Hch. pose proof (kept_remains f [a] h Hc Rh) as (Sh & Ah & _).
  cbn [map scipy_loop] in E. rewrite Eh in E. cbn [bind] in E. rewrite Forall_forall in Fa.
  apply (IH h) with (g := g); auto.
  - rewrite Ah. now apply kept_Forall.
  - rewrite Sh. now apply nonempty_kept.
  - intros k Hk. specialize (Fa k Hk). rewrite Sh, kept_len, others_one, app_length, !seq_length by exact Ha. split; [lia|].
    rewrite Ah, kept_nth_axes by (auto; lia). apply Hb. now right.
  - intros i Hii. rewrite (Vh i Hii). destruct (step_line f a h i Hc Hn Hne Ha Rh Hii) as (L1 & L2 & L3). apply line_nonneg; auto.
    intro n. destruct (le_lt_dec (length (ax_grid (nth a (f_axes f) axis0))) n) as [Hl|Hl].
    + rewrite nth_overflow by lia. lra.
    + destruct (L3 n Hl) as (j & J1 & J2). rewrite J2. auto.
Qed.
Lemma qprod_same l l' : Permutation l l' -> fold_right Qmult 1 l == fold_right Qmult 1 l'.
Proof. apply qprod_perm. Qed.
Lemma scipy_constant m f axes p c : consistent f -> Forall axis_counted (f_axes f) -> nonempty (f_shape f) -> NoDup axes ->
  requested (length (f_shape f)) axes p ->
  (forall k, In k p -> goes_up (nth k (f_axes f) axis0) \/ goes_down (nth k (f_axes f) axis0)) ->
  (forall idx, in_shape (f_shape f) idx = true -> a_at (f_data f) idx == c) ->
  exists g, integrate_scipy m f axes = Ok g /\ remains f p g /\ forall idx, in_shape (f_shape g) idx = true ->
    a_at (f_data g) idx == c * fold_right Qmult 1 (map (fun k => point (nth k (f_axes f) axis0) (nth k (f_shape f) 0 - 1)%Z
                                                              - point (nth k (f_axes f) axis0) 0%Z) p).
Proof.
  intros Hc Hn Hne Nd Hr Hg Hv. destruct (scipy_total m f axes p Hc Hn Hne Nd Hr) as (g & E & R & _). exists g. split; [exact E|]. split; [exact R|].
  intros idx Hi. destruct (sorted_desc_nat axes p _ Nd Hr) as (q & Eq & Dq & Pq & Bq). unfold integrate_scipy in E. rewrite Eq in E.
  rewrite (constant_loop m q f c) with (g := g); auto.
  - apply Qmult_comp; [reflexivity|]. rewrite (qprod_same _ (map (fun k => span (nth k (f_axes f) axis0)) p)) by (now apply Permutation_map).
    enough (Em : map (fun k => span (nth k (f_axes f) axis0)) p = map (fun k => point (nth k (f_axes f) axis0) (nth k (f_shape f) 0 - 1)%Z
                    - point (nth k (f_axes f) axis0) 0%Z) p) by (now rewrite Em).
    apply map_ext_in. intros k Hk. assert (Hk' : (k < length (f_shape f))%nat) by (apply Bq, (Permutation_in k (Permutation_sym Pq)), Hk).
    pose proof (grid_length f k Hc Hn Hk'). pose proof (shape_pos f k Hne Hk'). unfold span, point. f_equal. f_equal. lia.
  - intros k Hk. split; [auto|]. apply goes_strictly, Hg. apply (Permutation_in k Pq), Hk.
Qed.
Lemma scipy_nonneg m f axes p : consistent f -> Forall axis_counted (f_axes f) -> nonempty (f_shape f) -> NoDup axes ->
  requested (length (f_shape f)) axes p -> (forall k, In k p -> sign_free m (nth k (f_axes f) axis0)) ->
  (forall idx, in_shape (f_shape f) idx = true -> 0 <= a_at (f_data f) idx) ->
  exists g, integrate_scipy m f axes = Ok g /\ forall idx, in_shape (f_shape g) idx = true -> 0 <= a_at (f_data g) idx.
Proof.
  intros Hc Hn Hne Nd Hr Hg Hv. destruct (scipy_total m f axes p Hc Hn Hne Nd Hr) as (g & E & R & _). exists g. split; [exact E|].
  destruct (sorted_desc_nat axes p _ Nd Hr) as (q & Eq & Dq & Pq & Bq). unfold integrate_scipy in E. rewrite Eq in E.
  apply (nonneg_loop m q f) with (g := g); auto. intros k Hk. split; [auto|]. apply Hg, (Permutation_in k Pq), Hk.
Qed.

(** * Order of the axes *)
Lemma sorted_Z_eq l : forall l', StronglySorted Z.le l -> StronglySorted Z.le l' -> Permutation l l' -> l = l'.
Proof.
  induction l as [|x l IH]; intros l' S1 S2 P; [apply Permutation_nil in P; now subst|].
  destruct l' as [|y l']; [symmetry in P; now apply Permutation_nil in P|].
  inversion S1 as [|? ? S1' F1]; subst. inversion S2 as [|? ? S2' F2]; subst. rewrite Forall_forall in F1, F2.
  assert (x = y).
  { assert (H1 : In y (x :: l)) by (apply (Permutation_in y (Permutation_sym P)); now left).
    assert (H2 : In x (y :: l')) by (apply (Permutation_in x P); now left).
    destruct H1 as [H1|H1]; [exact H1|]. destruct H2 as [H2|H2]; [now symmetry|]. specialize (F1 y H1). specialize (F2 x H2). lia. }
  subst y. f_equal. apply IH; auto. now apply Permutation_cons_inv in P.
Qed.
Lemma scipy_order m f axes axes' : Permutation axes axes' -> integrate_scipy m f axes = integrate_scipy m f axes'.
Proof.
  intro P. unfold integrate_scipy. f_equal. f_equal. apply sorted_Z_eq; [apply sort_Z_sorted..|]. now rewrite !sort_Z_perm.
Qed.
Lemma scipy_steps m f a1 p a2 q a3 r : consistent f -> Forall axis_counted (f_axes f) -> nonempty (f_shape f) ->
  NoDup a1 -> NoDup a2 -> NoDup a3 ->
  requested (length (f_shape f)) a1 p -> requested (length (others (length (f_shape f)) p)) a2 q ->
  requested (length (f_shape f)) a3 r ->
  Permutation r (p ++ map (fun k => nth k (others (length (f_shape f)) p) 0%nat) q) ->
  exists g h h', integrate_scipy m f a1 = Ok g /\ integrate_scipy m g a2 = Ok h /\ integrate_scipy m f a3 = Ok h' /\
    f_shape h = f_shape h' /\ f_top h = f_top h' /\
    forall idx, in_shape (f_shape h) idx = true -> a_at (f_data h) idx == a_at (f_data h') idx.
Proof.
  intros Hc Hn Hne N1 N2 N3 R1 R2 R3 P. destruct (scipy_total m f a1 p Hc Hn Hne N1 R1) as (g & Eg & Rg & Vg).
  pose proof (remains_consistent f p g Hc Rg) as Hcg. pose proof (kept_remains f p g Hc Rg) as (Sg & Ag & _).
  assert (Lg : length (f_shape g) = length (others (length (f_shape f)) p)) by (now rewrite Sg, kept_len).
  destruct (scipy_total m g a2 q) as (h & Eh & Rh & Vh); [exact Hcg|rewrite Ag; now apply kept_Forall|rewrite Sg; now apply nonempty_kept|exact N2|now rewrite Lg|].
  destruct (scipy_total m f a3 r Hc Hn Hne N3 R3) as (h' & Eh' & Rh' & Vh').
  exists g, h, h'. repeat (split; [assumption|]).
  assert (B : forall n a p, requested n a p -> forall k, In k p -> (k < n)%nat).
  { intros n a p0 (_ & Hi & Hb) k Hk. apply Hi in Hk. apply Hb in Hk. lia. }
  assert (Hq : forall k, In k q -> (k < length (others (length (f_shape f)) p))%nat) by (exact (B _ _ _ R2)).
  pose proof (remains_lift f p q g h Hc Rg Rh Hq) as RL. apply (remains_perm f _ r) in RL; [|now symmetry].
  destruct RL as (S & A & T & O & N & U), Rh' as (S' & A' & T' & O' & N' & U'). split; [congruence|]. split.
  - unfold f_axes, f_ats, f_tao in *. destruct (f_top h), (f_top h'). cbn in *. congruence.
  - intros idx Hx. pose proof (Vh idx Hx) as V1. rewrite S, <- S' in Hx. pose proof (Vh' idx Hx) as V2.
    apply line_integral_value in V1; [|exact Hcg|rewrite Ag; now apply kept_Forall|rewrite Lg; exact Hq].
    apply line_integral_value in V2; [|exact Hc|exact Hn|exact (B _ _ _ R3)]. rewrite V1, V2.
    rewrite (integral_lift (reax m f) p q (reax m g)).
    + apply integral_value_perm. now symmetry.
    + now apply reax_consistent.
    + now apply reax_remains.
    + intros i Hi. apply line_integral_value; [exact Hc|exact Hn|exact (B _ _ _ R1)|now apply Vg].
    + exact Hq.
Qed.
