(** map_axis_grid (C71) and outer products of fields (C72). *)
From Coq Require Import Lia Lqa Permutation.
From Verif Require Import PyBase PyBaseFacts NumpyModel NumpyFacts QSum AxisModel AxisSpec AxisFacts AxisInterpFacts
  NdModel NdFacts FieldModel FieldSpec FieldInvFacts FieldRearrFacts FieldReduceFacts FieldIntFacts FieldGridFacts.

Lemma mapped_cells ax t : axis_proper ax -> strictly_monotone_on ax t ->
  cells_up (map t (ax_node ax)) (map t (ax_grid ax)) \/ cells_down (map t (ax_node ax)) (map t (ax_grid ax)).
Proof.
  intros Hp Hm.
  assert (X : forall l i, (i < length l)%nat -> nth i (map t l) 0 = t (nth i l 0)) by (intros l i Hi; rewrite (nth_indep _ 0 (t 0)) by (now rewrite map_length); apply map_nth).
  destruct Hp as [[[L C] _]|[[L C] _]], Hm as [M|M]; [left|right|right|left]; (split; [now rewrite !map_length, L|]; intros i Hi; rewrite map_length in Hi; destruct (C i Hi) as [A B];
    rewrite !X by lia; split; apply M; try assumption; apply in_or_app; ((left; apply nth_In; lia) || (right; apply nth_In; lia))).
Qed.
Lemma axesidentify_at k : (k < 3)%nat -> axesidentify (Z.of_nat k) = Ok (Z.of_nat k).
Proof. intro H. destruct k as [|[|[|]]]; try reflexivity. lia. Qed.
Lemma map_grid_total spl f k t j p : consistent f -> Forall axis_proper (f_axes f) -> nonempty (f_shape f) ->
  (k < length (f_shape f))%nat -> (k < 3)%nat -> strictly_monotone_on (nth k (f_axes f) axis0) t ->
  exists g, map_axis_grid spl f (Z.of_nat k) t j p = Ok g /\ f_shape g = f_shape f /\ consistent g /\ Forall axis_proper (f_axes g) /\
    (forall i, i <> k -> nth i (f_axes g) axis0 = nth i (f_axes f) axis0) /\
    ax_node (nth k (f_axes g) axis0) = map t (ax_node (nth k (f_axes f) axis0)) /\
    ax_grid (nth k (f_axes g) axis0) = map t (ax_grid (nth k (f_axes f) axis0)) /\
    ax_name (nth k (f_axes g) axis0) = ax_name (nth k (f_axes f) axis0) /\ ax_unit (nth k (f_axes g) axis0) = ax_unit (nth k (f_axes f) axis0) /\
    (p = false -> f_data g = f_data f) /\
    (p = true -> forall idx, in_shape (f_shape f) idx = true ->
       a_at (f_data g) idx = a_at (f_data f) idx / j (nth (Z.to_nat (nth k idx 0%Z)) (ax_grid (nth k (f_axes f) axis0)) 0)).
Proof.
  intros Hc Hp Hn Hk H3 Hm.
  assert (La : length (f_axes f) = length (f_shape f)) by apply Hc.
  set (ax := nth k (f_axes f) axis0) in *.
  assert (Hax : nth_error (f_axes f) k = Some ax) by (apply nth_error_nth'; lia).
  assert (Pax : axis_proper ax) by (rewrite Forall_forall in Hp; apply Hp; eapply nth_error_In; exact Hax).
  pose proof (mk_axis_cells spl (ax_name ax) (ax_unit ax) _ _ (mapped_cells ax t Pax Hm)) as Hmk.
  assert (Hg : exists g, map_axis_grid spl f (Z.of_nat k) t j p = Ok g).
  { unfold map_axis_grid. rewrite axesidentify_at by exact H3. cbn [bind]. rewrite (getidx_at _ k axis0) by lia. fold ax. cbn [bind].
    assert (D : exists d, (if p then let! k := py_pos (Z.to_nat (dims (f_shape f))) (Z.of_nat k) in
       let! m := np_map2 Qdiv (f_data f) (np_along (Z.to_nat (dims (f_shape f))) k (map j (ax_grid ax))) in if idx_eqb (a_shape m) (f_shape f) then Ok m else Err ValueError
       else Ok (f_data f)) = Ok d).
    { destruct p; [|eauto]. rewrite nonempty_dims by exact Hn. rewrite Nat2Z.id. rewrite py_pos_nat by exact Hk. cbn [bind].
      destruct (np_along_op_r Qdiv (map j (ax_grid ax)) (f_data f) k Hk) as (c & Hc' & Sc & Ac).
      { rewrite map_length, <- proper_counted by exact Pax. unfold f_shape in *. symmetry. destruct Hc as (_ & HL & _). apply (HL k); [exact Hax|]. apply nth_error_nth'. exact Hk. }
      unfold f_shape in *. rewrite Hc'. cbn [bind]. rewrite Sc. assert (idx_eqb (a_shape (f_data f)) (a_shape (f_data f)) = true) as -> by (now apply idx_eqb_eq). eauto. }
    destruct D as (d & ->). cbn [bind]. rewrite Hmk. cbn [bind]. rewrite setidx_at by lia. cbn [bind]. eauto. }
  destruct Hg as (g & Hg). exists g. split; [exact Hg|].
  assert (Hi : inv f) by (split; [exact Hc|]; eapply Forall_impl; [|exact Hp]; intros x Hx; now apply proper_counted).
  pose proof (map_grid_inv _ _ _ _ _ _ _ Hi Hg) as [Hcg _].
  destruct (map_grid_parts _ _ _ _ _ _ _ Hi Hg) as (k' & ax0 & ax' & Hk' & Hax0 & Hmk' & Eg & Sg & _ & _ & D1 & D2).
  rewrite py_pos_nat in Hk' by lia. injection Hk' as <-. rewrite Hax in Hax0. injection Hax0 as <-. rewrite Hmk in Hmk'. injection Hmk' as <-.
  assert (X : nth k (f_axes g) axis0 = made (ax_name ax) (ax_unit ax) (map t (ax_node ax)) (map t (ax_grid ax))) by (rewrite Eg; apply nth_upd_same; lia).
  split; [exact Sg|]. split; [exact Hcg|]. split; [|split; [|split; [|split; [|split; [|split; [|split]]]]]]; try (rewrite X; reflexivity); try assumption.
  - rewrite Eg. apply Forall_upd; [exact Hp|]. apply made_proper. now apply mapped_cells.
  - intros i Ni. rewrite Eg. now apply nth_upd_other.
Qed.
Lemma cell_size_upd (axes axes' : list axis) k (j : list Z) (c : Q) p : NoDup p -> In k p ->
  (forall i, i <> k -> nth i axes' axis0 = nth i axes axis0) ->
  cell_width (nth k axes' axis0) (nth k j 0%Z) == c * cell_width (nth k axes axis0) (nth k j 0%Z) ->
  cell_size axes' p j == c * cell_size axes p j.
Proof.
  intros Nd Hk Ho Hw. unfold cell_size. induction p as [|i p IH]; [destruct Hk|]. cbn [map fold_right]. inversion Nd as [|? ? Ni Nd']; subst.
  destruct (Nat.eq_dec i k) as [->|N].
  - rewrite Hw. assert (E : map (fun k => cell_width (nth k axes' axis0) (nth k j 0%Z)) p = map (fun k => cell_width (nth k axes axis0) (nth k j 0%Z)) p).
    { apply map_ext_in. intros i Hi. rewrite Ho; [reflexivity|]. intros ->. contradiction. }
    rewrite E. ring.
  - destruct Hk as [->|Hk]; [contradiction|]. rewrite IH by assumption. rewrite Ho by exact N. ring.
Qed.
(** with a jacobian that is the stretch of every cell, integrals along that axis (and any
    others) stay the same *)
Lemma map_grid_integral spl f k t j : consistent f -> Forall axis_proper (f_axes f) -> nonempty (f_shape f) ->
  (k < length (f_shape f))%nat -> (k < 3)%nat -> strictly_monotone_on (nth k (f_axes f) axis0) t -> stretches (nth k (f_axes f) axis0) t j ->
  exists g, map_axis_grid spl f (Z.of_nat k) t j true = Ok g /\
    forall p idx v, NoDup p -> In k p -> is_integral f p idx v <-> is_integral g p idx v.
Proof.
  intros Hc Hp Hn Hk H3 Hm Hs. destruct (map_grid_total spl f k t j true Hc Hp Hn Hk H3 Hm) as (g & Eg & Sg & Hcg & Pg & Ho & Nd & Gr & _ & _ & _ & D).
  exists g. split; [exact Eg|]. intros p idx v Np Hkp. specialize (D eq_refl). set (ax := nth k (f_axes f) axis0) in *.
  assert (Pax : axis_proper ax) by (rewrite Forall_forall in Hp; apply Hp, nth_In; destruct Hc as (-> & _); exact Hk).
  assert (La : (length (ax_node ax) = S (length (ax_grid ax)))%nat) by (destruct Pax as [[[L _] _]|[[L _] _]]; exact L).
  assert (M : forall idx, in_shape (f_shape f) idx = true -> a_at (f_data g) idx * cell_size (f_axes g) p idx == a_at (f_data f) idx * cell_size (f_axes f) p idx).
  { intros i Hi. set (q := nth k i 0%Z). assert (B : (0 <= q < Z.of_nat (length (ax_grid ax)))%Z).
    { rewrite <- proper_counted by exact Pax. pose proof (in_shape_nth _ _ k 0%Z 0%Z Hi Hk) as B. fold q in B.
      destruct Hc as (La' & HL & _). rewrite (HL k ax (nth k (f_shape f) 0%Z)); [exact B|apply nth_error_nth'; lia|apply nth_error_nth'; exact Hk]. }
    specialize (Hs (Z.to_nat q) ltac:(lia)).
    assert (W : cell_width (nth k (f_axes g) axis0) q == j (nth (Z.to_nat q) (ax_grid ax) 0) * cell_width ax q).
    { unfold cell_width. rewrite Nd. rewrite !(nth_indep (map t (ax_node ax)) 0 (t 0)) by (rewrite map_length; lia). rewrite !map_nth. exact Hs. }
    rewrite (D i Hi). fold q. rewrite (cell_size_upd (f_axes f) (f_axes g) k i _ p Np Hkp Ho W).
    assert (J : ~ j (nth (Z.to_nat q) (ax_grid ax) 0) == 0); [|field; exact J].
    intro Z0. rewrite Z0 in Hs.
    assert (I1 : In (nth (Z.to_nat q) (ax_node ax) 0) (ax_node ax ++ ax_grid ax)) by (apply in_or_app; left; apply nth_In; lia).
    assert (I2 : In (nth (S (Z.to_nat q)) (ax_node ax) 0) (ax_node ax ++ ax_grid ax)) by (apply in_or_app; left; apply nth_In; lia).
    assert (T : nth (Z.to_nat q) (ax_node ax) 0 < nth (S (Z.to_nat q)) (ax_node ax) 0 \/ nth (S (Z.to_nat q)) (ax_node ax) 0 < nth (Z.to_nat q) (ax_node ax) 0).
    { destruct Pax as [[[_ C] _]|[[_ C] _]]; destruct (C (Z.to_nat q) ltac:(lia)); [left|right]; lra. }
    destruct Hm as [Hm|Hm], T as [T|T]; [specialize (Hm _ _ I1 I2 T)|specialize (Hm _ _ I2 I1 T)|specialize (Hm _ _ I1 I2 T)|specialize (Hm _ _ I2 I1 T)]; lra. }
  assert (Q0 : forall js, lists_fibre (f_shape f) p idx js -> fold_right Qplus 0 (map (fun j => a_at (f_data f) j * cell_size (f_axes f) p j) js) ==
     fold_right Qplus 0 (map (fun j => a_at (f_data g) j * cell_size (f_axes g) p j) js)).
  { intros js [_ Hj]. assert (F : forall x, In x js -> in_shape (f_shape f) x = true) by (intros x Hx; now apply Hj in Hx as [Hx _]). clear Hj.
    induction js as [|x js IH]; [reflexivity|]. cbn [map fold_right]. rewrite IH by (intros y Hy; apply F; now right). rewrite (M x) by (apply F; now left). reflexivity. }
  unfold is_integral. rewrite Sg. split; intros (js & F & V); exists js; (split; [exact F|]); rewrite V; [|symmetry]; now apply Q0.
Qed.
(** * ufunc.outer *)
Lemma outer_total {A B C} (op : A -> B -> C) (f : field A) (g : field B) : consistent f -> consistent g ->
  (length (f_shape f) + length (f_shape g) <= 3)%nat ->
  exists h, field_outer op f g = Ok h /\ consistent h /\ f_shape h = f_shape f ++ f_shape g /\ f_axes h = f_axes f ++ f_axes g /\
    f_ats h = f_ats f ++ f_ats g /\ f_tao h = f_tao f ++ f_tao g /\
    l_name (f_top h) = l_name (f_top f) /\ l_unit (f_top h) = l_unit (f_top f) /\
    forall i j, in_shape (f_shape f) i = true -> in_shape (f_shape g) j = true -> a_at (f_data h) (i ++ j) = op (a_at (f_data f) i) (a_at (f_data g) j).
Proof.
  intros Hf Hg H3. pose proof (consistent_map f Hf) as Mf. pose proof (consistent_map g Hg) as Mg.
  destruct Hf as (L1 & _ & L2 & L3), Hg as (L4 & _ & L5 & L6).
  unfold field_outer. rewrite field_of_total; [|cbn [a_shape]; rewrite map_app, Mf, Mg; reflexivity|rewrite app_length; lia].
  eexists. split; [reflexivity|]. split.
  { apply map_consistent; unfold f_axes, f_shape, f_ats, f_tao in *; cbn [f_top f_data l_axes l_ats l_tao a_shape]; rewrite ?map_app, ?app_length; congruence. }
  do 6 (split; [reflexivity|]). intros i j Hi Hj. cbn [f_data a_at].
  assert (E : length i = length (f_shape f)) by (now apply in_shape_length). rewrite <- E.
  rewrite firstn_app, firstn_all, skipn_app, skipn_all, Nat.sub_diag. cbn [firstn skipn]. rewrite app_nil_r. reflexivity.
Qed.
