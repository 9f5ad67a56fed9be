(** Lemmas on map_axis_grid with the numerical derivative. *)
From Coq Require Import QArith Qabs Qfield Lia Lqa.
From Verif Require Import PyBase PyBaseFacts NumpyModel NumpyFacts QSum AxisModel AxisSpec AxisFacts NdModel NdFacts FieldModel FieldSpec FieldInvFacts FieldIntFacts FieldMapFacts JacDefModel JacDefSpec PropFieldGrid.
Local Open Scope Q_scope.

Lemma map_grid_axes spl f k t j j' g g' : map_axis_grid spl f k t j true = Ok g -> map_axis_grid spl f k t j' true = Ok g' -> f_axes g = f_axes g'.
Proof.
  unfold map_axis_grid. intros E E'. apply bind_ok in E as (a & A & E). rewrite A in E'. cbn [bind] in E'. apply bind_ok in E as (ax & B & E). rewrite B in E'. cbn [bind] in E'.
  apply bind_ok in E as (d & _ & E). apply bind_ok in E' as (d' & _ & E'). apply bind_ok in E as (ax' & D & E). rewrite D in E'. cbn [bind] in E'. apply bind_ok in E as (axes & F & E). rewrite F in E'. cbn [bind] in E'.
  injection E as <-. injection E' as <-. reflexivity.
Qed.
Lemma map_grid_sign spl f k t j c : consistent f -> Forall axis_proper (f_axes f) -> nonempty (f_shape f) ->
  (k < length (f_shape f))%nat -> (k < 3)%nat -> strictly_monotone_on (nth k (f_axes f) axis0) t -> (c == 1 \/ c == -1) -> stretches (nth k (f_axes f) axis0) t (fun x => c * j x) ->
  exists g, map_axis_grid spl f (Z.of_nat k) t j true = Ok g /\
    forall p idx v, NoDup p -> In k p -> is_integral f p idx v <-> is_integral g p idx (c * v).
Proof.
  intros H1 H2 H3 H4 H5 H6 Hc Hs. destruct (map_grid_total spl f k t j true H1 H2 H3 H4 H5 H6) as (g & Eg & Sg & _ & _ & _ & _ & _ & _ & _ & _ & D).
  destruct (map_grid_total spl f k t (fun x => c * j x) true H1 H2 H3 H4 H5 H6) as (g' & Eg' & Sg' & _ & _ & _ & _ & _ & _ & _ & _ & D').
  destruct (map_grid_integral spl f k t _ H1 H2 H3 H4 H5 H6 Hs) as (g2 & E2 & I). rewrite Eg' in E2. injection E2 as <-. exists g. split; [exact Eg|]. intros p idx v Np Hk. rewrite (I p idx v Np Hk).
  assert (Ax := map_grid_axes spl f _ t _ _ g g' Eg Eg'). specialize (D eq_refl). specialize (D' eq_refl).
  assert (S : forall js, lists_fibre (f_shape f) p idx js -> fold_right Qplus 0 (map (fun i => a_at (f_data g) i * cell_size (f_axes g) p i) js) == c * fold_right Qplus 0 (map (fun i => a_at (f_data g') i * cell_size (f_axes g') p i) js)).
  { intros js [_ F]. assert (F' : forall i, In i js -> in_shape (f_shape f) i = true) by (intros i Hi; apply F in Hi; tauto). clear F. induction js as [|i js IH]; cbn [map fold_right]; [ring|].
    rewrite IH by (intros; apply F'; now right). rewrite (D i), (D' i) by (apply F'; now left). rewrite Ax. set (y := j _). assert (Q : a_at (f_data f) i / y == c * (a_at (f_data f) i / (c * y))).
    { destruct (Qeq_dec y 0) as [Z|N]; [assert (E0 : c * y == 0) by (rewrite Z; ring); unfold Qdiv; rewrite E0, Z; change (/ 0) with 0; ring|]. destruct Hc as [-> | ->]; field; lra. }
    rewrite Q. ring. }
  unfold is_integral. rewrite Sg, Sg'. split; intros (js & F & V); exists js; (split; [exact F|]); specialize (S js F).
  - rewrite S, V. reflexivity.
  - rewrite S in V. destruct Hc as [E|E]; rewrite E in V; lra.
Qed.
(** * The derivative of quadratic functions *)
Lemma default_quadratic eps a b c x : ~ eps == 0 -> ~ x == -1 -> forall t, (forall y, t y == a * (y * y) + b * y + c) -> default_jac eps t x == Qabs (2 * a * x + b).
Proof.
  intros He Hx t Ht. unfold default_jac. cbv zeta. assert (E : (t (x + (eps + eps * x)) - t (x - (eps + eps * x))) / (2 * (eps + eps * x)) == 2 * a * x + b).
  { rewrite !Ht. field. intro Z. assert (Z' : eps * (1 + x) == 0) by lra. apply Qmult_integral in Z' as [Z'|Z']; [contradiction|]. apply Hx. lra. }
  rewrite E. reflexivity.
Qed.
Lemma proper_nodes ax : axis_proper ax -> (length (ax_node ax) = S (length (ax_grid ax)))%nat /\ forall i, (i < length (ax_grid ax))%nat -> nth i (ax_node ax) 0 < nth (S i) (ax_node ax) 0 \/ nth (S i) (ax_node ax) 0 < nth i (ax_node ax) 0.
Proof.
  intros [[[L C] _]|[[L C] _]]; (split; [exact L|]); intros i Hi; destruct (C i Hi); [left|right]; lra.
Qed.
Lemma stretch_quadratic eps ax a b c t : axis_proper ax -> ~ eps == 0 -> (forall y, t y == a * (y * y) + b * y + c) -> off_minus_one ax -> (a == 0 \/ midpoints ax) ->
  (rising_on ax t -> stretches ax t (fun x => 1 * default_jac eps t x)) /\ (falling_on ax t -> stretches ax t (fun x => -1 * default_jac eps t x)).
Proof.
  intros P He Ht Hm Ha. destruct (proper_nodes ax P) as [L W].
  assert (K : forall i, (i < length (ax_grid ax))%nat -> t (nth (S i) (ax_node ax) 0) - t (nth i (ax_node ax) 0) == (2 * a * nth i (ax_grid ax) 0 + b) * (nth (S i) (ax_node ax) 0 - nth i (ax_node ax) 0)).
  { intros i Hi. rewrite !Ht. set (u := nth i (ax_node ax) 0). set (v := nth (S i) (ax_node ax) 0). destruct Ha as [Z|M]; [rewrite Z; ring|].
    assert (E : (2 * a * nth i (ax_grid ax) 0 + b) * (v - u) == (a * (2 * nth i (ax_grid ax) 0) + b) * (v - u)) by ring. rewrite E, (M i Hi). fold u v. ring. }
  assert (In1 : forall i, (i < length (ax_grid ax))%nat -> In (nth i (ax_node ax) 0) (ax_node ax ++ ax_grid ax) /\ In (nth (S i) (ax_node ax) 0) (ax_node ax ++ ax_grid ax)) by (intros i Hi; split; apply in_or_app; left; apply nth_In; lia).
  split; intros Mo i Hi; rewrite (K i Hi), (default_quadratic eps a b c _ He (Hm i Hi) t Ht); set (d := 2 * a * nth i (ax_grid ax) 0 + b) in *; specialize (K i Hi); fold d in K; destruct (In1 i Hi) as [I1 I2]; destruct (W i Hi) as [T|T].
  - assert (H := Mo _ _ I1 I2 T). assert (0 <= d) by nra. rewrite Qabs_pos by assumption. ring.
  - assert (H := Mo _ _ I2 I1 T). assert (0 <= d) by nra. rewrite Qabs_pos by assumption. ring.
  - assert (H := Mo _ _ I1 I2 T). assert (d <= 0) by nra. rewrite Qabs_neg by assumption. ring.
  - assert (H := Mo _ _ I2 I1 T). assert (d <= 0) by nra. rewrite Qabs_neg by assumption. ring.
Qed.
Lemma default_integral spl eps f k t a b c (rising : bool) : consistent f -> Forall axis_proper (f_axes f) -> nonempty (f_shape f) -> (k < length (f_shape f))%nat -> (k < 3)%nat -> ~ eps == 0 ->
  (forall y, t y == a * (y * y) + b * y + c) -> off_minus_one (nth k (f_axes f) axis0) -> (a == 0 \/ midpoints (nth k (f_axes f) axis0)) ->
  (if rising then rising_on (nth k (f_axes f) axis0) t else falling_on (nth k (f_axes f) axis0) t) ->
  exists g, map_axis_default spl eps f (Z.of_nat k) t = Ok g /\
    forall p idx v, NoDup p -> In k p -> is_integral f p idx v <-> is_integral g p idx ((if rising then 1 else -1) * v).
Proof.
  intros H1 H2 H3 H4 H5 He Ht Hm Ha Mo. assert (P : axis_proper (nth k (f_axes f) axis0)) by (rewrite Forall_forall in H2; apply H2, nth_In; destruct H1 as (-> & _); exact H4).
  destruct (stretch_quadratic eps _ a b c t P He Ht Hm Ha) as [S1 S2].
  apply map_grid_sign; try assumption; destruct rising; [left|right|left|right|apply S1|apply S2]; (exact Mo || reflexivity).
Qed.
(** * The plate of the other examples *)
Lemma plate_square : rising_on (nth 1 (f_axes plate) axis0) (fun y => y * y) /\ midpoints (nth 1 (f_axes plate) axis0) /\ off_minus_one (nth 1 (f_axes plate) axis0) /\ falling_on (nth 1 (f_axes plate) axis0) (fun y => - y).
Proof.
  split; [|split; [|split]].
  - intros x y Hx Hy Hxy. assert (0 <= x) by (cbn in Hx; repeat (destruct Hx as [<-|Hx]; [discriminate|]); destruct Hx).
    assert (0 <= y) by (cbn in Hy; repeat (destruct Hy as [<-|Hy]; [discriminate|]); destruct Hy). nra.
  - intros i Hi. cbn in Hi. do 3 (destruct i as [|i]; [vm_compute; reflexivity|]). exfalso. lia.
  - intros i Hi. cbn in Hi. do 3 (destruct i as [|i]; [vm_compute; discriminate|]). exfalso. lia.
  - intros x y _ _ H. lra.
Qed.
Lemma mirror_refuted spl : exists f k t g idx v, consistent f /\ Forall axis_proper (f_axes f) /\ nonempty (f_shape f) /\ strictly_monotone_on (nth k (f_axes f) axis0) t /\
  map_axis_default spl (1 # 67108864) f (Z.of_nat k) t = Ok g /\ is_integral f [k] idx v /\ is_integral g [k] idx (- v) /\ ~ is_integral g [k] idx v.
Proof.
  destruct plate_ok as [(H1 & _ & _ & H2) H3]. destruct plate_square as (_ & Mi & Om & Fa).
  assert (Ht : forall y, - y == 0 * (y * y) + -1 * y + 0) by (intro y; ring). assert (He : ~ 1 # 67108864 == 0) by discriminate. assert (L1 : (1 < length (f_shape plate))%nat) by (cbn; lia). assert (L2 : (1 < 3)%nat) by lia.
  destruct (default_integral spl (1 # 67108864) plate 1 (fun y => - y) 0 (-1) 0 false H1 H2 H3 L1 L2 He Ht Om (or_introl (Qeq_refl 0)) Fa) as (g & Eg & I).
  assert (V := integral_value_is plate [1%nat] [0%Z]). set (v := integral_value plate [1%nat] [0%Z]) in *. exists plate, 1%nat, (fun y => - y), g, [0%Z], v.
  split; [exact H1|]. split; [exact H2|]. split; [exact H3|]. split; [right; exact Fa|]. split; [exact Eg|]. split; [exact V|].
  assert (N : NoDup [1%nat]) by (constructor; [intros []|constructor]). apply (I [1%nat] [0%Z] v N (or_introl eq_refl)) in V.
  assert (V' : is_integral g [1%nat] [0%Z] (- v)) by (apply is_integral_value in V; apply is_integral_value; rewrite <- V; ring).
  split; [exact V'|]. intro W. assert (U := is_integral_unique g _ _ _ _ V' W). assert (E : v == 30) by reflexivity. rewrite E in U. discriminate U.
Qed.
