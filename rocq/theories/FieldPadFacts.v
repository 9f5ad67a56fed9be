(** Padding of fields (C15, C16). *)
From Coq Require Import Lia Lqa Permutation Setoid Qround.
From Verif Require Import PyBase PyBaseFacts NumpyModel NumpyFacts QSum AxisModel AxisSpec AxisFacts
  NdModel NdFacts FieldModel FieldSpec FieldInvFacts FieldNodedFacts FieldRearrFacts FieldReduceFacts FieldOpFacts FieldIntFacts FieldGridFacts.

Lemma mapM_ex {A B} (f : A -> res B) (P : A -> B -> Prop) l : (forall x, In x l -> exists y, f x = Ok y /\ P x y) ->
  exists r, mapM f l = Ok r /\ Forall2 P l r.
Proof.
  induction l as [|x l IH]; intro H; [exists []; split; [reflexivity|constructor]|].
  destruct (H x (or_introl eq_refl)) as (y & Ey & Py). destruct IH as (r & Er & Pr); [intros; apply H; now right|].
  exists (y :: r). cbn [mapM]. rewrite Ey. cbn [bind]. rewrite Er. split; [reflexivity|now constructor].
Qed.

(** * One axis *)
Lemma uniform_at a b n ax h : (1 <= n)%nat -> axis_uniform a b n ax -> h * inject_Z (Z.of_nat n) == b - a ->
  (forall i, (i <= n)%nat -> nth i (ax_node ax) 0 == a + inject_Z (Z.of_nat i) * h) /\
  (forall i, (i < n)%nat -> nth i (ax_grid ax) 0 == a + (inject_Z (Z.of_nat i) + (1 # 2)) * h).
Proof.
  intros Hn (_ & _ & _ & _ & _ & Hnode & Hgrid) Hh.
  assert (E : (b - a) / inject_Z (Z.of_nat n) == h).
  { rewrite <- Hh. field. apply inject_Z_nz. lia. }
  split; intros i Hi; [rewrite Hnode|rewrite Hgrid]; try exact Hi; rewrite E; reflexivity.
Qed.
Lemma uniform_width a b n ax h i : (1 <= n)%nat -> axis_uniform a b n ax -> h * inject_Z (Z.of_nat n) == b - a ->
  (0 <= i < Z.of_nat n)%Z -> cell_width ax i == h.
Proof.
  intros Hn Hu Hh Hi. destruct (uniform_at a b n ax h Hn Hu Hh) as [Hnode _]. unfold cell_width.
  rewrite !Hnode by lia. rewrite inject_Z_S. ring.
Qed.
Lemma pad_cells_total dx p : 0 < dx -> num_nonneg p -> exists z, pad_cells dx p = Ok z /\ asks_cells dx p z.
Proof.
  intros Hd Hp. destruct p as [z|q]; cbn [pad_cells num_nonneg] in *.
  - exists z. split; [reflexivity|]. split; [exact Hp|reflexivity].
  - destruct (Qeqb_spec dx 0) as [E|E]; [lra|]. exists (Qceiling (q / dx)). split; [reflexivity|].
    pose proof (Qle_ceiling (q / dx)) as H1. pose proof (Qceiling_lt (q / dx)) as H2.
    assert (Eq : q / dx * dx == q) by (field; exact E). split; [|split].
    + destruct (Z.lt_ge_cases (Qceiling (q / dx)) 0) as [H|H]; [|exact H]. exfalso.
      assert (inject_Z (Qceiling (q / dx)) <= inject_Z (-1)) by (rewrite <- Zle_Qle; lia). change (inject_Z (-1)) with (-(1)) in *.
      assert (0 <= q / dx) by (apply Qle_shift_div_l; lra). lra.
    + apply (Qmult_lt_r _ _ dx Hd) in H2. lra.
    + apply (Qmult_le_r _ _ dx Hd) in H1. lra.
Qed.
Lemma asks_compat dx dx' p z : dx == dx' -> asks_cells dx p z -> asks_cells dx' p z.
Proof. intros E [H0 H]. split; [exact H0|]. destruct p; [exact H|]. rewrite E in H. exact H. Qed.
Lemma pad_axis_total spl ax p : reproduces_lines spl -> ascending_uniform ax -> num_nonneg (fst p) -> num_nonneg (snd p) ->
  exists p0 p1 r, pad_axis spl ax p = Ok (p0, p1, r) /\
    asks_cells (cell_width ax 0) (fst p) p0 /\ asks_cells (cell_width ax 0) (snd p) p1 /\ axis_continues p0 p1 ax r /\
    (p0 = 0%Z -> p1 = 0%Z -> r = ax).
Proof.
  intros Hspl (a & b & n & Hn & Hab & Hu) H0 H1. unfold pad_axis.
  destruct (uniform_spacing a b n ax Hn Hu) as (h & Eh & Hh). rewrite Eh. cbn [bind].
  assert (Hpos : 0 < inject_Z (Z.of_nat n)) by (apply inject_Z_pos; lia).
  assert (Eab : qabs (b - a) == b - a) by (unfold qabs; destruct (Qleb_spec 0 (b - a)); [reflexivity|lra]).
  rewrite Eab in Hh. assert (Hh0 : 0 < h) by nra.
  destruct (pad_cells_total h (fst p) Hh0 H0) as (p0 & E0 & A0). destruct (pad_cells_total h (snd p) Hh0 H1) as (p1 & E1 & A1).
  rewrite E0. cbn [bind]. rewrite E1. cbn [bind].
  pose proof (uniform_width a b n ax h 0 Hn Hu Hh ltac:(lia)) as W.
  pose proof (uniform_at a b n ax h Hn Hu Hh) as [An Ag]. pose proof Hu as (Ln & Lg & Nn & X0 & X1 & _).
  pose proof (asks_compat _ _ _ _ (Qeq_sym _ _ W) A0) as B0. pose proof (asks_compat _ _ _ _ (Qeq_sym _ _ W) A1) as B1.
  destruct A0 as [P0 _]. destruct A1 as [P1 _].
  destruct (Z.eqb_spec (p0 + p1) 0) as [E|E].
  - exists p0, p1, ax. split; [reflexivity|]. split; [exact B0|]. split; [exact B1|]. split; [|auto].
    assert (p0 = 0%Z) as -> by lia. assert (p1 = 0%Z) as -> by lia.
    split; [lia|]. split; [exists a, b, n; auto|]. split; [reflexivity|]. split; [reflexivity|].
    unfold ax_len. rewrite Nn. split; [|split]; intros i Hi; rewrite ?Z.add_0_r; [reflexivity..|].
    rewrite (uniform_width a b n ax h i Hn Hu Hh Hi). now rewrite W.
  - destruct (ax_extent ax) as [e0 e1] eqn:Ee. cbn [fst snd] in X0, X1.
    set (m := (n + Z.to_nat p0 + Z.to_nat p1)%nat).
    replace (Z.of_nat (length (ax_node ax)) - 1 + p0 + p1)%Z with (Z.of_nat m) by (unfold m; lia).
    destruct (mk_axis_extent_uniform spl (ax_name ax) (ax_unit ax) (e0 - inject_Z p0 * h) (e1 + inject_Z p1 * h) m Hspl ltac:(unfold m; lia))
      as (r & Er & Ur & Nr & Rr).
    rewrite Er. cbn [bind]. exists p0, p1, r. split; [reflexivity|]. split; [exact B0|]. split; [exact B1|]. split; [|lia].
    assert (Em : inject_Z (Z.of_nat m) == inject_Z (Z.of_nat n) + inject_Z p0 + inject_Z p1).
    { rewrite <- !inject_Z_plus. apply inject_Z_injective. unfold m. lia. }
    assert (Hm : h * inject_Z (Z.of_nat m) == (e1 + inject_Z p1 * h) - (e0 - inject_Z p0 * h)) by (rewrite Em, X0, X1; lra).
    assert (Q0 : 0 <= inject_Z p0) by (change 0 with (inject_Z 0); rewrite <- Zle_Qle; lia).
    assert (Q1 : 0 <= inject_Z p1) by (change 0 with (inject_Z 0); rewrite <- Zle_Qle; lia).
    pose proof (uniform_at _ _ m r h ltac:(unfold m; lia) Ur Hm) as [Rn Rg]. pose proof Ur as (_ & _ & Nm & _).
    unfold axis_continues, ax_len. rewrite Nm, Nn. split; [unfold m; lia|].
    split; [exists (e0 - inject_Z p0 * h), (e1 + inject_Z p1 * h), m; split; [unfold m; lia|]; split; [nra|exact Ur]|].
    split; [exact Nr|]. split; [exact Rr|]. split; [|split]; intros i Hi.
    + rewrite Rg, Ag by (unfold m; lia). rewrite !Z2Nat.id by lia. rewrite inject_Z_plus, X0. ring.
    + rewrite Rn, An by (unfold m; lia). rewrite !Z2Nat.id by lia. rewrite inject_Z_plus, X0. ring.
    + rewrite (uniform_width _ _ m r h i ltac:(unfold m; lia) Ur Hm Hi). now rewrite W.
Qed.

(** * All axes *)
Lemma pad_list_each n l : length l = n -> pad_list (Z.of_nat n) (PadEach l) = l.
Proof.
  intro L. unfold pad_list. destruct l as [|x [|y l]]; try reflexivity. cbn in L. subst n. reflexivity.
Qed.
Lemma pad_list_all n p : (1 <= n)%nat -> pad_list (Z.of_nat n) (PadAll p) = repeat (p, p) n.
Proof. intros _. unfold pad_list. now rewrite Nat2Z.id. Qed.
Lemma shifted_length idx w : length idx = length w -> length (shifted idx w) = length w.
Proof. intro H. unfold shifted. rewrite map2_length. lia. Qed.
Lemma pad_index_shifted idx w : length idx = length w -> pad_index (shifted idx w) w = idx.
Proof.
  revert w. induction idx as [|i idx IH]; intros [|p w] L; try discriminate; [reflexivity|].
  unfold pad_index, shifted in *. cbn [map2]. rewrite IH by (cbn in L; lia). f_equal. lia.
Qed.
Lemma shifted_pad_index idx w : length idx = length w -> shifted (pad_index idx w) w = idx.
Proof.
  revert w. induction idx as [|i idx IH]; intros [|p w] L; try discriminate; [reflexivity|].
  unfold pad_index, shifted in *. cbn [map2]. rewrite IH by (cbn in L; lia). f_equal. lia.
Qed.
Lemma Forall2_combine_nth {A B C} (P : A * B -> C -> Prop) l m r k (a : A) (b : B) (c : C) :
  length l = length m -> Forall2 P (combine l m) r -> (k < length l)%nat -> P (nth k l a, nth k m b) (nth k r c).
Proof.
  intros L H Hk. assert (E : nth_error (combine l m) k = Some (nth k l a, nth k m b)).
  { rewrite <- combine_nth by exact L. apply nth_error_nth'. rewrite combine_length. lia. }
  destruct (Forall2_nth_error _ _ _ _ _ H E) as (y & Ey & Hy). now rewrite (nth_error_nth r k c Ey).
Qed.
Lemma ascending_noded ax : ascending_uniform ax -> axis_noded ax /\ (1 <= ax_len ax)%Z /\ islinear ax = Ok true.
Proof.
  intros (a & b & n & Hn & Hab & Hu). pose proof (uniform_islinear a b n ax Hn Hu). destruct Hu as (Ln & Lg & Nn & _).
  unfold axis_noded, axis_counted, ax_len. rewrite Nn, Lg, Ln. split; [split; lia|]. split; [lia|exact H].
Qed.
Lemma ascending_nonempty {V} (f : field V) : consistent f -> Forall ascending_uniform (f_axes f) -> nonempty (f_shape f).
Proof.
  intros Hf Ha. rewrite <- (consistent_map f Hf). unfold nonempty. apply Forall_map. revert Ha. apply Forall_impl.
  intros ax H. apply ascending_noded in H. lia.
Qed.
Lemma pad_total {V} spl (c : V) f p l : reproduces_lines spl -> consistent f -> f_axes f <> [] -> Forall ascending_uniform (f_axes f) ->
  pad_list (Z.of_nat (length (f_shape f))) p = l -> length l = length (f_shape f) ->
  Forall (fun q => num_nonneg (fst q) /\ num_nonneg (snd q)) l ->
  exists g w, field_pad spl c f p = Ok g /\ padded c f w g /\
    (forall k, (k < length (f_shape f))%nat ->
      asks_cells (cell_width (nth k (f_axes f) axis0) 0) (fst (nth k l (NInt 0, NInt 0))) (fst (nth k w (0, 0)%Z)) /\
      asks_cells (cell_width (nth k (f_axes f) axis0) 0) (snd (nth k l (NInt 0, NInt 0))) (snd (nth k w (0, 0)%Z))) /\
    (forall k, (k < length (f_shape f))%nat -> nth k w (0, 0)%Z = (0, 0)%Z -> nth k (f_axes g) axis0 = nth k (f_axes f) axis0).
Proof.
  intros Hspl Hf Hne Ha Hl Ll Hp. pose proof (ascending_nonempty f Hf Ha) as Hn. pose proof (nonempty_dims _ Hn) as Hd.
  pose proof (consistent_map f Hf) as Hm. pose proof Hf as (L & _ & L2 & L3).
  destruct (mapM_ex (fun q => pad_axis spl (fst q) (snd q))
    (fun q y => asks_cells (cell_width (fst q) 0) (fst (snd q)) (fst (fst y)) /\ asks_cells (cell_width (fst q) 0) (snd (snd q)) (snd (fst y)) /\
       axis_continues (fst (fst y)) (snd (fst y)) (fst q) (snd y) /\ (fst (fst y) = 0%Z -> snd (fst y) = 0%Z -> snd y = fst q))
    (combine (f_axes f) l)) as (r & Er & Hr).
  { intros [ax q] Hin. pose proof (in_combine_l _ _ _ _ Hin) as H1. apply in_combine_r in Hin.
    rewrite Forall_forall in Ha, Hp. destruct (Hp _ Hin) as [P0 P1].
    destruct (pad_axis_total spl ax q Hspl (Ha _ H1) P0 P1) as (p0 & p1 & x & E & A0 & A1 & C & Z0).
    exists (p0, p1, x). cbn [fst snd]. auto 6. }
  pose proof (mapM_length _ _ _ Er) as Lr. rewrite combine_length in Lr.
  assert (Lr' : length r = length (f_shape f)) by lia.
  assert (Hat : forall k, (k < length (f_shape f))%nat ->
     let ax := nth k (f_axes f) axis0 in let y := nth k r (0, 0, axis0)%Z in let q := nth k l (NInt 0, NInt 0) in
     asks_cells (cell_width ax 0) (fst q) (fst (fst y)) /\ asks_cells (cell_width ax 0) (snd q) (snd (fst y)) /\
       axis_continues (fst (fst y)) (snd (fst y)) ax (snd y) /\ (fst (fst y) = 0%Z -> snd (fst y) = 0%Z -> snd y = ax)).
  { intros k Hk. cbv zeta. refine (Forall2_combine_nth _ _ _ _ k axis0 (NInt 0, NInt 0) (0, 0, axis0)%Z _ Hr _); lia. }
  assert (Hnn : forallb (fun q => (0 <=? fst q)%Z && (0 <=? snd q)%Z) (map fst r) = true).
  { apply forallb_forall. intros q Hq. apply in_map_iff in Hq as (y & <- & Hy). destruct (In_nth _ _ (0, 0, axis0)%Z Hy) as (k & Hk & <-).
    destruct (Hat k ltac:(lia)) as ([P0 _] & [P1 _] & _). apply andb_true_iff. split; apply Z.leb_le; assumption. }
  assert (Hg : exists g, field_pad spl c f p = Ok g).
  { unfold field_pad. rewrite (mapM_map islinear (fun _ => true)).
    2:{ intros x Hx. rewrite Forall_forall in Ha. specialize (Ha x Hx). now apply ascending_noded in Ha. }
    cbn [bind]. destruct (f_axes f) as [|ax axes] eqn:Eax; [contradiction|]. cbn [map]. rewrite <- Eax in *. rewrite Hd, Hl.
    rewrite Ll, Z.eqb_refl. cbn [negb]. replace (length (f_axes f) <? length (f_shape f))%nat with false by (symmetry; apply Nat.ltb_ge; lia).
    rewrite Er. cbn [bind]. unfold np_pad. rewrite map_length. change (a_shape (f_data f)) with (f_shape f).
    rewrite Lr', Nat.eqb_refl. cbn [negb]. rewrite Hnn. cbn [negb bind]. eexists. reflexivity. }
  destruct Hg as (g & Hg). exists g, (map fst r). split; [exact Hg|].
  assert (Nm : l_name (f_top g) = l_name (f_top f) /\ l_unit (f_top g) = l_unit (f_top f)).
  { clear - Hg. unfold field_pad in Hg. apply bind_ok in Hg as (lin & _ & H). destruct lin; [discriminate|]. destruct (negb _); [discriminate|].
    destruct (_ <? _)%nat; [discriminate|]. apply bind_ok in H as (r & _ & H). apply bind_ok in H as (d & _ & H). injection H as <-. auto. }
  assert (Hnoded : Forall axis_noded (f_axes f)) by (revert Ha; apply Forall_impl; intros ax H; now apply ascending_noded in H).
  pose proof (field_pad_parts spl c f g p Hf Hg) as (l' & r' & El' & _ & _ & Er' & _ & _ & Sg & Vg & Ag & Tg & _ & _).
  rewrite Hd, Hl in El'. subst l'. rewrite Er in Er'. injection Er' as <-.
  assert (Wk : forall k, nth k (map fst r) (0, 0)%Z = fst (nth k r (0, 0, axis0)%Z)) by (intro k; exact (map_nth fst r (0, 0, axis0)%Z k)).
  assert (Axk : forall k, (k < length (f_shape f))%nat -> nth k (f_axes g) axis0 = snd (nth k r (0, 0, axis0)%Z)).
  { intros k Hk. rewrite Ag. exact (map_nth snd r (0, 0, axis0)%Z k). }
  assert (Lw : length (map fst r) = length (f_shape f)) by (rewrite map_length; exact Lr').
  split; [|split].
  - split; [exact Lw|]. split; [exact Sg|]. split; [|split; [|split; [|split; [exact Tg|exact Nm]]]].
    + intros idx Hi. rewrite Vg. pose proof (in_shape_length _ _ Hi) as Li. rewrite pad_index_shifted by lia. now rewrite Hi.
    + intros idx Hi Hout. rewrite Vg. pose proof (in_shape_length _ _ Hi) as Li. rewrite Sg in Li. unfold pad_shape in Li.
      rewrite map2_length, Lw in Li. destruct (in_shape (f_shape f) (pad_index idx (map fst r))) eqn:E; [|reflexivity].
      exfalso. apply (Hout _ E). symmetry. apply shifted_pad_index. lia.
    + intros k Hk. rewrite Wk, (Axk k Hk). apply (Hat k Hk).
  - intros k Hk. rewrite Wk. split; apply (Hat k Hk).
  - intros k Hk. rewrite Wk, (Axk k Hk). intro E. apply (Hat k Hk); rewrite E; reflexivity.
Qed.

(** * Padding to a size (C16) *)
Lemma autopad_list_total padsize sh axes : forall l, length l = length sh ->
  (forall a, In a axes -> (0 <= a < Z.of_nat (length sh))%Z) ->
  exists r, autopad_list padsize sh axes l = Ok r /\ length r = length sh /\
    forall k, (k < length sh)%nat ->
      nth k r (NInt 0, NInt 0) =
      if existsb (Z.eqb (Z.of_nat k)) axes
      then let d := (padsize (nth k sh 0) - nth k sh 0)%Z in (NInt (d / 2), NInt (d - d / 2))
      else nth k l (NInt 0, NInt 0).
Proof.
  induction axes as [|a axes IH]; intros l L Ha; cbn [autopad_list].
  - exists l. auto.
  - assert (Hak : (0 <= a < Z.of_nat (length sh))%Z) by (apply Ha; now left). rewrite <- (Z2Nat.id a) by lia. set (j := Z.to_nat a).
    rewrite (getidx_at sh j 0%Z) by (unfold j; lia). cbn [bind]. rewrite setidx_at by (unfold j; lia). cbn [bind].
    destruct (IH (upd l j (NInt ((padsize (nth j sh 0%Z) - nth j sh 0%Z) / 2),
                            NInt ((padsize (nth j sh 0%Z) - nth j sh 0%Z) - (padsize (nth j sh 0%Z) - nth j sh 0%Z) / 2))))
      as (r & Er & Lr & Hr).
    { now rewrite upd_length. }
    { intros; apply Ha; now right. }
    exists r. split; [exact Er|]. split; [exact Lr|]. intros k Hk. rewrite (Hr k Hk). cbn [existsb].
    destruct (existsb (Z.eqb (Z.of_nat k)) axes); [now rewrite orb_true_r|]. rewrite orb_false_r.
    destruct (Z.eqb_spec (Z.of_nat k) (Z.of_nat j)) as [E|E].
    + apply Nat2Z.inj in E. subst k. rewrite nth_upd_same by lia. reflexivity.
    + rewrite nth_upd_other by lia. reflexivity.
Qed.
Lemma autopad_total {V} spl (c : V) padsize f axes : reproduces_lines spl -> consistent f -> f_axes f <> [] ->
  Forall ascending_uniform (f_axes f) -> (forall n, (n <= padsize n)%Z) ->
  (forall l, axes = Some l -> forall a, In a l -> (0 <= a < Z.of_nat (length (f_shape f)))%Z) ->
  exists g w, field_fft_autopad spl c padsize f axes = Ok g /\ padded c f w g /\
    (forall k, (k < length (f_shape f))%nat ->
       let n := nth k (f_shape f) 0%Z in
       let requested := match axes with None => true | Some l => existsb (Z.eqb (Z.of_nat k)) l end in
       nth k (f_shape g) 0%Z = (if requested then padsize n else n) /\
       fst (nth k w (0, 0)%Z) = (if requested then (padsize n - n) / 2 else 0)%Z /\
       (requested = false \/ padsize n = n -> nth k (f_axes g) axis0 = nth k (f_axes f) axis0)).
Proof.
  intros Hspl Hf Hne Ha Hps Hax. pose proof (ascending_nonempty f Hf Ha) as Hn. pose proof (nonempty_dims _ Hn) as Hd.
  unfold field_fft_autopad. rewrite Hd, Nat2Z.id.
  set (ll := match axes with None => zlist (length (f_shape f)) | Some l => l end).
  assert (Hll : forall a, In a ll -> (0 <= a < Z.of_nat (length (f_shape f)))%Z).
  { unfold ll. destruct axes as [l|]; [now apply Hax|]. intros a H. apply in_map_iff in H as (k & <- & H). apply in_seq in H. lia. }
  assert (Hreq : forall k, (k < length (f_shape f))%nat ->
     existsb (Z.eqb (Z.of_nat k)) ll = match axes with None => true | Some l => existsb (Z.eqb (Z.of_nat k)) l end).
  { intros k Hk. unfold ll. destruct axes as [l|]; [reflexivity|]. apply existsb_exists. exists (Z.of_nat k).
    split; [|apply Z.eqb_refl]. apply in_map. apply in_seq. lia. }
  destruct (autopad_list_total padsize (f_shape f) ll (repeat (NInt 0, NInt 0) (length (f_shape f))) (repeat_length _ _) Hll)
    as (l & El & Ll & Hl). rewrite El. cbn [bind].
  assert (Hl' : forall k, (k < length (f_shape f))%nat -> exists p0 p1, nth k l (NInt 0, NInt 0) = (NInt p0, NInt p1) /\ (0 <= p0)%Z /\ (0 <= p1)%Z /\
     let n := nth k (f_shape f) 0%Z in
     p0 = (if existsb (Z.eqb (Z.of_nat k)) ll then (padsize n - n) / 2 else 0)%Z /\
     (p0 + p1 = (if existsb (Z.eqb (Z.of_nat k)) ll then (padsize n - n) else 0))%Z).
  { intros k Hk. rewrite (Hl k Hk). pose proof (Hps (nth k (f_shape f) 0%Z)). destruct (existsb _ ll); cbv zeta.
    - do 2 eexists. split; [reflexivity|]. lia.
    - exists 0%Z, 0%Z. rewrite nth_repeat. split; [reflexivity|]. lia. }
  destruct (pad_total spl c f (PadEach l) l Hspl Hf Hne Ha (pad_list_each _ _ Ll) Ll) as (g & w & Hg & Pg & Ask & Same).
  { apply Forall_nth. intros k d Hk. rewrite (nth_indep _ d (NInt 0, NInt 0)) by exact Hk.
    destruct (Hl' k ltac:(lia)) as (p0 & p1 & -> & P0 & P1 & _). split; assumption. }
  exists g, w. split; [exact Hg|]. split; [exact Pg|]. intros k Hk. cbv zeta. rewrite <- (Hreq k Hk).
  destruct (Hl' k Hk) as (p0 & p1 & Ep & P0 & P1 & Q0 & Q1). cbv zeta in Q0, Q1.
  destruct (Ask k Hk) as ([_ A0] & [_ A1]). rewrite Ep in A0, A1. cbn [fst snd] in A0, A1.
  destruct Pg as (Lw & Sg & _). split; [|split].
  - rewrite Sg. assert (G : forall sh w, (k < length sh)%nat -> length w = length sh ->
       nth k (map2 (fun n p => (fst p + n + snd p)%Z) sh w) 0%Z = (fst (nth k w (0, 0)%Z) + nth k sh 0 + snd (nth k w (0, 0)%Z))%Z).
    { clear. revert k. intros k sh; revert k. induction sh as [|n sh IH]; intros [|k] [|q w] Hk L; cbn in Hk, L; try lia; [reflexivity|].
      cbn [map2 nth]. apply IH; lia. }
    rewrite (G _ _ Hk Lw). revert Q0 Q1. destruct (existsb _ ll); intros; lia.
  - congruence.
  - intro H. apply (Same k Hk). destruct (nth k w (0, 0)%Z) as [w0 w1]. cbn [fst snd] in *.
    revert Q0 Q1 H. destruct (existsb _ ll); intros Q0 Q1 [H|H]; try discriminate; f_equal; lia.
Qed.
