(** Arithmetic of fields (C13). *)
From Coq Require Import Lia.
From Verif Require Import PyBase PyBaseFacts NumpyModel NumpyFacts AxisModel AxisSpec AxisFacts
  NdModel NdFacts FieldModel FieldSpec FieldInvFacts FieldNodedFacts FieldRearrFacts FieldReduceFacts.

Definition fits_rev (s1 s2 : list Z) : Prop :=
  forall j a b, nth_error s1 j = Some a -> nth_error s2 j = Some b -> a = b \/ a = 1%Z \/ b = 1%Z.
Lemma fits_rev_tail a b s1 s2 : fits_rev (a :: s1) (b :: s2) <-> (a = b \/ a = 1%Z \/ b = 1%Z) /\ fits_rev s1 s2.
Proof.
  split.
  - intro H. split; [exact (H 0%nat a b eq_refl eq_refl)|]. intros j x y. exact (H (S j) x y).
  - intros [H0 H] [|j] x y Hx Hy; [injection Hx as <-; injection Hy as <-; exact H0|exact (H j x y Hx Hy)].
Qed.
Lemma bshape_rev_fits s1 : forall s2, fits_rev s1 s2 ->
  exists s, bshape_rev s1 s2 = Ok s /\ forall j, nth_error s j = joint_len (nth_error s1 j) (nth_error s2 j).
Proof.
  induction s1 as [|a s1 IH]; intros [|b s2] H; cbn [bshape_rev].
  - exists []. split; [reflexivity|]. intros [|j]; reflexivity.
  - eexists. split; [reflexivity|]. intros [|j]; reflexivity.
  - eexists. split; [reflexivity|]. intro j. cbn [joint_len]. destruct (nth_error (a :: s1) j) eqn:E; destruct j; cbn in *; rewrite ?E; reflexivity.
  - apply fits_rev_tail in H as [H0 H]. destruct (IH s2 H) as (s & E & Hs). rewrite E.
    assert (G : (if (a =? b)%Z then Ok a else if (a =? 1)%Z then Ok b else if (b =? 1)%Z then Ok a else Err ValueError)
                = Ok (if (a =? 1)%Z then b else a)).
    { destruct (Z.eqb_spec a b) as [->|N]; [destruct (b =? 1)%Z; reflexivity|]. destruct (Z.eqb_spec a 1); [reflexivity|].
      destruct (Z.eqb_spec b 1); [reflexivity|]. exfalso. lia. }
    rewrite G. cbn [bind]. eexists. split; [reflexivity|]. intros [|j]; [reflexivity|]. exact (Hs j).
Qed.
Lemma bshape_rev_unfit s1 : forall s2 s, bshape_rev s1 s2 = Ok s -> fits_rev s1 s2.
Proof.
  induction s1 as [|a s1 IH]; intros [|b s2] s H j x y Hx Hy; try (destruct j; discriminate).
  cbn [bshape_rev] in H. apply bind_ok in H as (n & Hn & H). apply bind_ok in H as (r & Hr & _).
  destruct j as [|j]; [|exact (IH s2 r Hr j x y Hx Hy)]. injection Hx as <-. injection Hy as <-.
  destruct (Z.eqb_spec a b); [auto|]. destruct (Z.eqb_spec a 1); [auto|]. destruct (Z.eqb_spec b 1); [auto|discriminate].
Qed.
Lemma bshape_fits s1 s2 : broadcastable s1 s2 -> exists s, bshape s1 s2 = Ok s /\
  forall j, from_end s j = joint_len (from_end s1 j) (from_end s2 j).
Proof.
  intro H. destruct (bshape_rev_fits (rev s1) (rev s2) H) as (s & E & Hs). exists (rev s). unfold bshape. rewrite E.
  split; [reflexivity|]. intro j. unfold from_end. rewrite rev_involutive. apply Hs.
Qed.
Lemma bshape_ok_fits s1 s2 s : bshape s1 s2 = Ok s -> broadcastable s1 s2.
Proof.
  unfold bshape. destruct (bshape_rev (rev s1) (rev s2)) as [r|] eqn:E; [|discriminate]. intros _.
  apply bshape_rev_unfit in E. exact E.
Qed.
Lemma bidx_operand sh idx : (length sh <= length idx)%nat -> operand_index sh idx (bidx sh idx).
Proof.
  intro L. unfold operand_index, from_end, bidx. rewrite rev_involutive, rev_length.
  assert (G : forall s i, (length s <= length i)%nat -> length (bidx_rev s i) = length s /\
    forall j n k, nth_error s j = Some n -> nth_error i j = Some k -> nth_error (bidx_rev s i) j = Some (if (n =? 1)%Z then 0%Z else k)).
  { induction s as [|n s IH]; intros [|k i] H; cbn [bidx_rev length] in *; try (split; [reflexivity|]; intros [|j] ? ? ?; discriminate); [lia|].
    destruct (IH i ltac:(lia)) as [I1 I2]. split; [now rewrite I1|]. intros [|j] n' k' Hn Hk; [|now apply I2].
    injection Hn as <-. injection Hk as <-. reflexivity. }
  destruct (G (rev sh) (rev idx)) as [G1 G2]; [rewrite !rev_length; exact L|]. rewrite rev_length in G1. auto.
Qed.

(** * Combining entries *)
Definition axes_of (es : list entry) (axes : list axis) : Prop := map e_axis es = map Some axes.
Lemma combine_entry_fits x1 s1 t1 x2 s2 t2 : ax_len x1 = ax_len x2 \/ ax_len x1 = 1%Z \/ ax_len x2 = 1%Z ->
  exists e, combine_entry (Some x1, s1, t1) (Some x2, s2, t2) = Ok e /\ e_axis e = joint_axis (Some x1) (Some x2).
Proof.
  intro H. unfold combine_entry, joint_axis, e_axis. destruct (Z.eqb_spec (ax_len x1) (ax_len x2)) as [E|N].
  - rewrite E. destruct t2; (eexists; split; [reflexivity|]; cbn [fst snd]); destruct (ax_len x2 =? 1)%Z; reflexivity.
  - destruct (Z.eqb_spec (ax_len x1) 1) as [E1|N1].
    + eexists. split; [reflexivity|]. cbn [fst andb]. destruct (Z.eqb_spec (ax_len x2) 1); [congruence|reflexivity].
    + destruct (Z.eqb_spec (ax_len x2) 1); [eexists; split; reflexivity|]. exfalso. tauto.
Qed.
Lemma combine_rev_fits l1 : forall l2 a1 a2, axes_of l1 a1 -> axes_of l2 a2 -> fits_rev (map ax_len a1) (map ax_len a2) ->
  exists r, combine_rev l1 l2 = Ok r /\ forall j, nth_error (map e_axis r) j = option_map Some (joint_axis (nth_error a1 j) (nth_error a2 j)).
Proof.
  unfold axes_of. induction l1 as [|e1 l1 IH]; intros [|e2 l2] a1 a2 H1 H2 H; cbn [combine_rev].
  - destruct a1, a2; try discriminate. eexists. split; [reflexivity|]. intros [|j]; reflexivity.
  - destruct a1; [|discriminate]. eexists. split; [reflexivity|]. intro j. rewrite H2, nth_error_map. assert (nth_error (@nil axis) j = None) as -> by (destruct j; reflexivity). reflexivity.
  - destruct a2; [|discriminate]. eexists. split; [reflexivity|]. intro j. rewrite H1, nth_error_map.
    assert (nth_error (@nil axis) j = None) as -> by (destruct j; reflexivity). destruct (nth_error a1 j); reflexivity.
  - destruct a1 as [|x1 a1], a2 as [|x2 a2]; try discriminate. cbn [map] in *.
    destruct e1 as [[o1 s1] t1], e2 as [[o2 s2] t2]. 
    injection H1 as K1 H1. injection H2 as K2 H2. unfold e_axis in K1, K2. cbn [fst] in K1, K2. subst o1 o2. apply fits_rev_tail in H as [H0 H].
    destruct (combine_entry_fits x1 s1 t1 x2 s2 t2 H0) as (e & -> & He). destruct (IH l2 a1 a2 H1 H2 H) as (r & -> & Hr).
    cbn [bind]. eexists. split; [reflexivity|]. intros [|j]; [|exact (Hr j)]. cbn [map nth_error]. now rewrite He.
Qed.
Lemma combine_rev_unfit l1 : forall l2 a1 a2, axes_of l1 a1 -> axes_of l2 a2 ->
  ~ fits_rev (map ax_len a1) (map ax_len a2) -> combine_rev l1 l2 = Err ValueError.
Proof.
  unfold axes_of. induction l1 as [|e1 l1 IH]; intros [|e2 l2] a1 a2 H1 H2 H; cbn [combine_rev].
  - destruct a1; [|discriminate]. exfalso. apply H. intros [|j] a b Ha; discriminate.
  - destruct a1; [|discriminate]. exfalso. apply H. intros [|j] a b Ha; discriminate.
  - destruct a2; [|discriminate]. exfalso. apply H. intros [|j] a b Ha Hb; discriminate.
  - destruct a1 as [|x1 a1], a2 as [|x2 a2]; try discriminate. cbn [map] in *.
    destruct e1 as [[o1 s1] t1], e2 as [[o2 s2] t2]. 
    injection H1 as K1 H1. injection H2 as K2 H2. unfold e_axis in K1, K2. cbn [fst] in K1, K2. subst o1 o2. rewrite fits_rev_tail in H.
    destruct (Z.eqb_spec (ax_len x1) (ax_len x2)) as [E|N]; [|destruct (Z.eqb_spec (ax_len x1) 1) as [E|N1];
      [|destruct (Z.eqb_spec (ax_len x2) 1) as [E|N2]]].
    1-3: (destruct (combine_entry_fits x1 s1 t1 x2 s2 t2 ltac:(auto)) as (e & -> & _); cbn [bind];
          rewrite (IH l2 a1 a2 H1 H2); [reflexivity|]; intro F; apply H; auto).
    unfold combine_entry. destruct (Z.eqb_spec (ax_len x1) (ax_len x2)); [contradiction|].
    destruct (Z.eqb_spec (ax_len x1) 1); [contradiction|]. destruct (Z.eqb_spec (ax_len x2) 1); [contradiction|]. reflexivity.
Qed.
Lemma zip3_total a : forall s t, length s = length a -> length t = length a -> exists es, zip3 a s t = Ok es /\ axes_of es a.
Proof.
  induction a as [|x a IH]; intros [|y s] [|z t] H1 H2; try discriminate; [exists []; split; reflexivity|].
  destruct (IH s t ltac:(cbn in *; lia) ltac:(cbn in *; lia)) as (es & E & H). cbn [zip3]. rewrite E. cbn [bind].
  eexists. split; [reflexivity|]. unfold axes_of in *. cbn [map]. now rewrite H.
Qed.
Lemma layer_entries_total {V} (f : field V) : consistent f -> exists es, layer_entries (f_top f) = Ok es /\ axes_of es (f_axes f).
Proof. intros (La & _ & L1 & L2). apply zip3_total; unfold f_axes, f_ats, f_tao in *; congruence. Qed.
Lemma axes_of_rev es axes : axes_of es axes -> axes_of (rev es) (rev axes).
Proof. unfold axes_of. intro H. now rewrite !map_rev, H. Qed.
Lemma from_end_map {A B} (f : A -> B) l j : from_end (map f l) j = option_map f (from_end l j).
Proof. unfold from_end. now rewrite <- map_rev, nth_error_map. Qed.
Lemma from_end_ext {A} (l m : list A) : (forall j, from_end l j = from_end m j) -> l = m.
Proof.
  intro H. rewrite <- (rev_involutive l), <- (rev_involutive m). f_equal. now apply list_nth_error_ext.
Qed.
Lemma joint_axis_len x y : (match x, y with Some a, Some b => ax_len a = ax_len b \/ ax_len a = 1%Z \/ ax_len b = 1%Z | _, _ => True end) ->
  option_map ax_len (joint_axis x y) = joint_len (option_map ax_len x) (option_map ax_len y).
Proof.
  destruct x as [x|], y as [y|]; try reflexivity. intro H. cbn. f_equal.
  destruct (Z.eqb_spec (ax_len x) 1), (Z.eqb_spec (ax_len y) 1); cbn [andb negb]; try reflexivity. congruence.
Qed.
Lemma all_some {A} (l : list (option A)) : (forall j o, nth_error l j = Some o -> exists x, o = Some x) -> exists m, l = map Some m.
Proof.
  induction l as [|o l IH]; intro H; [exists []; reflexivity|]. destruct (H 0%nat o eq_refl) as [x ->].
  destruct IH as [m ->]; [intros j o Hj; exact (H (S j) o Hj)|]. exists (x :: m). reflexivity.
Qed.

(** * field op field *)
Lemma op2_broadcasts {A B C} (op : A -> B -> C) (f : field A) (g : field B) :
  consistent f -> consistent g -> f_inner f = [] -> f_inner g = [] ->
  (length (f_shape f) <= 3)%nat -> (length (f_shape g) <= 3)%nat -> broadcastable (f_shape f) (f_shape g) ->
  exists h, field_op2 op f g = Ok h /\
    (forall j, from_end (f_shape h) j = joint_len (from_end (f_shape f) j) (from_end (f_shape g) j)) /\
    (forall j, from_end (f_axes h) j = joint_axis (from_end (f_axes f) j) (from_end (f_axes g) j)) /\
    map ax_len (f_axes h) = f_shape h /\
    (forall idx, in_shape (f_shape h) idx = true ->
       exists i1 i2, operand_index (f_shape f) idx i1 /\ operand_index (f_shape g) idx i2 /\
         a_at (f_data h) idx = op (a_at (f_data f) i1) (a_at (f_data g) i2)) /\
    l_name (f_top h) = l_name (f_top f) /\ l_unit (f_top h) = l_unit (f_top f).
Proof.
  intros Hf Hg If Ig F3 G3 Hb. pose proof (consistent_map f Hf) as Mf. pose proof (consistent_map g Hg) as Mg.
  destruct (layer_entries_total f Hf) as (e1 & E1 & A1). destruct (layer_entries_total g Hg) as (e2 & E2 & A2).
  assert (Hfit : fits_rev (map ax_len (rev (f_axes f))) (map ax_len (rev (f_axes g)))).
  { rewrite !map_rev, Mf, Mg. exact Hb. }
  destruct (combine_rev_fits _ _ _ _ (axes_of_rev _ _ A1) (axes_of_rev _ _ A2) Hfit) as (r & Er & Hr).
  destruct (all_some (map e_axis (rev r))) as (axes & Ha).
  { intros j o Hj. assert (Hi : In o (map e_axis (rev r))) by (eapply nth_error_In, Hj). rewrite map_rev in Hi. apply in_rev in Hi.
    apply In_nth_error in Hi as (k & Hk). rewrite Hr in Hk. destruct (joint_axis _ _); [|discriminate]. injection Hk as <-. eauto. }
  assert (Hax : forall j, from_end axes j = joint_axis (from_end (f_axes f) j) (from_end (f_axes g) j)).
  { intro j. assert (from_end (map Some axes) j = option_map Some (joint_axis (from_end (f_axes f) j) (from_end (f_axes g) j))).
    { rewrite <- Ha. unfold from_end. rewrite <- map_rev, rev_involutive. apply Hr. }
    rewrite from_end_map in H. destruct (from_end axes j), (joint_axis _ _); cbn in H; congruence. }
  destruct (bshape_fits _ _ Hb) as (sh & Es & Hs).
  assert (Hlen : map ax_len axes = sh).
  { apply from_end_ext. intro j. rewrite from_end_map, Hax, Hs, <- Mf, <- Mg, !from_end_map. apply joint_axis_len.
    specialize (Hb j). rewrite <- Mf, <- Mg, !from_end_map in Hb.
    destruct (from_end (f_axes f) j), (from_end (f_axes g) j); try exact I. exact (Hb _ _ eq_refl eq_refl). }
  assert (L3 : (length axes <= 3)%nat).
  { rewrite <- (map_length ax_len), Hlen. destruct (Nat.le_gt_cases (length sh) 3); [assumption|].
    destruct (from_end sh 3) eqn:E; [|unfold from_end in E; apply nth_error_None in E; rewrite rev_length in E; lia].
    rewrite Hs in E. unfold from_end in E. rewrite !(proj2 (nth_error_None _ _)) in E by (rewrite rev_length; lia). discriminate. }
  unfold field_op2, wrap_op2, op2_entries. rewrite E1, E2. cbn [bind]. unfold combine_entries. rewrite Er. cbn [rmap bind].
  rewrite If, Ig. cbn [length Nat.add data_op2]. unfold np_map2. change (a_shape (f_data f)) with (f_shape f).
  change (a_shape (f_data g)) with (f_shape g). rewrite Es. cbn [bind fst snd].
  change (map (fun e => fst (fst e)) (rev r)) with (map e_axis (rev r)). rewrite Ha.
  rewrite field_of_total; [|exact Hlen|exact L3].
  eexists. split; [reflexivity|]. unfold f_shape at 1 5 6, f_axes at 1 4. cbn [f_data f_top l_axes a_shape l_name l_unit].
  split; [exact Hs|]. split; [exact Hax|]. split; [exact Hlen|]. split; [|split; reflexivity].
  intros idx Hi. unfold f_shape at 1 in Hi. cbn [f_data a_shape] in Hi. apply in_shape_length in Hi.
  assert (Lge : forall s s', (forall j, from_end sh j = joint_len (from_end s j) (from_end s' j)) ->
            (length s <= length sh)%nat /\ (length s' <= length sh)%nat).
  { intros s s' H. split.
    - destruct (Nat.le_gt_cases (length s) (length sh)) as [|L]; [assumption|].
      specialize (H (length sh)). unfold from_end in H at 1. rewrite (proj2 (nth_error_None _ _)) in H by (rewrite rev_length; lia).
      destruct (from_end s (length sh)) eqn:E; [destruct (from_end s' _); discriminate|].
      unfold from_end in E. apply nth_error_None in E. rewrite rev_length in E. lia.
    - destruct (Nat.le_gt_cases (length s') (length sh)) as [|L]; [assumption|].
      specialize (H (length sh)). unfold from_end in H at 1. rewrite (proj2 (nth_error_None _ _)) in H by (rewrite rev_length; lia).
      destruct (from_end s' (length sh)) eqn:E; [destruct (from_end s _); discriminate|].
      unfold from_end in E. apply nth_error_None in E. rewrite rev_length in E. lia. }
  destruct (Lge _ _ Hs) as [L1 L2].
  exists (bidx (f_shape f) idx), (bidx (f_shape g) idx). split; [apply bidx_operand; lia|]. split; [apply bidx_operand; lia|]. reflexivity.
Qed.
Lemma op2_rejects {A B C} (op : A -> B -> C) (f : field A) (g : field B) : consistent f -> consistent g ->
  ~ broadcastable (f_shape f) (f_shape g) -> field_op2 op f g = Err ValueError.
Proof.
  intros Hf Hg Hb. pose proof (consistent_map f Hf) as Mf. pose proof (consistent_map g Hg) as Mg.
  destruct (layer_entries_total f Hf) as (e1 & E1 & A1). destruct (layer_entries_total g Hg) as (e2 & E2 & A2).
  unfold field_op2, wrap_op2, op2_entries. rewrite E1, E2. cbn [bind]. unfold combine_entries.
  rewrite (combine_rev_unfit _ _ _ _ (axes_of_rev _ _ A1) (axes_of_rev _ _ A2)); [reflexivity|].
  rewrite !map_rev, Mf, Mg. exact Hb.
Qed.
Lemma joint_len_comm s1 s2 : broadcastable s1 s2 -> forall j,
  joint_len (from_end s1 j) (from_end s2 j) = joint_len (from_end s2 j) (from_end s1 j).
Proof.
  intros H j. specialize (H j). destruct (from_end s1 j) as [a|], (from_end s2 j) as [b|]; try reflexivity.
  specialize (H a b eq_refl eq_refl). cbn. f_equal. destruct (Z.eqb_spec a 1), (Z.eqb_spec b 1); lia.
Qed.
Lemma broadcastable_sym s1 s2 : broadcastable s1 s2 -> broadcastable s2 s1.
Proof. intros H j a b Ha Hb. specialize (H j b a Hb Ha). lia. Qed.
Lemma op2_swapped {A B C D} (op : A -> B -> C) (op' : B -> A -> D) (f : field A) (g : field B) h h' :
  consistent f -> consistent g -> f_inner f = [] -> f_inner g = [] ->
  (length (f_shape f) <= 3)%nat -> (length (f_shape g) <= 3)%nat ->
  field_op2 op f g = Ok h -> field_op2 op' g f = Ok h' -> f_shape h = f_shape h'.
Proof.
  intros Hf Hg If Ig F3 G3 H H'.
  assert (Hb : broadcastable (f_shape f) (f_shape g)).
  { unfold field_op2, wrap_op2 in H. apply bind_ok in H as (es & _ & H). apply bind_ok in H as (c & Hc & _).
    rewrite If, Ig in Hc. cbn [length Nat.add data_op2] in Hc. unfold np_map2 in Hc. apply bind_ok in Hc as (s & Hs & _).
    now apply bshape_ok_fits in Hs. }
  destruct (op2_broadcasts op f g Hf Hg If Ig F3 G3 Hb) as (k & E & S & _). rewrite H in E. injection E as <-.
  destruct (op2_broadcasts op' g f Hg Hf Ig If G3 F3 (broadcastable_sym _ _ Hb)) as (k & E & S' & _). rewrite H' in E. injection E as <-.
  apply from_end_ext. intro j. rewrite S, S'. now apply joint_len_comm.
Qed.
Lemma broadcastable_refl s : broadcastable s s.
Proof. intros j a b Ha Hb. left. congruence. Qed.
Lemma op2_equal_shapes {A B C} (op : A -> B -> C) (f : field A) (g : field B) :
  consistent f -> consistent g -> f_inner f = [] -> f_inner g = [] -> (length (f_shape f) <= 3)%nat -> f_shape f = f_shape g ->
  exists h, field_op2 op f g = Ok h /\ f_shape h = f_shape f /\ f_axes h = f_axes f /\
    forall idx, in_shape (f_shape f) idx = true -> a_at (f_data h) idx = op (a_at (f_data f) idx) (a_at (f_data g) idx).
Proof.
  intros Hf Hg If Ig F3 E. pose proof (consistent_map f Hf) as Mf. pose proof (consistent_map g Hg) as Mg.
  destruct (op2_broadcasts op f g Hf Hg If Ig F3) as (h & Eh & S & A' & _ & V & _); [now rewrite <- E|rewrite <- E; apply broadcastable_refl|].
  exists h. split; [exact Eh|].
  assert (Sh : f_shape h = f_shape f).
  { apply from_end_ext. intro j. rewrite S, <- E. destruct (from_end (f_shape f) j) as [a|]; [|reflexivity]. cbn. f_equal.
    destruct (Z.eqb_spec a 1); congruence. }
  split; [exact Sh|]. split.
  - apply from_end_ext. intro j. rewrite A'.
    assert (El : option_map ax_len (from_end (f_axes f) j) = option_map ax_len (from_end (f_axes g) j))
      by (rewrite <- !from_end_map, Mf, Mg, E; reflexivity).
    destruct (from_end (f_axes f) j) as [x|], (from_end (f_axes g) j) as [y|]; try discriminate; [|reflexivity].
    cbn in *. injection El as El. rewrite El. destruct (ax_len y =? 1)%Z; reflexivity.
  - intros idx Hi. rewrite Sh in V. destruct (V idx Hi) as (i1 & i2 & O1 & O2 & ->).
    assert (G : forall i, operand_index (f_shape f) idx i -> i = idx).
    { intros i [L O]. pose proof (in_shape_length _ _ Hi) as Li. apply from_end_ext. intro j.
      destruct (from_end idx j) as [k|] eqn:Ek.
      - destruct (from_end (f_shape f) j) as [n|] eqn:En.
        + rewrite (O j n k En Ek). destruct (Z.eqb_spec n 1) as [->|]; [|reflexivity].
          assert (Hk : (0 <= k < 1)%Z); [|f_equal; lia].
          apply in_shape_spec in Hi. clear - Hi Ek En. unfold from_end in *.
          assert (G : Forall2 (fun n i => 0 <= i < n)%Z (rev (f_shape f)) (rev idx)).
          { clear Ek En. induction Hi; [constructor|]. cbn [rev]. apply Forall2_app; [assumption|repeat constructor; lia]. }
          revert j Ek En. induction G as [|a b l m Hab G IH]; intros [|j] Ek En; try discriminate; [|exact (IH j Ek En)].
          cbn in Ek, En. injection Ek as ->. injection En as ->. exact Hab.
        + unfold from_end in *. apply nth_error_None in En. apply nth_error_lt in Ek. rewrite rev_length in *. lia.
      - unfold from_end in *. apply nth_error_None in Ek. apply nth_error_None. rewrite rev_length in *. lia. }
    rewrite (G i1 O1). rewrite <- E in O2. now rewrite (G i2 O2).
Qed.

(** * field op array *)
Lemma combine_plain l : forall m, (forall e, In e l -> e_axis e <> None) -> (forall e, In e m -> e = (None, None, None)) ->
  (length m <= length l)%nat -> combine_rev l m = Ok l.
Proof.
  induction l as [|e l IH]; intros [|e' m] Hl H L; cbn [combine_rev length] in *; try reflexivity; [lia|].
  assert (e' = (None, None, None)) as -> by (apply H; now left). destruct e as [[a s] t].
  assert (combine_entry (a, s, t) (None, None, None) = Ok (a, s, t)) as ->.
  { destruct a; [reflexivity|]. exfalso. apply (Hl (None, s, t)); [now left|reflexivity]. }
  cbn [bind]. rewrite IH; [reflexivity| |intros; apply H; now right|lia]. intros e He. apply Hl. now right.
Qed.
Lemma op_array_total {A B C} (op : A -> B -> C) (f : field A) (b : nda B) :
  consistent f -> f_inner f = [] -> (length (f_shape f) <= 3)%nat -> bshape (f_shape f) (a_shape b) = Ok (f_shape f) ->
  exists h, field_op_array op f b = Ok h /\ f_shape h = f_shape f /\ f_axes h = f_axes f /\
    f_ats h = f_ats f /\ f_tao h = f_tao f /\ f_inner h = [] /\
    l_name (f_top h) = l_name (f_top f) /\ l_unit (f_top h) = l_unit (f_top f) /\
    np_map2 op (f_data f) b = Ok (f_data h).
Proof.
  intros Hf If F3 Hb. pose proof (consistent_map f Hf) as Mf. destruct (layer_entries_total f Hf) as (e1 & E1 & A1).
  pose proof E1 as E1'. apply zip3_ok in E1' as (_ & S1 & T1).
  pose proof (bshape_fits _ _ (bshape_ok_fits _ _ _ Hb)) as (s & Es & Hs). rewrite Hb in Es. injection Es as <-.
  assert (Lb : (length (a_shape b) <= length (f_shape f))%nat).
  { destruct (Nat.le_gt_cases (length (a_shape b)) (length (f_shape f))) as [|L]; [assumption|]. specialize (Hs (length (f_shape f))).
    unfold from_end in Hs at 1 2. rewrite !(proj2 (nth_error_None (rev (f_shape f)) _)) in Hs by (rewrite rev_length; lia).
    cbn in Hs. symmetry in Hs. unfold from_end in Hs. apply nth_error_None in Hs. rewrite rev_length in Hs. lia. }
  assert (Le : length e1 = length (f_shape f)).
  { pose proof (f_equal (@length _) A1) as L. rewrite !map_length in L. rewrite L. rewrite <- Mf. now rewrite map_length. }
  unfold field_op_array, wrap_op2, op2_entries. rewrite E1. cbn [bind]. unfold combine_entries, plain_entries.
  rewrite combine_plain.
  - cbn [rmap bind]. rewrite rev_involutive, If. cbn [length Nat.add data_op2].
    assert (exists c, np_map2 op (f_data f) b = Ok c /\ a_shape c = f_shape f) as (c & Ec & Sc).
    { unfold np_map2. change (a_shape (f_data f)) with (f_shape f). rewrite Hb. cbn [bind]. eexists. split; reflexivity. }
    rewrite Ec. cbn [bind fst snd]. change (map (fun e => fst (fst e)) e1) with (map e_axis e1). rewrite A1, S1, T1.
    rewrite field_of_total; [|now rewrite Mf, Sc|destruct Hf as (-> & _); exact F3].
    eexists. split; [reflexivity|]. repeat (split; [reflexivity || exact Sc|]). reflexivity.
  - intros e He. apply in_rev in He. intro N.
    assert (In (e_axis e) (map Some (f_axes f))) by (rewrite <- A1; now apply in_map). rewrite N in H.
    apply in_map_iff in H as (x & Hx & _). discriminate.
  - intros e He. rewrite <- in_rev in He. now apply repeat_spec in He.
  - rewrite !rev_length, repeat_length. lia.
Qed.
Lemma op_array_rejects {A B C} (op : A -> B -> C) (f : field A) (b : nda B) h : consistent f -> f_inner f = [] ->
  field_op_array op f b = Ok h -> bshape (f_shape f) (a_shape b) = Ok (f_shape f).
Proof.
  intros Hf If H. pose proof (consistent_map f Hf) as Mf. destruct (layer_entries_total f Hf) as (e1 & E1 & A1).
  unfold field_op_array, wrap_op2, op2_entries in H. rewrite E1 in H. cbn [bind] in H.
  apply bind_ok in H as (es & Hes & H). apply bind_ok in H as (c & Hc & H). rewrite If in Hc. cbn [length Nat.add data_op2] in Hc.
  apply field_of_ok in H as (_ & _ & Hax & Hlen & _).
  unfold np_map2 in Hc. apply bind_ok in Hc as (s & Hs & Hc). injection Hc as <-. cbn [a_shape] in Hlen.
  change (a_shape (f_data f)) with (f_shape f) in Hs. rewrite Hs. f_equal.
  unfold combine_entries in Hes. destruct (combine_rev (rev e1) (rev (plain_entries _))) as [r|] eqn:Er; [|discriminate].
  injection Hes as <-. change (map (fun e => fst (fst e)) (rev r)) with (map e_axis (rev r)) in Hax.
  assert (Le : length e1 = length (f_shape f)).
  { pose proof (f_equal (@length _) A1) as L. rewrite !map_length in L. rewrite L. rewrite <- Mf. now rewrite map_length. }
  assert (Hne : forall e, In e (rev e1) -> e_axis e <> None).
  { intros e He. rewrite <- in_rev in He. intro N.
    assert (In (e_axis e) (map Some (f_axes f))) by (rewrite <- A1; now apply in_map). rewrite N in H.
    apply in_map_iff in H as (x & Hx & _). discriminate. }
  destruct (Nat.le_gt_cases (length (a_shape b)) (length (f_shape f))) as [L|L].
  - rewrite combine_plain in Er; [|exact Hne|intros e He; rewrite <- in_rev in He; now apply repeat_spec in He|
      unfold plain_entries; rewrite !rev_length, repeat_length; lia].
    injection Er as <-. rewrite rev_involutive in Hax. rewrite A1 in Hax.
    assert (Hinj : forall l m : list axis, map Some l = map Some m -> l = m).
    { induction l as [|x l IH]; intros [|y m] E; try discriminate; [reflexivity|]. injection E as -> E. f_equal. now apply IH. }
    apply Hinj in Hax. rewrite <- Hax, Mf in Hlen. congruence.
  - exfalso. assert (Hn : exists e, In e r /\ e_axis e = None).
    { clear - Er L Le Hne. assert (L' : (length (rev e1) < length (rev (plain_entries (length (a_shape b)))))%nat)
        by (unfold plain_entries; rewrite !rev_length, repeat_length; lia).
      assert (Hp : forall e, In e (rev (plain_entries (length (a_shape b)))) -> e = (None, None, None))
        by (intros e He; rewrite <- in_rev in He; now apply repeat_spec in He).
      revert L' Hp Er. generalize (rev (plain_entries (length (a_shape b)))) as m. revert r Hne. generalize (rev e1) as l. clear.
      induction l as [|e l IH]; intros r Hne [|e' m] L Hp Er; cbn [combine_rev length] in *; try lia.
      - injection Er as <-. exists e'. split; [now left|]. rewrite (Hp e') by (now left). reflexivity.
      - apply bind_ok in Er as (e0 & _ & Er). apply bind_ok in Er as (r' & Hr & Er). injection Er as <-.
        destruct (IH r') with (m := m) as (e1 & He & N); auto; [intros x Hx; apply Hne; now right|lia|intros x Hx; apply Hp; now right|].
        exists e1. split; [now right|exact N]. }
    destruct Hn as (e & He & N). assert (In None (map e_axis (rev r))) by (rewrite <- N; apply in_map; now rewrite <- in_rev).
    rewrite Hax in H. apply in_map_iff in H as (x & Hx & _). discriminate.
Qed.
Lemma op_array_iff {A B C} (op : A -> B -> C) (f : field A) (b : nda B) :
  consistent f -> f_inner f = [] -> (length (f_shape f) <= 3)%nat ->
  ((exists h, field_op_array op f b = Ok h) <-> bshape (f_shape f) (a_shape b) = Ok (f_shape f)) /\
  (forall h, field_op_array op f b = Ok h ->
     f_shape h = f_shape f /\ f_axes h = f_axes f /\ f_ats h = f_ats f /\ f_tao h = f_tao f /\
     l_name (f_top h) = l_name (f_top f) /\ l_unit (f_top h) = l_unit (f_top f) /\
     np_map2 op (f_data f) b = Ok (f_data h)).
Proof.
  intros Hf If F3. split; [split|].
  - intros [h H]. exact (op_array_rejects op f b h Hf If H).
  - intro H. destruct (op_array_total op f b Hf If F3 H) as (h & E & _). eauto.
  - intros h H. pose proof (op_array_rejects op f b h Hf If H) as Hb.
    destruct (op_array_total op f b Hf If F3 Hb) as (k & E & S). rewrite H in E. injection E as <-. tauto.
Qed.
