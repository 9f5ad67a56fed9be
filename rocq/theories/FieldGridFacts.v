(** Coarsening of fields (C08, C17). *)
From Coq Require Import Lia Lqa Permutation Setoid.
From Verif Require Import PyBase PyBaseFacts NumpyModel NumpyFacts QSum AxisModel AxisSpec AxisFacts
  NdModel NdFacts FieldModel FieldSpec FieldInvFacts FieldNodedFacts FieldRearrFacts FieldReduceFacts FieldOpFacts FieldIntFacts.

(** * Means over blocks *)
Lemma map_seq_shift {A} (f : nat -> A) m n : map f (seq m n) = map (fun i => f (m + i)%nat) (seq 0 n).
Proof.
  revert m. induction n as [|n IH]; intro m; [reflexivity|]. cbn [seq map]. rewrite Nat.add_0_r. f_equal.
  rewrite (IH (S m)), <- seq_shift, map_map. apply map_ext. intro i. f_equal. lia.
Qed.
Lemma seq_double {A} (f : nat -> A) n : map f (seq 0 (2 * n)) = map f (seq 0 n) ++ map (fun i => f (n + i)%nat) (seq 0 n).
Proof. replace (2 * n)%nat with (n + n)%nat by lia. rewrite seq_app, map_app. f_equal. apply map_seq_shift. Qed.

Lemma total_double bs : forall k b (v : list Z -> Q) idx, length idx = length bs -> (k < length bs)%nat ->
  (0 <= nth k bs 0)%Z -> b = (2 * nth k bs 0)%Z ->
  total (upd bs k b) (fun o => v (map2 Z.add (map2 Z.mul idx (upd bs k b)) o))
  == total bs (fun o => v (map2 Z.add (map2 Z.mul (upd idx k (2 * nth k idx 0)%Z) bs) o))
   + total bs (fun o => v (map2 Z.add (map2 Z.mul (upd idx k (1 + 2 * nth k idx 0)%Z) bs) o)).
Proof.
  induction bs as [|c bs IH]; intros k b v idx L Hk Hc Hb; [cbn in Hk; lia|].
  destruct idx as [|i idx]; [discriminate|]. destruct k as [|k]; cbn [nth] in *.
  - subst b. cbn [upd map2 total]. replace (Z.to_nat (2 * c)) with (2 * Z.to_nat c)%nat by lia.
    rewrite seq_double, qsum_app. apply Qplus_comp; apply qsum_map_ext; intros j _; apply total_ext; intro o.
    + replace (i * (2 * c) + Z.of_nat j)%Z with (2 * i * c + Z.of_nat j)%Z by lia. reflexivity.
    + replace (i * (2 * c) + Z.of_nat (Z.to_nat c + j))%Z with ((1 + 2 * i) * c + Z.of_nat j)%Z by lia. reflexivity.
  - cbn [upd map2 total nth]. rewrite <- qsum_map_plus. apply qsum_map_ext. intros j _.
    refine (IH k b (fun t => v ((i * c + Z.of_nat j)%Z :: t)) idx _ _ Hc Hb); cbn in L, Hk; lia.
Qed.
Lemma prod_upd bs : forall k b, (k < length bs)%nat -> b = (2 * nth k bs 0)%Z ->
  fold_right Z.mul 1%Z (upd bs k b) = (2 * fold_right Z.mul 1 bs)%Z.
Proof.
  induction bs as [|c bs IH]; intros k b Hk Hb; [cbn in Hk; lia|]. destruct k as [|k]; cbn [nth upd fold_right] in *; [subst b; ring|].
  rewrite (IH k b) by (auto; cbn in Hk; lia). ring.
Qed.
Lemma prod_pos bs : Forall (fun b => 0 < b)%Z bs -> (0 < fold_right Z.mul 1 bs)%Z.
Proof. induction 1; cbn [fold_right]; lia. Qed.
Lemma block_mean_double bs k (v : list Z -> Q) idx : Forall (fun b => 0 < b)%Z bs -> length idx = length bs -> (k < length bs)%nat ->
  block_mean (upd bs k (2 * nth k bs 0)%Z) v idx
  == (block_mean bs v (upd idx k (2 * nth k idx 0)%Z) + block_mean bs v (upd idx k (1 + 2 * nth k idx 0)%Z)) / 2.
Proof.
  intros Hp L Hk. unfold block_mean. rewrite total_double; auto.
  2:{ pose proof (proj1 (Forall_nth _ _) Hp k 0%Z Hk). cbn beta in *. lia. }
  rewrite (prod_upd bs k _ Hk eq_refl), inject_Z_mult. change (inject_Z 2) with 2.
  pose proof (prod_pos bs Hp) as P. assert (~ inject_Z (fold_right Z.mul 1%Z bs) == 0).
  { change 0 with (inject_Z 0). rewrite inject_Z_injective. lia. }
  field. assumption.
Qed.
Lemma map2_mul_ones idx : forall n, length idx = n -> map2 Z.mul idx (repeat 1%Z n) = idx.
Proof. induction idx as [|i idx IH]; intros [|n] H; try discriminate; [reflexivity|]. cbn [repeat map2]. rewrite IH by (cbn in H; lia). f_equal. lia. Qed.
Lemma map2_add_zeros idx : forall n, length idx = n -> map2 Z.add idx (repeat 0%Z n) = idx.
Proof. induction idx as [|i idx IH]; intros [|n] H; try discriminate; [reflexivity|]. cbn [repeat map2]. rewrite IH by (cbn in H; lia). f_equal. lia. Qed.
Lemma total_ones n : forall v, total (repeat 1%Z n) v == v (repeat 0%Z n).
Proof.
  induction n as [|n IH]; intro v; [reflexivity|]. cbn [repeat total]. change (Z.to_nat 1) with 1%nat. cbn [seq map].
  rewrite qsum_cons, qsum_nil, IH. cbn [Z.of_nat]. ring.
Qed.
Lemma prod_ones n : fold_right Z.mul 1%Z (repeat 1%Z n) = 1%Z.
Proof. induction n as [|n IH]; [reflexivity|]. cbn [repeat fold_right]. lia. Qed.
Lemma block_mean_one n v idx : length idx = n -> block_mean (repeat 1%Z n) v idx == v idx.
Proof.
  intro L. unfold block_mean. rewrite total_ones, prod_ones, map2_mul_ones, map2_add_zeros by exact L.
  change (inject_Z 1) with 1. field.
Qed.

(** * Half resolution (C08) *)
Lemma simple_inv {V} (f : field V) : simple_field f -> inv f.
Proof.
  intros (Hf & _ & _ & Hp). split; [exact Hf|]. revert Hp. apply Forall_impl. intros ax H.
  apply proper_describes in H as (_ & _ & H). exact H.
Qed.
Lemma simple_few {V} (f : field V) : simple_field f -> few_dims f.
Proof. intros (_ & _ & H & _). unfold few_dims, max_dims. lia. Qed.
Lemma setidx_at {A} (l : list A) k x : (k < length l)%nat -> setidx l (Z.of_nat k) x = Ok (upd l k x).
Proof. intro H. apply setidx_ok. exists k. split; [|reflexivity]. apply py_pos_ok. split; [exact H|]. left. split; lia. Qed.

Lemma half_total spl f k : simple_field f -> (k < length (f_shape f))%nat ->
  exists g, field_half_resolution spl f (Z.of_nat k) = Ok g.
Proof.
  intros Hs Hk. pose proof (shape_nonneg f (simple_inv f Hs)) as Hn. pose proof Hs as ((L & Hl & L2 & L3) & Hi & H3 & Hp).
  set (m := nth k (f_shape f) 0%Z). assert (Hm : (0 <= m)%Z) by (apply (proj1 (Forall_nth _ _) Hn); exact Hk).
  destruct (half_slices m Hm) as (S1 & R1 & s & S2 & R2 & _).
  unfold field_half_resolution. assert (Ea : axesidentify (Z.of_nat k) = Ok (Z.of_nat k)).
  { destruct k as [|[|[|k]]]; try reflexivity. lia. }
  rewrite Ea. cbn [bind]. rewrite (getidx_at _ _ 0%Z Hk). fold m. cbn [bind].
  rewrite !setidx_at by (rewrite repeat_length; exact Hk). cbn [bind]. rewrite Hi. cbn [data_getitem].
  destruct (np_getitem_one (f_data f) k _ _ _ _ Hn Hk S1) as (b1 & E1 & Sh1 & _). unfold f_shape, full_slice in *. rewrite E1.
  destruct (np_getitem_one (f_data f) k _ _ _ _ Hn Hk S2) as (b2 & E2 & Sh2 & _). rewrite E2. cbn [bind snd].
  destruct (np_map2_same (fun x y => (x + y) / 2) b1 b2) as (d & Ed & Sd & _); [now rewrite Sh1, Sh2, R1, R2|].
  rewrite Ed. cbn [bind]. rewrite (getidx_at _ _ axis0) by (rewrite L; exact Hk). cbn [bind].
  pose proof (proj1 (Forall_nth _ _) Hp k axis0 ltac:(rewrite L; exact Hk)) as Hax.
  destruct (half_resolution_spec spl _ Hax) as (r & Er & Lr & _ & _ & Hu & Hd & _). rewrite Er. cbn [bind].
  assert (Hr : axis_proper r) by (destruct Hax; [left|right]; auto).
  unfold setaxisobj. rewrite Ea. cbn [bind]. rewrite Z.mod_small by lia.
  assert (Kd : (k < length (a_shape d))%nat) by (rewrite Sd, Sh1, upd_length; exact Hk).
  rewrite (getidx_at _ _ 0%Z Kd). cbn [bind]. rewrite Sd, Sh1, nth_upd_same, R1, Z2Nat.id; [|apply Z.div_pos; lia|exact Hk].
  assert (Em : ax_len (nth k (f_axes f) axis0) = m).
  { apply (Hl k); [apply nth_error_nth'; rewrite L; exact Hk|apply nth_error_nth'; exact Hk]. }
  replace (ax_len r =? m / 2)%Z with true.
  - rewrite setidx_at by (rewrite L; exact Hk). cbn [bind]. rewrite setidx_at by (rewrite L3; exact Hk). eexists. reflexivity.
  - symmetry. apply Z.eqb_eq. apply proper_describes in Hr as (_ & _ & Hr). unfold ax_len in *. rewrite Hr, Lr.
    apply proper_describes in Hax as (_ & _ & Hax). rewrite Hax in Em. rewrite <- Em. apply Nat2Z.inj_div.
Qed.
Lemma axis_half_blocks spl ax r : axis_proper ax -> axis_half_resolution spl ax = Ok r ->
  axis_proper r /\ ax_len r = (ax_len ax / 2)%Z /\
  (forall i, (0 <= i <= ax_len r)%Z -> nth (Z.to_nat i) (ax_node r) 0 = nth (Z.to_nat (2 * i)) (ax_node ax) 0) /\
  (forall i, (0 <= i < ax_len r)%Z -> nth (Z.to_nat i) (ax_grid r) 0
     == (nth (Z.to_nat (2 * i)) (ax_grid ax) 0 + nth (Z.to_nat (1 + 2 * i)) (ax_grid ax) 0) / 2) /\
  ax_name r = ax_name ax /\ ax_unit r = ax_unit ax.
Proof.
  intros Hp H. destruct (half_resolution_spec spl ax Hp) as (r' & Er & Lr & Hg & Hnd & Hu & Hd & Nm & Un & _).
  rewrite H in Er. injection Er as <-. assert (Hr : axis_proper r) by (destruct Hp; [left|right]; auto).
  pose proof (proper_describes _ Hp) as (_ & _ & Dn). pose proof (proper_describes _ Hr) as (_ & _ & Dr).
  unfold ax_len. rewrite Dn, Dr, Lr. split; [exact Hr|]. split; [apply Nat2Z.inj_div|].
  split; [|split; [|auto]]; intros i Hi.
  - rewrite Hnd by lia. f_equal. lia.
  - rewrite Hg by lia. replace (Z.to_nat (2 * i)) with (2 * Z.to_nat i)%nat by lia.
    replace (Z.to_nat (1 + 2 * i)) with (2 * Z.to_nat i + 1)%nat by lia. reflexivity.
Qed.

(** * Repeated halving (C17) *)
Lemma axis_blocks_refl ax : axis_blocks 1 ax ax.
Proof.
  split; [now rewrite Z.div_1_r|]. split; [intros i _; f_equal; lia|]. split; [|auto].
  intros i _. symmetry. rewrite (block_mean_one 1) by reflexivity. reflexivity.
Qed.
Lemma axis_blocks_half spl b ax h r : (0 < b)%Z -> axis_blocks b ax h -> axis_proper h -> axis_half_resolution spl h = Ok r ->
  axis_blocks (2 * b) ax r.
Proof.
  intros Hb (L & Nd & Gr & Nm & Un) Hh Hr. destruct (axis_half_blocks _ _ _ Hh Hr) as (_ & Lr & Ndr & Grr & Nmr & Unr).
  split; [rewrite Lr, L, Z.mul_comm; apply Z.div_div; lia|]. split; [|split; [|split; congruence]]; intros i Hi.
  - rewrite Ndr, Nd by lia. f_equal. lia.
  - rewrite Grr by lia. rewrite !Gr by lia. symmetry.
    exact (block_mean_double [b] 0 _ [i] ltac:(repeat constructor; exact Hb) eq_refl ltac:(cbn; lia)).
Qed.
Lemma map2_upd_r {A B C} (f : A -> B -> C) l : forall m k b d, (k < length l)%nat -> length l = length m ->
  map2 f l (upd m k b) = upd (map2 f l m) k (f (nth k l d) b).
Proof.
  induction l as [|x l IH]; intros [|y m] k b d Hk L; try discriminate; [cbn in Hk; lia|].
  destruct k as [|k]; [reflexivity|]. cbn [upd map2 nth]. f_equal. apply IH; cbn in *; lia.
Qed.
Lemma nth_map2_Z (f : Z -> Z -> Z) l : forall m k d e c, (k < length l)%nat -> length l = length m ->
  nth k (map2 f l m) c = f (nth k l d) (nth k m e).
Proof.
  induction l as [|x l IH]; intros [|y m] k d e c Hk L; try discriminate; [cbn in Hk; lia|].
  destruct k as [|k]; [reflexivity|]. cbn [map2 nth]. apply IH; cbn in *; lia.
Qed.
Lemma half_simple spl f a g : simple_field f -> field_half_resolution spl f a = Ok g -> simple_field g.
Proof.
  intros Hs H. pose proof (half_inv _ _ _ _ (simple_inv f Hs) (simple_few f Hs) H) as [Hg _].
  apply half_ok in H as (k & m & ax & ax' & Hk & _ & _ & Sg & _ & Hax & Hh & Ag & _ & _ & _ & Ig & _); [|now apply simple_inv|now apply simple_few].
  destruct Hs as (Hf & _ & H3 & Hp). split; [exact Hg|]. split; [exact Ig|]. split; [now rewrite Sg, upd_length|].
  rewrite Ag. apply Forall_upd; [exact Hp|]. apply (axis_half_blocks spl ax ax'); [|exact Hh].
  eapply Forall_forall; [exact Hp|]. eapply nth_error_In; exact Hax.
Qed.
Lemma coarsened_half spl f bs h k g : length (f_axes f) = length (f_shape f) ->
  length bs = length (f_shape f) -> Forall (fun b => 0 < b)%Z bs -> coarsened f bs h -> simple_field h ->
  field_half_resolution spl h (Z.of_nat k) = Ok g -> coarsened f (upd bs k (2 * nth k bs 0)%Z) g.
Proof.
  intros Lf Lb Hb (Sh & Vh & Ah & Th & Nh & Uh) Hs H. pose proof Hs as (Hc & _ & _ & Hp).
  apply half_ok in H as (k' & m & ax & ax' & Hk & Ek & Em & Sg & Vg & Hax & Hh & Ag & Lax & Tg & _ & _ & Ng & Ug); [|now apply simple_inv|now apply simple_few].
  apply Nat2Z.inj in Ek. subst k'. destruct Hc as (Lh & _).
  assert (Lsh : length (f_shape h) = length (f_shape f)) by (rewrite Sh, map2_length; lia).
  assert (Hbk : (0 < nth k bs 0)%Z) by (apply (proj1 (Forall_nth _ _) Hb); lia).
  split; [|split; [|split; [|split; [congruence|split; congruence]]]].
  - rewrite Sg, Sh, (map2_upd_r _ _ _ _ _ 0%Z) by lia. f_equal. rewrite <- Em, Sh, (nth_map2_Z _ _ _ _ 0%Z 0%Z) by lia.
    rewrite Z.mul_comm. apply Z.div_div; lia.
  - intros idx Hidx. rewrite (Vg idx Hidx). rewrite Sg in Hidx. pose proof (in_shape_length_upd _ _ _ _ Hidx) as Li.
    rewrite block_mean_double by (auto; lia).
    assert (Hin : forall i, (0 <= i < m)%Z -> in_shape (f_shape h) (upd idx k i) = true).
    { intros i Hi. apply in_shape_of_nth; [now rewrite upd_length|]. intros j Hj. destruct (Nat.eq_dec j k) as [->|Nj].
      - rewrite nth_upd_same by lia. now rewrite Em.
      - rewrite nth_upd_other by exact Nj. pose proof (in_shape_nth _ _ j 0%Z 0%Z Hidx) as Hj'.
        rewrite nth_upd_other in Hj' by exact Nj. apply Hj'. now rewrite upd_length. }
    pose proof (in_shape_nth _ _ k 0%Z 0%Z Hidx ltac:(now rewrite upd_length)) as Hk'. rewrite nth_upd_same in Hk' by exact Hk.
    rewrite !Vh by (apply Hin; lia). reflexivity.
  - intros j Hj. specialize (Ah j Hj). destruct (Nat.eq_dec j k) as [->|Nj].
    + rewrite nth_upd_same by lia. destruct (Z.eqb_spec (2 * nth k bs 0%Z) 1) as [E|_]; [lia|].
      rewrite Ag, nth_upd_same by lia. apply (nth_error_nth _ _ axis0) in Hax. subst ax.
      assert (Hb' : axis_blocks (nth k bs 0%Z) (nth k (f_axes f) axis0) (nth k (f_axes h) axis0)).
      { rewrite (nth_indep bs 1%Z 0%Z) in Ah by lia. destruct (Z.eqb_spec (nth k bs 0%Z) 1) as [E|_]; [|exact Ah].
        rewrite E, Ah. apply axis_blocks_refl. }
      apply (axis_blocks_half spl _ _ (nth k (f_axes h) axis0)); auto. apply (proj1 (Forall_nth _ _) Hp). lia.
    + rewrite nth_upd_other by exact Nj. rewrite Ag, nth_upd_other by exact Nj. exact Ah.
Qed.
Lemma reduce_axis_total spl maxlen f k : (1 <= maxlen)%Z -> simple_field f -> (k < length (f_shape f))%nat ->
  forall n fuel h bs j, (nth k (f_shape h) 0 <= Z.of_nat n)%Z -> (n <= fuel)%nat ->
    simple_field h -> coarsened f bs h -> length bs = length (f_shape f) -> Forall (fun b => 0 < b)%Z bs ->
    (0 <= j)%Z -> nth k bs 0%Z = (2 ^ j)%Z -> (forall i, (0 <= i < j)%Z -> maxlen < nth k (f_shape f) 0 / 2 ^ i)%Z ->
    exists g b, reduce_axis fuel spl maxlen h (Z.of_nat k) = Ok g /\ simple_field g /\ coarsened f (upd bs k b) g /\
      (0 < b)%Z /\ least_halving maxlen (nth k (f_shape f) 0%Z) b /\ (b = nth k bs 0%Z -> g = h).
Proof.
  intros Hm Hf Hk.
  assert (Facts : forall h bs j, simple_field h -> coarsened f bs h -> length bs = length (f_shape f) ->
     Forall (fun b => 0 < b)%Z bs -> nth k bs 0%Z = (2 ^ j)%Z ->
     length (f_shape h) = length (f_shape f) /\ length (f_axes h) = length (f_shape f) /\
     ax_len (nth k (f_axes h) axis0) = nth k (f_shape h) 0%Z /\ nth k (f_shape h) 0%Z = (nth k (f_shape f) 0 / 2 ^ j)%Z).
  { intros h bs j Hh (Sh & _) Lb Hb Ej. destruct Hh as ((Lh & Hl & _) & _).
    assert (Lsh : length (f_shape h) = length (f_shape f)) by (rewrite Sh, map2_length; lia).
    split; [exact Lsh|]. split; [lia|]. split; [apply (Hl k); apply nth_error_nth'; lia|].
    rewrite Sh, (nth_map2_Z _ _ _ _ 0%Z 0%Z) by lia. now rewrite Ej. }
  assert (Done : forall fuel h bs j, simple_field h -> coarsened f bs h -> length bs = length (f_shape f) ->
     Forall (fun b => 0 < b)%Z bs -> (0 <= j)%Z -> nth k bs 0%Z = (2 ^ j)%Z ->
     (forall i, (0 <= i < j)%Z -> maxlen < nth k (f_shape f) 0 / 2 ^ i)%Z ->
     (ax_len (nth k (f_axes h) axis0) <= maxlen)%Z ->
      reduce_axis fuel spl maxlen h (Z.of_nat k) = Ok h /\ coarsened f (upd bs k (nth k bs 0%Z)) h /\ (0 < nth k bs 0)%Z /\
      least_halving maxlen (nth k (f_shape f) 0%Z) (nth k bs 0%Z)).
  { intros fuel h bs j Hh Hc Lb Hb Hj Ej Hlow Hle. destruct (Facts h bs j Hh Hc Lb Hb Ej) as (Lsh & Lh & Eax & Esh).
    split; [|split; [|split]].
    - destruct fuel; cbn [reduce_axis]; rewrite (getidx_at _ _ axis0) by lia; cbn [bind];
        destruct (Z.ltb_spec maxlen (ax_len (nth k (f_axes h) axis0))); [lia|reflexivity|lia|reflexivity].
    - rewrite upd_nth by lia. exact Hc.
    - apply (proj1 (Forall_nth _ _) Hb); lia.
    - exists j. split; [exact Hj|]. split; [exact Ej|]. split; [|exact Hlow]. rewrite Ej, <- Esh, <- Eax. exact Hle. }
  induction n as [|n IH]; intros fuel h bs j Hn Hfu Hh Hc Lb Hb Hj Ej Hlow;
    destruct (Facts h bs j Hh Hc Lb Hb Ej) as (Lsh & Lh & Eax & Esh); specialize (Done fuel h bs j Hh Hc Lb Hb Hj Ej Hlow).
  - destruct Done as (D1 & D2 & D3 & D4); [lia|]. exists h, (nth k bs 0%Z). auto 12.
  - destruct (Z.le_gt_cases (ax_len (nth k (f_axes h) axis0)) maxlen) as [Hle|Hgt].
    { destruct (Done Hle) as (D1 & D2 & D3 & D4). exists h, (nth k bs 0%Z). auto 12. }
    clear Done. destruct fuel as [|fuel]; [lia|]. cbn [reduce_axis]. rewrite (getidx_at _ _ axis0) by lia. cbn [bind].
    destruct (Z.ltb_spec maxlen (ax_len (nth k (f_axes h) axis0))); [|lia].
    destruct (half_total spl h k Hh ltac:(lia)) as (g & Hg). rewrite Hg. cbn [bind].
    pose proof (half_simple _ _ _ _ Hh Hg) as Hgs.
    assert (Lf : length (f_axes f) = length (f_shape f)) by apply Hf.
    pose proof (coarsened_half spl f bs h k g Lf Lb Hb Hc Hh Hg) as Hcg.
    assert (Hb' : (0 < nth k bs 0)%Z) by (apply (proj1 (Forall_nth _ _) Hb); lia).
    destruct (IH fuel g (upd bs k (2 * nth k bs 0)%Z) (j + 1)%Z) as (r & b & Hr & Rs & Rc & Rb & Rl & _); auto; try lia.
    + destruct Hcg as (Sg & _). rewrite Sg, (nth_map2_Z _ _ _ _ 0%Z 0%Z) by (rewrite ?upd_length; lia). rewrite nth_upd_same by lia.
      rewrite Ej, Z.mul_comm, <- Z.div_div by lia. rewrite <- Esh. lia.
    + now rewrite upd_length.
    + apply Forall_upd; [exact Hb|lia].
    + rewrite nth_upd_same by lia. rewrite Ej, Z.pow_add_r by lia. lia.
    + intros i Hi. destruct (Z.eq_dec i j) as [->|]; [|apply Hlow; lia]. lia.
    + exists r, b. split; [exact Hr|]. split; [exact Rs|]. rewrite upd_upd in Rc. split; [exact Rc|]. split; [exact Rb|].
      split; [exact Rl|]. intros ->. exfalso. destruct Rl as (i & Hi & Ei & Hle & _).
      rewrite Ej in Hle. lia.
Qed.
Lemma map2_div_ones sh : map2 Z.div sh (repeat 1%Z (length sh)) = sh.
Proof. induction sh as [|n sh IH]; [reflexivity|]. cbn [length repeat map2]. rewrite IH, Z.div_1_r. reflexivity. Qed.
Lemma nth_ones k n d : d = 1%Z -> nth k (repeat 1%Z n) d = 1%Z.
Proof. intros ->. destruct (Nat.lt_ge_cases k n); [now rewrite nth_repeat|apply nth_overflow; now rewrite repeat_length]. Qed.
Lemma coarsened_refl f : coarsened f (repeat 1%Z (length (f_shape f))) f.
Proof.
  split; [symmetry; apply map2_div_ones|]. split; [|split; [|auto]].
  - intros idx H. rewrite block_mean_one; [reflexivity|]. now apply in_shape_length in H.
  - intros k _. now rewrite nth_ones.
Qed.
Lemma reduce_axes_total spl maxlen f fuel : (1 <= maxlen)%Z -> simple_field f ->
  Forall (fun n => (n <= Z.of_nat fuel)%Z) (f_shape f) ->
  forall cnt m h bs, (m + cnt = length (f_shape f))%nat ->
    simple_field h -> coarsened f bs h -> length bs = length (f_shape f) -> Forall (fun b => 0 < b)%Z bs ->
    (forall k, (k < m)%nat -> least_halving maxlen (nth k (f_shape f) 0%Z) (nth k bs 1%Z)) ->
    (forall k, (m <= k)%nat -> nth k bs 1%Z = 1%Z) ->
    exists g bs', reduce_axes fuel spl maxlen h (map Z.of_nat (seq m cnt)) = Ok g /\ simple_field g /\ coarsened f bs' g /\
      length bs' = length (f_shape f) /\
      (forall k, (k < length (f_shape f))%nat -> least_halving maxlen (nth k (f_shape f) 0%Z) (nth k bs' 1%Z)).
Proof.
  intros Hm Hf Hfu. induction cnt as [|cnt IH]; intros m h bs Em Hh Hc Lb Hb Hlow Hhi; cbn [seq map reduce_axes].
  - exists h, bs. split; [reflexivity|]. split; [exact Hh|]. split; [exact Hc|]. split; [exact Lb|].
    intros k Hk. apply Hlow. lia.
  - pose proof Hc as (Sh & _).
    destruct (reduce_axis_total spl maxlen f m Hm Hf ltac:(lia) fuel fuel h bs 0) as (g & b & Hg & Gs & Gc & Gb & Gl & _); auto; try lia.
    + rewrite Sh, (nth_map2_Z _ _ _ _ 0%Z 1%Z) by lia. rewrite Hhi by lia. rewrite Z.div_1_r.
      apply (proj1 (Forall_nth _ _) Hfu). lia.
    + rewrite (nth_indep bs 0%Z 1%Z) by lia. now rewrite Hhi.
    + rewrite Hg. cbn [bind]. apply (IH (S m) g (upd bs m b)); auto; try lia.
      * now rewrite upd_length.
      * now apply Forall_upd.
      * intros k Hk. destruct (Nat.eq_dec k m) as [->|N]; [now rewrite nth_upd_same by lia|].
        rewrite nth_upd_other by exact N. apply Hlow. lia.
      * intros k Hk. rewrite nth_upd_other by lia. apply Hhi. lia.
Qed.
Lemma autoreduce_total spl f maxlen : (1 <= maxlen)%Z -> simple_field f ->
  exists fuel0, forall fuel, (fuel0 <= fuel)%nat ->
    exists g bs, field_autoreduce fuel spl f maxlen = Ok g /\ coarsened f bs g /\ length bs = length (f_shape f) /\
      Forall (fun n => (n <= maxlen)%Z) (f_shape g) /\
      (forall k, (k < length (f_shape f))%nat -> least_halving maxlen (nth k (f_shape f) 0%Z) (nth k bs 1%Z)).
Proof.
  intros Hm Hf. exists (Z.to_nat (fold_right Z.max 0%Z (f_shape f))). intros fuel Hfu. unfold field_autoreduce, zlist.
  pose proof Hf as ((L & _) & _). rewrite L.
  destruct (reduce_axes_total spl maxlen f fuel Hm Hf) with (cnt := length (f_shape f)) (m := 0%nat) (h := f) (bs := repeat 1%Z (length (f_shape f)))
    as (g & bs & Hg & _ & Gc & Lb & Gl); auto.
  - assert (G : forall l, Forall (fun n => (n <= fold_right Z.max 0 l)%Z) l).
    { induction l as [|x l IHl]; constructor; cbn [fold_right]; [lia|]. revert IHl. apply Forall_impl. intros; lia. }
    specialize (G (f_shape f)). revert G. apply Forall_impl. intros; lia.
  - apply coarsened_refl.
  - apply repeat_length.
  - apply Forall_forall. intros x Hx. apply repeat_spec in Hx. lia.
  - intros; lia.
  - intros; now apply nth_ones.
  - exists g, bs. split; [exact Hg|]. split; [exact Gc|]. split; [exact Lb|]. split; [|exact Gl].
    destruct Gc as (Sg & _). rewrite Sg. apply Forall_nth. intros k d Hk. rewrite map2_length in Hk.
    rewrite (nth_map2_Z _ _ _ _ 0%Z 1%Z) by lia. destruct (Gl k ltac:(lia)) as (j & _ & _ & H & _). exact H.
Qed.

(** * Half resolution keeps the sum (C08) *)
Lemma total_ext_in sh : forall v w, (forall idx, in_shape sh idx = true -> v idx == w idx) -> total sh v == total sh w.
Proof.
  induction sh as [|n sh IH]; intros v w H; cbn [total]; [now apply H|].
  apply qsum_map_ext. intros i Hi. apply in_seq in Hi. apply IH. intros idx Hidx. apply H. cbn [in_shape].
  rewrite Hidx, andb_true_r. apply andb_true_iff. split; [apply Z.leb_le|apply Z.ltb_lt]; lia.
Qed.
Lemma qsum_pairs (v : nat -> Q) m :
  qsum (map v (seq 0 (2 * m))) == qsum (map (fun i => v (2 * i)%nat + v (1 + 2 * i)%nat) (seq 0 m)).
Proof.
  induction m as [|m IH]; [reflexivity|]. replace (2 * S m)%nat with (S (S (2 * m)))%nat by lia.
  rewrite (seq_S _ 0), (seq_S (2 * m)%nat 0), (seq_S m 0), !map_app, !qsum_app, IH. change (0 + S (2 * m))%nat with (1 + 2 * m)%nat.
  change (0 + 2 * m)%nat with (2 * m)%nat. change (0 + m)%nat with m. unfold map at 2 3 5. rewrite !qsum_cons, !qsum_nil. ring.
Qed.
Lemma total_pairs sh : forall k m v, (k < length sh)%nat -> (0 <= m)%Z -> nth k sh 0%Z = (2 * m)%Z ->
  total sh v == total (upd sh k m) (fun idx => v (upd idx k (2 * nth k idx 0)%Z) + v (upd idx k (1 + 2 * nth k idx 0)%Z)).
Proof.
  induction sh as [|n sh IH]; intros k m v Hk Hm Hn; [cbn in Hk; lia|]. destruct k as [|k]; cbn [nth upd total] in *.
  - rewrite Hn. replace (Z.to_nat (2 * m)) with (2 * Z.to_nat m)%nat by lia.
    rewrite (qsum_pairs (fun i => total sh (fun idx => v (Z.of_nat i :: idx)))). apply qsum_map_ext. intros i _.
    rewrite total_plus. apply Qplus_comp; apply total_ext; intro idx.
    + replace (Z.of_nat (2 * i)) with (2 * Z.of_nat i)%Z by lia. reflexivity.
    + replace (Z.of_nat (1 + 2 * i)) with (1 + 2 * Z.of_nat i)%Z by lia. reflexivity.
  - apply qsum_map_ext. intros i _. rewrite (IH k m (fun idx => v (Z.of_nat i :: idx))) by (auto; cbn in Hk; lia). reflexivity.
Qed.
Lemma half_field_total spl f k : simple_field f -> (k < length (f_shape f))%nat ->
  exists g ax', field_half_resolution spl f (Z.of_nat k) = Ok g /\ simple_field g /\
    f_shape g = upd (f_shape f) k (nth k (f_shape f) 0 / 2)%Z /\
    (forall idx, in_shape (f_shape g) idx = true ->
       a_at (f_data g) idx == (a_at (f_data f) (upd idx k (2 * nth k idx 0)%Z)
                               + a_at (f_data f) (upd idx k (2 * nth k idx 0 + 1)%Z)) / 2) /\
    axis_half_resolution spl (nth k (f_axes f) axis0) = Ok ax' /\ f_axes g = upd (f_axes f) k ax' /\
    ((nth k (f_shape f) 0 mod 2 = 0)%Z ->
       2 * total (f_shape g) (a_at (f_data g)) == total (f_shape f) (a_at (f_data f))).
Proof.
  intros Hs Hk. destruct (half_total spl f k Hs Hk) as (g & Hg). pose proof (half_simple _ _ _ _ Hs Hg) as Gs.
  pose proof Hg as Hg'. apply half_ok in Hg' as (k' & m & ax & ax' & _ & Ek & Em & Sg & Vg & Hax & Hh & Ag & _); [|now apply simple_inv|now apply simple_few].
  apply Nat2Z.inj in Ek. subst k'. apply (nth_error_nth _ _ axis0) in Hax. rewrite <- Hax in Hh.
  exists g, ax'. split; [exact Hg|]. split; [exact Gs|]. rewrite Em. split; [exact Sg|].
  assert (V : forall idx, in_shape (f_shape g) idx = true ->
       a_at (f_data g) idx == (a_at (f_data f) (upd idx k (2 * nth k idx 0)%Z)
                               + a_at (f_data f) (upd idx k (2 * nth k idx 0 + 1)%Z)) / 2).
  { intros idx Hi. rewrite (Vg idx Hi). rewrite (Z.add_comm 1). reflexivity. }
  split; [exact V|]. split; [exact Hh|]. split; [exact Ag|]. intro He.
  pose proof (proj1 (Forall_nth _ _) (shape_nonneg f (simple_inv f Hs)) k 0%Z Hk) as Hm. cbn beta in Hm. rewrite Em in Hm.
  rewrite (total_pairs (f_shape f) k (m / 2)%Z (a_at (f_data f)) Hk ltac:(lia) ltac:(lia)).
  rewrite <- Sg, <- total_scale. apply total_ext_in. intros idx Hi. rewrite (V idx Hi). rewrite (Z.add_comm _ 1). field.
Qed.
Lemma half_field_blocks spl f k : simple_field f -> (k < length (f_shape f))%nat ->
  exists g ax', field_half_resolution spl f (Z.of_nat k) = Ok g /\ simple_field g /\
    f_shape g = upd (f_shape f) k (nth k (f_shape f) 0 / 2)%Z /\
    (forall idx, in_shape (f_shape g) idx = true ->
       a_at (f_data g) idx == (a_at (f_data f) (upd idx k (2 * nth k idx 0)%Z)
                               + a_at (f_data f) (upd idx k (2 * nth k idx 0 + 1)%Z)) / 2) /\
    f_axes g = upd (f_axes f) k ax' /\ axis_blocks 2 (nth k (f_axes f) axis0) ax' /\
    ((nth k (f_shape f) 0 mod 2 = 0)%Z ->
       2 * total (f_shape g) (a_at (f_data g)) == total (f_shape f) (a_at (f_data f))).
Proof.
  intros Hs Hk. destruct (half_field_total spl f k Hs Hk) as (g & ax' & H1 & H2 & H3 & H4 & H5 & H6 & H7).
  exists g, ax'. do 5 (split; [assumption|]). split; [|assumption].
  apply (axis_blocks_half spl 1 _ (nth k (f_axes f) axis0)); [lia|apply axis_blocks_refl| |exact H5].
  destruct Hs as ((L & _) & _ & _ & Hp). apply (proj1 (Forall_nth _ _) Hp). lia.
Qed.
