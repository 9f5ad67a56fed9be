(** Indexing of fields (C70), squeeze and atleast_nd (C19). *)
From Coq Require Import Lia Lqa Permutation Setoid.
From Verif Require Import PyBase PyBaseFacts NumpyModel NumpyFacts QSum AxisModel AxisSpec AxisFacts AxisInterpFacts
  NdModel NdFacts FieldModel FieldSpec FieldInvFacts FieldNodedFacts FieldRearrFacts FieldReduceFacts FieldOpFacts FieldIntFacts
  FieldGridFacts FieldPadFacts FieldDerivFacts.

(** what one key selects *)
Definition sel_point (grid : list Q) (s : sel) (r : Q + axis) : Prop :=
  match s, r with
  | SInt p, inl x => (0 <= p < Z.of_nat (length grid))%Z /\ nth (Z.to_nat p) grid 0 = x
  | SRange s st c, inr ax => ax_len ax = c /\
      forall i, (0 <= i < c)%Z -> (0 <= s + i * st < Z.of_nat (length grid))%Z /\
        nth (Z.to_nat i) (ax_grid ax) 0 = nth (Z.to_nat (s + i * st)) grid 0
  | _, _ => False
  end.
Lemma mk_axis_grid spl nm un gn g ext n ax : mk_axis spl nm un gn (Some g) ext n = Ok ax -> ax_grid ax = g.
Proof.
  unfold mk_axis. intro H. apply bind_ok in H as (u1 & _ & H). apply bind_ok in H as (u2 & _ & H).
  apply bind_ok in H as (gn' & _ & H). apply bind_ok in H as (g' & Hg & H). apply bind_ok in Hg as (u3 & _ & Hg). injection Hg as <-.
  destruct gn' as [|g0 gn']; [discriminate|].
  apply bind_ok in H as (ext' & _ & H). apply bind_ok in H as (n' & _ & H). injection H as <-. reflexivity.
Qed.
Lemma axis_slice_grid spl ax sl r : axis_slice spl ax sl = Ok r ->
  getslice (ax_grid ax) sl = Ok (ax_grid r) /\ axis_counted r.
Proof.
  unfold axis_slice. destruct (negb _); [discriminate|]. intro H. apply bind_ok in H as (g & Hg & H).
  apply bind_ok in H as (gn & _ & H). pose proof (mk_axis_grid _ _ _ _ _ _ _ _ H) as ->. split; [exact Hg|].
  now apply mk_axis_counted in H.
Qed.
Lemma key_selects spl ax k r : axis_counted ax -> axis_getitem spl ax k = Ok r ->
  exists s s', normalize_slice ax k = Ok s /\
    sub_axis spl (ax, s) = Ok (match r with inl _ => None | inr ax' => Some ax' end) /\
    sel_of (ax_len ax) s = Ok s' /\ sel_point (ax_grid ax) s' r.
Proof.
  intros Hc H. unfold axis_getitem in H. apply bind_ok in H as (s & Hs & H). exists s.
  unfold axis_counted in Hc. destruct s as [i|sl].
  - destruct (getidx (ax_grid ax) i) as [x|] eqn:E; [|discriminate]. injection H as <-.
    pose proof E as E'. apply getidx_some in E' as (p & Hp & Hx). exists (SInt (Z.of_nat p)). split; [exact Hs|].
    split; [unfold sub_axis; cbn [fst snd]; now rewrite E|].
    split; [unfold sel_of; rewrite Hc, Nat2Z.id, Hp; reflexivity|]. apply py_pos_ok in Hp as [Hp _]. cbn [sel_point].
    split; [lia|]. rewrite Nat2Z.id. now apply nth_error_nth.
  - destruct (axis_slice spl ax sl) as [r'|] eqn:E; [|discriminate]. injection H as <-.
    pose proof E as E'. apply axis_slice_grid in E' as [Hg Hc'].
    destruct (slice_indices sl (Z.of_nat (length (ax_grid ax)))) as [[[a b] st]|] eqn:Ei;
      [|unfold getslice in Hg; rewrite Ei in Hg; discriminate].
    exists (SRange a st (Z.of_nat (range_len a b st))). split; [exact Hs|].
    split; [unfold sub_axis; cbn [fst snd]; now rewrite E|].
    split; [unfold sel_of; rewrite Hc, Ei; reflexivity|]. pose proof (getslice_length _ _ _ _ _ _ Ei Hg) as L. cbn [sel_point].
    unfold axis_counted in Hc'. split; [lia|]. intros i Hi.
    pose proof (slice_indices_valid _ _ _ _ _ (Nat2Z.is_nonneg (length (ax_grid ax))) Ei) as V. rewrite Forall_forall in V.
    split.
    + apply V. unfold py_range. apply in_map_iff. exists (Z.to_nat i). split; [rewrite Z2Nat.id; lia|]. apply in_seq. lia.
    + rewrite (getslice_nth_Q _ _ _ _ _ _ (Z.to_nat i) Ei Hg) by lia. rewrite Z2Nat.id by lia. reflexivity.
Qed.
(** all keys together *)
Lemma keys_select spl axes : Forall axis_counted axes -> forall keys rs,
  length keys = length axes -> Forall2 (fun p r => axis_getitem spl (fst p) (snd p) = Ok r) (combine axes keys) rs ->
  exists sls sels, mapM (fun p => normalize_slice (fst p) (snd p)) (combine axes keys) = Ok sls /\ length sls = length axes /\
    mapM (sub_axis spl) (combine axes sls) = Ok (map (fun r => match r with inl _ => None | inr ax' => Some ax' end) rs) /\
    sels_of (map ax_len axes) sls = Ok sels /\ length sels = length axes /\
    sel_shape sels = map ax_len (kept_axes rs) /\
    forall idx, in_shape (sel_shape sels) idx = true ->
      in_shape (map ax_len axes) (sel_index sels idx) = true /\
      point_of axes (sel_index sels idx) = point_at rs idx.
Proof.
  induction 1 as [|ax axes Hc Ha IH]; intros keys rs L H.
  - destruct keys; [|discriminate]. inversion H; subst. exists [], []. do 6 (split; [reflexivity|]).
    intros [|i idx] Hi; [|discriminate]. auto.
  - destruct keys as [|k keys]; [discriminate|]. cbn [combine] in H. inversion H as [|? r ? rs' Hr H']; subst. cbn [fst snd] in Hr.
    destruct (IH keys rs' ltac:(cbn in L; lia) H') as (sls & sels & E1 & L1 & E2 & E3 & L3 & Sh & Pt).
    destruct (key_selects spl ax k r Hc Hr) as (s & s' & F1 & F2 & F3 & F4).
    exists (s :: sls), (s' :: sels). cbn [combine mapM fst snd]. rewrite F1. cbn [bind]. rewrite E1. cbn [bind].
    split; [reflexivity|]. split; [cbn; congruence|]. split; [cbn [combine mapM map]; rewrite F2; cbn [bind]; rewrite E2; reflexivity|].
    split; [cbn [map sels_of]; rewrite F3; cbn [bind]; rewrite E3; reflexivity|]. split; [cbn; congruence|].
    unfold axis_counted in Hc. destruct s' as [p|a st c], r as [x|ax']; cbn [sel_point] in F4; try contradiction.
    + cbn [sel_shape kept_axes map]. split; [exact Sh|]. intros idx Hi. destruct (Pt idx Hi) as [P1 P2].
      cbn [sel_index in_shape map]. destruct F4 as [Hp Hx]. split.
      * rewrite P1, andb_true_r. apply andb_true_iff. split; [apply Z.leb_le|apply Z.ltb_lt]; lia.
      * unfold point_of. cbn [map point_at hd tl]. rewrite Hx. f_equal. exact P2.
    + cbn [sel_shape kept_axes map]. destruct F4 as [Hl Hx]. split; [now rewrite Sh, Hl|]. intros idx Hi.
      destruct idx as [|i idx]; [discriminate|]. cbn [in_shape] in Hi. apply andb_true_iff in Hi as [Hi Hidx].
      apply andb_true_iff in Hi as [Hi0 Hi1]. apply Z.leb_le in Hi0. apply Z.ltb_lt in Hi1.
      destruct (Pt idx Hidx) as [P1 P2]. destruct (Hx i ltac:(lia)) as [Hb Hv]. cbn [sel_index in_shape map]. split.
      * rewrite P1, andb_true_r. apply andb_true_iff. split; [apply Z.leb_le|apply Z.ltb_lt]; lia.
      * unfold point_of. cbn [map point_at hd tl]. rewrite Hv. f_equal. exact P2.
Qed.
Definition opt_of (r : Q + axis) : option axis := match r with inl _ => None | inr ax' => Some ax' end.
Lemma somes_opt rs : somes (map opt_of rs) = kept_axes rs.
Proof. induction rs as [|[x|ax] rs IH]; cbn [map somes kept_axes opt_of]; [reflexivity|exact IH|now rewrite IH]. Qed.
Lemma pick_nat {A} (d : A) l ps : (forall i, In i ps -> (i < length l)%nat) -> pick l ps = Ok (map (fun i => nth i l d) ps).
Proof.
  intro H. unfold pick. apply mapM_map. intros i Hi. apply getidx_at. now apply H.
Qed.
Lemma retained_entries {A} (d : A) rs : forall l, length l = length rs ->
  map (fun i => nth i l d) (retained (length rs) (map opt_of rs)) = kept_entries rs l.
Proof.
  assert (G : forall rs0 pre (prel l : list A), length prel = length pre -> length l = length rs0 ->
    map (fun i => nth i (prel ++ l) d)
        (filter (fun i => match nth_error (map opt_of (pre ++ rs0)) i with Some None => false | _ => true end) (seq (length pre) (length rs0)))
    = kept_entries rs0 l).
  { induction rs0 as [|r rs0 IH]; intros pre prel l Lp Ll; [destruct l; reflexivity|]. destruct l as [|x l]; [discriminate|].
    cbn [length seq filter]. rewrite nth_error_map, nth_error_app2, Nat.sub_diag by lia. cbn [nth_error option_map].
    replace (prel ++ x :: l) with ((prel ++ [x]) ++ l) by (now rewrite <- app_assoc).
    replace (pre ++ r :: rs0) with ((pre ++ [r]) ++ rs0) by (now rewrite <- app_assoc).
    specialize (IH (pre ++ [r]) (prel ++ [x]) l). rewrite !app_length in IH. cbn [length] in IH. rewrite !Nat.add_1_r in IH.
    destruct r as [y|ax]; cbn [opt_of kept_entries].
    - apply IH; cbn in Ll; lia.
    - cbn [map]. rewrite IH by (cbn in Ll; lia). f_equal. rewrite <- app_assoc, app_nth2, Lp, Nat.sub_diag by lia. reflexivity. }
  intros l L. exact (G rs [] [] l eq_refl L).
Qed.
Lemma kept_entries_length {A} rs : forall l : list A, length l = length rs -> length (kept_entries rs l) = length (kept_axes rs).
Proof.
  induction rs as [|[x|ax] rs IH]; intros [|y l] L; try discriminate; cbn [kept_entries kept_axes length] in *; [reflexivity|apply IH; lia|].
  f_equal. apply IH. lia.
Qed.
Lemma kept_axes_le rs : (length (kept_axes rs) <= length rs)%nat.
Proof. induction rs as [|[x|ax] rs IH]; cbn [kept_axes length]; lia. Qed.

Lemma retained_lt n subs i : In i (retained n subs) -> (i < n)%nat.
Proof. unfold retained. intro H. apply filter_In in H as [H _]. apply in_seq in H. lia. Qed.
Lemma getitem_sels {V} spl (f : field V) keys sls subs sels : consistent f -> f_inner f = [] -> nonempty (f_shape f) ->
  length keys = length (f_shape f) ->
  mapM (fun p => normalize_slice (fst p) (snd p)) (combine (f_axes f) keys) = Ok sls ->
  mapM (sub_axis spl) (combine (f_axes f) sls) = Ok subs -> sels_of (f_shape f) sls = Ok sels ->
  sel_shape sels = map ax_len (somes subs) -> (length (somes subs) <= 3)%nat ->
  length (retained (length (f_shape f)) subs) = length (somes subs) ->
  let keep := retained (length (f_shape f)) subs in
  field_getitem spl f keys
  = Ok (mkField (mkarr (sel_shape sels) (fun idx => a_at (f_data f) (sel_index sels idx)))
                (mkLayer (somes subs) (entries_at None (f_ats f) keep) (entries_at None (f_tao f) keep) (l_name (f_top f)) (l_unit (f_top f))) []).
Proof.
  intros Hf Hi Hne Lk E1 E2 E3 Sh H3 Lr keep. destruct Hf as (L & _ & L2 & L3).
  assert (L1 : length sls = length (f_axes f)) by (apply mapM_length in E1; rewrite combine_length in E1; lia).
  unfold field_getitem, normalize_slices. rewrite Lk, (nonempty_dims _ Hne), Z.eqb_refl. cbn [negb]. rewrite E1. cbn [bind data_getitem].
  rewrite L1. change (a_shape (f_data f)) with (f_shape f). rewrite L, (nonempty_dims _ Hne), Z.eqb_refl. cbn [negb].
  change (l_axes (f_top f)) with (f_axes f). rewrite firstn_all2 by lia. rewrite E2. cbn [bind]. rewrite Hi. cbn [data_getitem].
  unfold np_getitem. change (a_shape (f_data f)) with (f_shape f). rewrite E3. cbn [bind]. cbv zeta.
  assert (P : forall A (d : A) (l : list A), length l = length (f_shape f) -> pick l keep = Ok (entries_at d l keep)).
  { intros A d l Ll. apply pick_nat. intros i Hin. apply retained_lt in Hin. lia. }
  fold keep. rewrite (P _ axis0 _ L). cbn [bind a_shape]. rewrite Sh.
  assert (Lka : length (somes subs) = length (entries_at axis0 (f_axes f) keep)) by (unfold entries_at; rewrite map_length; symmetry; exact Lr).
  destruct (set_axes_total (map ax_len (somes subs)) (somes subs) (entries_at axis0 (f_axes f) keep) 0) as (r & Er).
  { rewrite map_length. exact H3. } { lia. } { rewrite map_length. congruence. } { reflexivity. }
  rewrite Er. cbn [bind]. apply set_axes_all in Er as [-> _]; [|exact Lka|now rewrite map_length].
  change (l_ats (f_top f)) with (f_ats f). change (l_tao (f_top f)) with (f_tao f).
  rewrite (P _ None _ L2), (P _ None _ L3). reflexivity.
Qed.

Lemma getitem_total {V} spl (f : field V) keys rs : consistent f -> Forall axis_counted (f_axes f) -> f_inner f = [] ->
  nonempty (f_shape f) -> length keys = length (f_shape f) -> (length (kept_axes rs) <= 3)%nat ->
  Forall2 (fun p r => axis_getitem spl (fst p) (snd p) = Ok r) (combine (f_axes f) keys) rs ->
  exists g, field_getitem spl f keys = Ok g /\ f_axes g = kept_axes rs /\ f_shape g = map ax_len (kept_axes rs) /\
    (forall idx, in_shape (f_shape g) idx = true ->
       exists j, in_shape (f_shape f) j = true /\ a_at (f_data g) idx = a_at (f_data f) j /\
         point_of (f_axes f) j = point_at rs idx) /\
    f_ats g = kept_entries rs (f_ats f) /\ f_tao g = kept_entries rs (f_tao f) /\
    l_name (f_top g) = l_name (f_top f) /\ l_unit (f_top g) = l_unit (f_top f) /\ f_inner g = [].
Proof.
  intros Hf Hc Hi Hne Lk H3 H. pose proof (consistent_map f Hf) as Hm. pose proof Hf as (L & _ & L2 & L3).
  assert (Lr : length rs = length (f_axes f)).
  { apply Forall2_len in H. rewrite combine_length in H. lia. }
  destruct (keys_select spl (f_axes f) Hc keys rs ltac:(lia) H) as (sls & sels & E1 & L1 & E2 & E3 & _ & Sh & Pt).
  change (map (fun r : Q + axis => match r with inl _ => None | inr ax' => Some ax' end) rs) with (map opt_of rs) in E2.
  rewrite Hm in E3.
  assert (R : forall A (d : A) (l : list A), length l = length (f_shape f) ->
     entries_at d l (retained (length (f_shape f)) (map opt_of rs)) = kept_entries rs l).
  { intros A d l Ll. rewrite <- L, <- Lr. apply retained_entries. lia. }
  pose proof (getitem_sels spl f keys sls (map opt_of rs) sels Hf Hi Hne Lk E1 E2 E3) as G. rewrite somes_opt in G.
  specialize (G Sh H3). cbv zeta in G. rewrite (R _ None _ L2), (R _ None _ L3) in G.
  eexists. split; [apply G|].
  { rewrite <- (kept_entries_length rs (f_axes f)) by lia. rewrite <- (R _ axis0 _ L). unfold entries_at. now rewrite map_length. }
  unfold f_axes at 1, f_shape at 1 2, f_ats at 1, f_tao at 1. cbn [f_data f_top f_inner l_axes l_ats l_tao l_name l_unit a_shape a_at].
  split; [reflexivity|]. split; [exact Sh|]. split; [|auto 12].
  intros idx Hidx. destruct (Pt idx Hidx) as [P1 P2]. exists (sel_index sels idx). rewrite Hm in P1. auto.
Qed.

(** * squeeze *)
Definition mask (sh : list Z) : list (Q + axis) := map (fun n => if (n =? 1)%Z then inl 0 else inr axis0) sh.
Lemma mask_length sh : length (mask sh) = length sh.
Proof. apply map_length. Qed.
Lemma long_dims_mask sh : retained (length sh) (map opt_of (mask sh)) = long_dims sh.
Proof.
  unfold retained, long_dims. apply filter_ext_in. intros i Hi. apply in_seq in Hi. unfold mask. rewrite !nth_error_map.
  rewrite (nth_error_nth' sh 0%Z) by lia. cbn [option_map]. destruct (nth i sh 0 =? 1)%Z; reflexivity.
Qed.
Lemma long_entries {A} (d : A) sh l : length l = length sh -> entries_at d l (long_dims sh) = kept_entries (mask sh) l.
Proof.
  intro L. unfold entries_at. rewrite <- long_dims_mask. rewrite <- (mask_length sh) at 1. apply retained_entries. now rewrite mask_length.
Qed.
Lemma proper_full spl ax : axis_proper ax -> exists r, axis_slice spl ax full_slice = Ok r /\ axis_same ax r /\ axis_proper r.
Proof.
  intro H. pose proof (proper_length ax H) as L. pose proof (proper_describes ax H) as (D1 & D2 & D3).
  destruct (proper_loose ax H) as (_ & C & H'). unfold axis_slice. cbn [s_step full_slice negb].
  change (node_slice full_slice) with full_slice. rewrite !getslice_full. cbn [bind].
  rewrite (mk_axis_loose _ _ _ _ _ L H'). eexists. split; [reflexivity|]. split.
  - unfold axis_same, made. cbn [ax_name ax_unit ax_node ax_grid ax_extent ax_n fst snd]. do 4 (split; [reflexivity|]).
    split; [exact D1|]. split; [exact D2|exact D3].
  - destruct H as [[H _]|[H _]]; [left|right]; (split; [exact H|]); unfold describes, made; cbn; repeat split; reflexivity.
Qed.
Definition sq_key (ax : axis) : ikey := if (ax_len ax =? 1)%Z then IKey (KNum (NInt 0)) else key_of_slice full_slice.
Definition sq_sel (n : Z) : sel := if (n =? 1)%Z then SInt 0 else SRange 0 1 n.
Lemma full_sel n : (0 <= n)%Z -> sel_of n (inr full_slice) = Ok (SRange 0 1 n).
Proof. apply slice_full. Qed.
Lemma squeeze_keys spl axes : Forall axis_proper axes -> nonempty (map ax_len axes) ->
  exists sls subs, mapM (fun p => normalize_slice (fst p) (snd p)) (combine axes (map sq_key axes)) = Ok sls /\
    mapM (sub_axis spl) (combine axes sls) = Ok subs /\ sels_of (map ax_len axes) sls = Ok (map sq_sel (map ax_len axes)) /\
    map opt_of (mask (map ax_len axes)) = map (option_map (fun _ => axis0)) subs /\
    Forall2 axis_same (kept_entries (mask (map ax_len axes)) axes) (somes subs) /\
    map ax_len (somes subs) = sel_shape (map sq_sel (map ax_len axes)) /\ Forall axis_proper (somes subs).
Proof.
  induction 1 as [|ax axes Hp Ha IH]; intro Hn; [exists [], []; repeat split; constructor|].
  cbn [map] in Hn. apply Forall_inv in Hn as Hn0. apply Forall_inv_tail in Hn. destruct (IH Hn) as (sls & subs & E1 & E2 & E3 & E4 & E5 & E6 & E7).
  cbn [map combine mapM fst snd mask]. unfold sq_key at 1, sq_sel at 1 3. fold (mask (map ax_len axes)).
  pose proof (proper_counted ax Hp) as Hc.
  destruct (Z.eqb_spec (ax_len ax) 1) as [E|E].
  - exists (inl 0%Z :: sls), (None :: subs).
    assert (Hg : exists x, getidx (ax_grid ax) 0 = Ok x).
    { destruct (ax_grid ax) as [|x g] eqn:Eg; [cbn in Hc; lia|]. exists x. reflexivity. }
    destruct Hg as (x & Hg). cbn [normalize_slice]. 
    split; [cbn; rewrite E1; reflexivity|]. split; [cbn [combine mapM]; unfold sub_axis at 1; cbn [fst snd]; rewrite Hg; cbn [rmap bind]; rewrite E2; reflexivity|].
    split; [cbn [sels_of]; rewrite E, E3; reflexivity|]. split; [cbn [map opt_of option_map]; f_equal; exact E4|].
    split; [exact E5|]. split; [exact E6|exact E7].
  - destruct (proper_full spl ax Hp) as (r & Er & Hs & Hpr). exists (inr full_slice :: sls), (Some r :: subs).
    split; [rewrite key_of_slice_norm; cbn [bind]; rewrite E1; reflexivity|].
    split; [cbn [combine mapM]; unfold sub_axis at 1; cbn [fst snd]; rewrite Er; cbn [rmap bind]; rewrite E2; reflexivity|].
    split; [cbn [sels_of]; rewrite full_sel by lia; cbn [bind]; rewrite E3; reflexivity|]. split; [cbn [map opt_of option_map]; f_equal; exact E4|].
    split; [cbn [kept_entries somes]; constructor; assumption|]. split; [|cbn [somes]; constructor; assumption].
    cbn [somes map sel_shape]. rewrite E6. f_equal. symmetry. destruct Hs as (_ & _ & _ & _ & _ & _ & Hs). exact Hs.
Qed.
Lemma sq_index sh : forall j, in_shape sh j = true -> sel_index (map sq_sel sh) (kept_entries (mask sh) j) = j.
Proof.
  induction sh as [|n sh IH]; intros [|i j] H; try discriminate; [reflexivity|]. cbn [in_shape] in H. apply andb_prop in H as [Hi H].
  apply andb_prop in Hi as [H0 H1]. apply Z.leb_le in H0. apply Z.ltb_lt in H1.
  cbn [map mask]. fold (mask sh). unfold sq_sel at 1. destruct (Z.eqb_spec n 1) as [->|E]; cbn [sel_index kept_entries]; rewrite (IH j H).
  - f_equal. lia.
  - f_equal. lia.
Qed.
Lemma sq_shape sh : sel_shape (map sq_sel sh) = kept_entries (mask sh) sh.
Proof.
  induction sh as [|n sh IH]; [reflexivity|]. cbn [map mask]. fold (mask sh). unfold sq_sel at 1.
  destruct (Z.eqb_spec n 1); cbn [sel_shape kept_entries]; now rewrite IH.
Qed.
Lemma retained_map_opt n {B} (g : axis -> B) (subs : list (option axis)) (c : axis) :
  retained n (map (option_map (fun _ => c)) subs) = retained n subs.
Proof.
  unfold retained. apply filter_ext. intro i. rewrite nth_error_map. destruct (nth_error subs i) as [[|]|]; reflexivity.
Qed.
Lemma squeeze_total {V} spl (f : field V) : consistent f -> Forall axis_proper (f_axes f) -> f_inner f = [] -> nonempty (f_shape f) ->
  (length (long_dims (f_shape f)) <= 3)%nat ->
  exists g, field_squeeze spl f = Ok g /\ squeezed f g /\ consistent g /\ Forall axis_proper (f_axes g) /\ f_inner g = [].
Proof.
  intros Hf Hp Hi Hne H3. pose proof (consistent_map f Hf) as Hm. pose proof Hf as (L & _ & L2 & L3).
  assert (Hne' : nonempty (map ax_len (f_axes f))) by (now rewrite Hm).
  destruct (squeeze_keys spl (f_axes f) Hp Hne') as (sls & subs & E1 & E2 & E3 & E4 & E5 & E6 & E7). rewrite Hm in E3, E4, E5, E6.
  assert (R : retained (length (f_shape f)) subs = long_dims (f_shape f)).
  { rewrite <- long_dims_mask, E4. symmetry. apply (retained_map_opt _ (fun x => x)). }
  assert (Ls : length (somes subs) = length (long_dims (f_shape f))).
  { apply Forall2_len in E5. rewrite <- E5, <- (long_entries axis0) by exact L. unfold entries_at. now rewrite map_length. }
  unfold field_squeeze.
  rewrite (mapM_map _ (fun i => (ax_len (nth i (f_axes f) axis0) =? 1)%Z)).
  2:{ intros i Hin. apply in_seq in Hin. rewrite (getidx_at _ i axis0) by lia. reflexivity. }
  cbn [bind]. rewrite map_map.
  assert (K : map (fun x => if (ax_len (nth x (f_axes f) axis0) =? 1)%Z then IKey (KNum (NInt 0)) else key_of_slice full_slice) (seq 0 (length (f_shape f)))
              = map sq_key (f_axes f)).
  { rewrite <- L. rewrite <- (map_nth_seq axis0 (f_axes f)) at 2. rewrite map_map. reflexivity. }
  rewrite K. pose proof (getitem_sels spl f (map sq_key (f_axes f)) sls subs (map sq_sel (f_shape f)) Hf Hi Hne) as G.
  rewrite map_length in G. specialize (G L E1 E2 E3 (eq_sym E6)). rewrite Ls, R in G. specialize (G H3 eq_refl). cbv zeta in G. rewrite G. cbn [bind].
  unfold f_axes at 1, f_shape at 1. cbn [f_data f_top l_axes a_shape]. rewrite E6.
  rewrite (proj2 (idx_eqb_eq _ _) eq_refl). eexists. split; [reflexivity|].
  split; [|split; [|split; [exact E7|reflexivity]]].
  - unfold squeezed. unfold f_shape at 1, f_axes at 2, f_ats at 1, f_tao at 1. cbn [f_data f_top l_axes l_ats l_tao l_name l_unit a_shape a_at].
    rewrite !long_entries by assumption || reflexivity. split; [apply sq_shape|]. split; [exact E5|].
    split; [|auto]. intros j Hj. rewrite long_entries by (now apply in_shape_length in Hj). now rewrite sq_index.
  - apply map_consistent; unfold f_shape, f_axes, f_ats, f_tao; cbn [f_data f_top l_axes l_ats l_tao a_shape].
    + exact E6.
    + transitivity (length (long_dims (f_shape f))); [apply map_length|]. rewrite <- Ls, <- (map_length ax_len). exact (f_equal (@length Z) E6).
    + transitivity (length (long_dims (f_shape f))); [apply map_length|]. rewrite <- Ls, <- (map_length ax_len). exact (f_equal (@length Z) E6).
Qed.

(** * atleast_nd *)
Lemma unit_point spl : exists ax, mk_axis spl "" "" (Some [- qhalf; qhalf]) None None None = Ok ax /\ point_axis ax /\ axis_proper ax.
Proof.
  destruct (mk_unit_axis spl) as (ax & E & E2). exists ax. split; [exact E|]. subst ax. split.
  - split; [reflexivity|]. split; [reflexivity|]. split; [reflexivity|]. split; [reflexivity|]. split; [|reflexivity].
    eexists. split; [reflexivity|]. reflexivity.
  - left. split; [split; [reflexivity|]|repeat split; reflexivity]. intros [|i] Hi; cbn in Hi; [|lia]. split; reflexivity.
Qed.
Lemma in_shape_app_inv a b idx : in_shape (a ++ b) idx = true -> in_shape a (firstn (length a) idx) = true /\ in_shape b (skipn (length a) idx) = true.
Proof.
  revert idx. induction a as [|n a IH]; intros idx H; [cbn [length firstn skipn in_shape]; auto|]. destruct idx as [|i idx]; [discriminate|].
  cbn [app in_shape length firstn skipn] in *. apply andb_prop in H as [H1 H2]. rewrite H1. apply IH in H2. exact H2.
Qed.
Lemma add_dims_total {V} spl st m : forall f : field V, f_inner f = [] -> (length (f_shape f) + m <= max_dims)%nat ->
  Forall axis_proper (f_axes f) ->
  exists g, add_dims spl st m f = Ok g /\ with_dims f m g /\ f_inner g = [] /\ Forall axis_proper (f_axes g) /\
    f_ats g = f_ats f ++ repeat st m.
Proof.
  induction m as [|m IH]; intros f Hi Hm Hp; cbn [add_dims].
  - exists f. split; [reflexivity|]. split; [|rewrite app_nil_r; auto]. split; [now rewrite app_nil_r|].
    split; [exists []; rewrite app_nil_r; auto|]. split; [intros j _; now rewrite app_nil_r|].
    split; [exists st; cbn [repeat]; now rewrite !app_nil_r|]. auto.
  - rewrite Hi. cbn [andb]. destruct (Nat.leb_spec max_dims (length (f_shape f))) as [H|_]; [lia|].
    destruct (unit_point spl) as (ax & E & Hax & Hpr). rewrite E. cbn [bind map].
    match goal with |- context [add_dims spl st m ?F] => set (f' := F) end.
    destruct (IH f') as (g & Eg & (W1 & (axs & W2 & W3 & W4) & W5 & (st' & W6 & W7) & W8 & W9) & Gi & Gp & Ga).
    { reflexivity. } { unfold f', f_shape. cbn. rewrite app_length. cbn. unfold f_shape in Hm. lia. }
    { unfold f', f_axes. cbn. apply Forall_app. split; [exact Hp|]. apply Forall_cons; [exact Hpr|apply Forall_nil]. }
    exists g. split; [exact Eg|]. split; [|split; [exact Gi|split; [exact Gp|]]].
    + split; [rewrite W1; unfold f', f_shape; cbn [f_data np_newaxis a_shape repeat]; now rewrite <- app_assoc|].
      split.
      { exists (ax :: axs). rewrite W2. unfold f', f_axes. cbn [f_top l_axes]. rewrite <- app_assoc. split; [reflexivity|].
        split; [cbn; congruence|]. now constructor. }
      split.
      { intros j Hj. cbn [repeat]. change (0%Z :: repeat 0%Z m) with ([0%Z] ++ repeat 0%Z m). rewrite app_assoc. rewrite W5.
        - unfold f'. cbn [f_data np_newaxis a_at]. now rewrite removelast_last.
        - unfold f', f_shape. cbn [f_data np_newaxis a_shape]. clear - Hj. unfold f_shape in Hj. revert j Hj.
          generalize (a_shape (f_data f)) as sh. induction sh as [|n sh IH]; intros [|i j] Hj; try discriminate; [reflexivity|].
          cbn [app in_shape] in *. apply andb_prop in Hj as [H1 H2]. now rewrite H1, (IH j H2). }
      split; [|rewrite W8, W9; auto].
      exists st. rewrite Ga, W7. unfold f', f_ats, f_tao. cbn [f_top l_ats l_tao repeat]. rewrite <- !app_assoc. auto.
    + rewrite Ga. unfold f', f_ats. cbn [f_top l_ats repeat]. now rewrite <- app_assoc.
Qed.
Lemma transform_state_total {V} (f : field V) : consistent f -> nonempty (f_shape f) -> exists st, transform_state f = Ok st.
Proof.
  intros (L & _ & L2 & _) Hne. unfold transform_state. rewrite (nonempty_dims _ Hne), Nat2Z.id.
  rewrite (mapM_map _ (fun i => nth i (f_ats f) None)).
  2:{ intros i Hin. apply in_seq in Hin. apply getidx_at. lia. }
  cbn [bind]. destruct (forallb _ _); [eauto|]. destruct (forallb _ _); eauto.
Qed.
Lemma atleast_total {V} spl (f : field V) n : consistent f -> nonempty (f_shape f) -> Forall axis_proper (f_axes f) -> f_inner f = [] ->
  (n <= Z.of_nat max_dims)%Z -> (length (f_shape f) <= max_dims)%nat ->
  exists g, field_atleast_nd spl f n = Ok g /\ with_dims f (Z.to_nat n - length (f_shape f)) g /\ f_inner g = [] /\ Forall axis_proper (f_axes g).
Proof.
  intros Hf Hne Hp Hi Hn Hl. unfold field_atleast_nd. rewrite (nonempty_dims _ Hne).
  destruct (Z.leb_spec n (Z.of_nat (length (f_shape f)))) as [H|H].
  - replace (Z.to_nat n - length (f_shape f))%nat with 0%nat by lia. exists f. split; [reflexivity|]. split; [|auto].
    destruct (add_dims_total spl None 0 f Hi ltac:(lia) Hp) as (g & E & W & _). cbn [add_dims] in E. injection E as <-. exact W.
  - destruct (transform_state_total f Hf Hne) as (st & E). rewrite E. cbn [bind].
    replace (Z.to_nat (n - Z.of_nat (length (f_shape f)))) with (Z.to_nat n - length (f_shape f))%nat by lia.
    destruct (add_dims_total spl st (Z.to_nat n - length (f_shape f)) f Hi ltac:(lia) Hp) as (g & Eg & W & Gi & Gp & _). eauto.
Qed.
Lemma with_dims_consistent {V} (f : field V) m g : consistent f -> with_dims f m g -> consistent g.
Proof.
  intros Hf (W1 & (axs & W2 & W3 & W4) & _ & (st & W6 & W7) & _). pose proof (consistent_map f Hf) as Hm. destruct Hf as (L & _ & L2 & L3).
  apply map_consistent.
  - rewrite W2, W1, map_app, Hm. f_equal. subst m. clear - W4. induction W4 as [|ax axs H _ IH]; [reflexivity|].
    cbn [map length repeat]. rewrite IH. f_equal. now destruct H as (_ & _ & H & _).
  - rewrite W6, W1, !app_length, !repeat_length. congruence.
  - rewrite W7, W1, !app_length, !repeat_length. congruence.
Qed.
Lemma long_all sh m : Forall (fun n => n <> 1%Z) sh -> long_dims (sh ++ repeat 1%Z m) = seq 0 (length sh).
Proof.
  intro H. unfold long_dims. rewrite app_length, repeat_length, seq_app, filter_app.
  replace (filter _ (seq (0 + length sh) m)) with (@nil nat).
  - rewrite app_nil_r. rewrite (filter_ext_in _ (fun _ => true)).
    { induction (seq 0 (length sh)) as [|x l IH]; [reflexivity|]. cbn [filter]. now rewrite IH. }
    intros k Hk. apply in_seq in Hk.
    rewrite app_nth1 by lia. rewrite Forall_nth in H. specialize (H k 0%Z ltac:(lia)). now destruct (Z.eqb_spec (nth k sh 0%Z) 1).
  - symmetry. rewrite (filter_ext_in _ (fun _ => false)).
    + induction (seq (0 + length sh) m); auto.
    + intros k Hk. apply in_seq in Hk. rewrite app_nth2 by lia. rewrite (nth_indep _ 0%Z 1%Z) by (rewrite repeat_length; lia). rewrite nth_repeat. reflexivity.
Qed.
Lemma entries_prefix {A} (d : A) l l' : entries_at d (l ++ l') (seq 0 (length l)) = l.
Proof.
  unfold entries_at. rewrite <- (map_nth_seq d l) at 2. apply map_ext_in. intros i Hi. apply in_seq in Hi. now rewrite app_nth1 by lia.
Qed.
Lemma squeeze_atleast {V} spl (f : field V) n : consistent f -> nonempty (f_shape f) -> Forall axis_proper (f_axes f) -> f_inner f = [] ->
  (length (f_shape f) <= 3)%nat -> (n <= Z.of_nat max_dims)%Z -> Forall (fun k => k <> 1%Z) (f_shape f) ->
  exists g h, field_atleast_nd spl f n = Ok g /\ field_squeeze spl g = Ok h /\ field_same f h.
Proof.
  intros Hf Hne Hp Hi H3 Hn H1.
  destruct (atleast_total spl f n Hf Hne Hp Hi Hn) as (g & Eg & W & Gi & Gp); [unfold max_dims; lia|].
  pose proof (with_dims_consistent _ _ _ Hf W) as Gc. pose proof W as (W1 & (axs & W2 & W3 & W4) & W5 & (st & W6 & W7) & W8 & W9).
  set (m := (Z.to_nat n - length (f_shape f))%nat) in *.
  assert (Lg : long_dims (f_shape g) = seq 0 (length (f_shape f))) by (rewrite W1; now apply long_all).
  assert (Gn : nonempty (f_shape g)).
  { rewrite W1. apply Forall_app. split; [exact Hne|]. apply Forall_forall. intros x Hx. apply repeat_spec in Hx. lia. }
  destruct (squeeze_total spl g Gc Gp Gi Gn) as (h & Eh & (S1 & S2 & S3 & S4 & S5 & S6 & S7) & _); [rewrite Lg, seq_length; exact H3|].
  exists g, h. split; [exact Eg|]. split; [exact Eh|]. rewrite Lg in *. pose proof Hf as (L & _ & L2 & L3).
  unfold field_same. split; [|split; [|split; [|split; [|split; congruence]]]].
  - split.
    + change (f_shape f = f_shape h). rewrite S1, W1. symmetry. apply entries_prefix.
    + intros idx Hidx. change (in_shape (f_shape f) idx = true) in Hidx. rewrite <- (W5 idx Hidx), <- S3.
      * f_equal. pose proof (in_shape_length _ _ Hidx) as Li. rewrite <- Li. apply entries_prefix.
      * rewrite W1. clear - Hidx. revert idx Hidx. generalize (f_shape f) as sh. induction sh as [|k sh IH]; intros [|i j] Hj; try discriminate.
        { cbn [app]. clear. induction m as [|m IH]; [reflexivity|]. exact IH. }
        { cbn [app in_shape] in *. apply andb_prop in Hj as [H1 H2]. now rewrite H1, (IH j H2). }
  - rewrite W2 in S2. rewrite <- L in S2. rewrite entries_prefix in S2. exact S2.
  - rewrite S4, W6, <- L2. symmetry. apply entries_prefix.
  - rewrite S5, W7, <- L3. symmetry. apply entries_prefix.
Qed.
