(** Axes keep one more node than grid points along calm histories (C09). *)
From Coq Require Import Lia.
From Verif Require Import PyBase PyBaseFacts NumpyModel NumpyFacts AxisModel AxisSpec AxisFacts
  NdModel NdFacts FieldModel FieldSpec FieldInvFacts.

Lemma mk_axis_node spl nm un gn g ext n ax :
  mk_axis spl nm un (Some gn) g ext n = Ok ax -> ax_node ax = gn.
Proof.
  unfold mk_axis. intro H.
  apply bind_ok in H as (u1 & _ & H). apply bind_ok in H as (u2 & _ & H).
  cbn [bind] in H. apply bind_ok in H as (g' & Hg & H).
  destruct gn as [|g0 gn']; [discriminate|].
  apply bind_ok in H as (ext' & _ & H). apply bind_ok in H as (n' & Hn & H).
  now injection H as <-.
Qed.
Lemma mk_axis_ext_noded spl nm un e n ax : mk_axis spl nm un None None (Some e) (Some n) = Ok ax -> axis_noded ax.
Proof.
  intro H. split; [now apply mk_axis_counted in H|]. unfold mk_axis in H.
  apply bind_ok in H as (u1 & _ & H). apply bind_ok in H as (u2 & _ & H).
  apply bind_ok in H as (gn & Hgn & H). apply bind_ok in H as (g & Hg & H).
  destruct gn as [|g0 gn]; [discriminate|].
  apply bind_ok in H as (ext' & _ & H). apply bind_ok in H as (n' & Hn & H).
  injection H as <-. cbn [ax_node ax_grid].
  destruct (Z.eqb_spec n (Z.of_nat (length g))) as [->|]; [|discriminate].
  destruct e as [e0 e1]. apply np_linspace_ok in Hgn as [Hgn _]. cbn [length] in Hgn |- *. lia.
Qed.
Lemma set_first_length l x : length (set_first l x) = length l.
Proof. destruct l; reflexivity. Qed.
Lemma set_last_length l x : length (set_last l x) = length l.
Proof.
  destruct l as [|a l]; [reflexivity|]. unfold set_last. rewrite app_length. 
  destruct (exists_last (l := a :: l) ltac:(discriminate)) as (l' & y & E). rewrite E, removelast_last, app_length. reflexivity.
Qed.
Lemma nodes_from_grid_length spl g gn : nodes_from_grid spl g None = Ok gn -> length gn = S (length g).
Proof.
  unfold nodes_from_grid. intro H. apply bind_ok in H as (l & Hl & H).
  assert (Ll : length l = S (length g)).
  { destruct (Nat.ltb_spec 3 (length g)).
    - injection Hl as <-. cbn [length]. rewrite app_length, map_length, seq_length. cbn. lia.
    - unfold convolve_full in Hl. destruct g as [|x g]; [discriminate|]. injection Hl as <-.
      pose proof (pair_means_length (x :: g)) as Lp. cbn [length] in Lp |- *. rewrite app_length. cbn [length]. unfold pair_means in *. lia. }
  destruct g as [|g0 g]; [discriminate|]. destruct (1 <? _)%nat; injection H as <-;
    now rewrite set_last_length, set_first_length.
Qed.
Lemma mk_axis_grid_noded spl nm un g ax : mk_axis spl nm un None (Some g) None None = Ok ax -> axis_noded ax.
Proof.
  intro H. split; [now apply mk_axis_counted in H|]. unfold mk_axis in H.
  apply bind_ok in H as (u1 & _ & H). apply bind_ok in H as (u2 & _ & H).
  apply bind_ok in H as (gn & Hgn & H). apply bind_ok in H as (g' & Hg & H).
  apply bind_ok in Hg as (u3 & _ & Hg). injection Hg as <-. apply nodes_from_grid_length in Hgn.
  destruct gn as [|g0 gn]; [discriminate|].
  apply bind_ok in H as (ext' & _ & H). apply bind_ok in H as (n' & Hn & H).
  now injection H as <-.
Qed.
Lemma mk_axis_both_noded spl nm un gn g ax : length gn = S (length g) ->
  mk_axis spl nm un (Some gn) (Some g) None None = Ok ax -> axis_noded ax.
Proof.
  intros L H. split; [now apply mk_axis_counted in H|].
  rewrite (mk_axis_node _ _ _ _ _ _ _ _ H), (mk_axis_grid _ _ _ _ _ _ _ _ H). exact L.
Qed.
Lemma axis_reversed_noded spl ax r : axis_noded ax -> axis_reversed spl ax = Ok r -> axis_noded r.
Proof.
  intros [_ L]. unfold axis_reversed. rewrite !getslice_rev. cbn [bind]. apply mk_axis_both_noded.
  now rewrite !rev_length.
Qed.
Lemma take_idx_length {A} (l : list A) is : (forall i, In i is -> (0 <= i < Z.of_nat (length l))%Z) ->
  length (take_idx l is) = length is.
Proof.
  induction is as [|i is IH]; intro H; [reflexivity|]. cbn [take_idx].
  pose proof (H i (or_introl eq_refl)) as Hi.
  destruct (nth_error l (Z.to_nat i)) eqn:E; [|apply nth_error_None in E; lia].
  cbn [length]. rewrite IH; [reflexivity|]. intros j Hj. apply H. now right.
Qed.
Lemma getslice_up_length {A} (l r : list A) sl s e st : (0 < st)%Z ->
  slice_indices sl (Z.of_nat (length l)) = Ok (s, e, st) -> (0 <= s)%Z -> (e <= Z.of_nat (length l))%Z ->
  getslice l sl = Ok r -> length r = range_len s e st.
Proof.
  intros Hst Hsl Hs He H. unfold getslice in H. rewrite Hsl in H. cbn [bind] in H. injection H as <-.
  rewrite take_idx_length; [unfold py_range; now rewrite map_length, seq_length|].
  intros i Hi. unfold py_range in Hi. apply in_map_iff in Hi as (k & <- & Hk). apply in_seq in Hk.
  unfold range_len in Hk. destruct (Z.ltb_spec st 0); [lia|]. destruct (Z.ltb_spec s e); [|lia].
  assert (Z.of_nat k <= (e - s - 1) / st)%Z by lia.
  assert (Z.of_nat k * st <= e - s - 1)%Z; [|nia].
  pose proof (Z.mul_div_le (e - s - 1) st Hst). nia.
Qed.
Lemma axis_half_noded spl ax r : axis_noded ax -> axis_half_resolution spl ax = Ok r -> axis_noded r.
Proof.
  intros [_ L] H. unfold axis_half_resolution in H.
  apply bind_ok in H as (gn & Hgn & H). apply bind_ok in H as (g0 & Hg0 & H).
  apply bind_ok in H as (g1 & Hg1 & H). apply bind_ok in H as (s & Hs & H).
  revert H. apply mk_axis_both_noded. rewrite map_length.
  set (n := Z.of_nat (length (ax_grid ax))) in *.
  assert (Ln : length gn = range_len 0 (Z.of_nat (length (ax_node ax))) 2).
  { eapply getslice_up_length; [| | | |exact Hgn]; [lia|reflexivity|lia|lia]. }
  assert (L0 : length g0 = range_len 0 (Z.max 0 (n - 1)) 2).
  { eapply getslice_up_length; [| | | |exact Hg0]; [lia| |lia|lia].
    unfold slice_indices. cbn [s_start s_stop s_step Z.eqb Z.ltb Z.compare]. do 3 f_equal.
    unfold adjust_bound. fold n. cbn [Z.ltb Z.compare]. destruct (Z.ltb_spec (-1 + n) 0); lia. }
  assert (L1 : length g1 = range_len (Z.min 1 n) n 2).
  { eapply getslice_up_length; [| | | |exact Hg1]; [lia| |lia|lia].
    unfold slice_indices. cbn [s_start s_stop s_step Z.eqb Z.ltb Z.compare]. do 4 f_equal.
    unfold adjust_bound. fold n. cbn [Z.ltb Z.compare]. destruct (Z.leb_spec n 1); lia. }
  unfold range_len in *. cbn [Z.ltb Z.compare] in *.
  destruct (Z.ltb_spec 0 (Z.of_nat (length (ax_node ax)))); [|lia].
  assert (E : length g0 = length g1).
  { rewrite L0, L1. destruct (Z.ltb_spec 0 (Z.max 0 (n - 1))), (Z.ltb_spec (Z.min 1 n) n); lia. }
  rewrite np_broadcast2_same in Hs by exact E. injection Hs as <-. rewrite map2_length by exact E. rewrite Ln, L0.
  destruct (Z.ltb_spec 0 (Z.max 0 (n - 1))); lia.
Qed.
Lemma axis_slice_noded spl ax sl r : axis_noded ax -> forward (inr sl) -> axis_slice spl ax sl = Ok r -> axis_noded r.
Proof.
  intros [Hcnt Hlen] [Hstep Hst] H. destruct sl as [st sp step]. cbn [s_step s_start] in *.
  set (i := lo_bound (length (ax_grid ax)) st). set (j := hi_bound (length (ax_grid ax)) sp).
  unfold axis_slice in H.
  assert (Hok : match s_step (mkslice st sp step) with None => true | Some s => (Z.abs s =? 1)%Z end = true)
    by (simpl; destruct Hstep as [-> | ->]; reflexivity).
  rewrite Hok in H. cbn [negb] in H. rewrite getslice_fwd in H by exact Hstep. cbn [bind] in H.
  set (ns := node_slice (mkslice st sp step)) in H.
  assert (Ens : ns = mkslice (s_start ns) (s_stop ns) None) by reflexivity.
  rewrite Ens in H. rewrite getslice_fwd in H by auto. cbn [bind] in H.
  rewrite Hlen in H.
  set (len := length (ax_grid ax)) in *.
  set (lo' := lo_bound (S len) (s_start ns)) in *.
  set (hi' := hi_bound (S len) (s_stop ns)) in *.
  assert (Hne : (lo' < hi')%nat).
  { destruct (le_lt_dec hi' lo') as [Hle|Hlt]; [|exact Hlt]. exfalso.
    rewrite (sublist_empty lo' hi') in H by exact Hle. eapply mk_axis_no_nodes; exact H. }
  assert (Hhi' : (hi' <= S len)%nat) by apply hi_bound_le.
  assert (Hs : start_ok len st).
  { destruct st as [s|]; [|exact I]. simpl. split; [exact Hst|].
    destruct (Z_le_gt_dec s (Z.of_nat len)) as [|Hgt]; [assumption|]. exfalso.
    assert (lo' = S len); [|lia]. unfold lo', ns. cbn [s_start node_slice].
    destruct (Z.eqb_spec s 0); [lia|]. cbn [lo_bound]. rewrite adjust_bound_nonneg by lia. lia. }
  assert (Hlo : lo' = i).
  { unfold lo', ns. rewrite (node_slice_lo len st sp step Hs). reflexivity. }
  assert (Hhi : hi' = S j).
  { destruct (Nat.eq_dec j 0) as [Hj0|Hj0].
    - unfold j in *. destruct sp as [s|]; [|simpl in *; lia].
      unfold hi', ns in *. cbn [s_stop node_slice s_step] in *.
      destruct (Z.ltb_spec 0 s) as [Hs0|Hs0].
      + cbn [hi_bound] in Hj0. rewrite adjust_bound_nonneg in Hj0 by lia.
        cbn [hi_bound] in *.
        replace (match step with Some st0 => if (st0 =? -1)%Z then (-1)%Z else 1%Z | None => 1%Z end)
          with 1%Z in * by (destruct Hstep as [-> | ->]; reflexivity).
        rewrite (adjust_bound_nonneg len) by lia. rewrite (adjust_bound_nonneg (S len)) by lia. lia.
      + destruct (Z.eq_dec s 0) as [->|Hsn].
        * cbn [hi_bound] in *. rewrite !adjust_bound_nonneg in * by lia. lia.
        * cbn [hi_bound] in *. rewrite (adjust_bound_negv len) in Hj0 by lia.
          rewrite (adjust_bound_negv (S len)) in * by lia.
          rewrite (adjust_bound_negv len) by lia. lia.
    - unfold hi', ns. rewrite (node_slice_hi len st sp step Hstep); [reflexivity|].
      fold j. lia. }
  rewrite Hlo, Hhi in H. revert H. apply mk_axis_both_noded.
  rewrite !sublist_length; [lia| |rewrite Hlen; unfold j]; pose proof (hi_bound_le len sp); fold len; lia.
Qed.

Lemma sub_axes_noded spl axes sls subs : Forall axis_noded axes -> Forall forward sls ->
  mapM (sub_axis spl) (combine axes sls) = Ok subs -> Forall axis_noded (somes subs).
Proof.
  intros Hn Hf H. apply mapM_ok in H. revert sls subs Hf H. induction Hn as [|ax axes Hax Hn IH]; intros sls subs Hf H.
  - cbn in H. inversion H. constructor.
  - destruct Hf as [|k sls Hk Hf]; cbn [combine] in H; inversion H as [|? s ? ss Hs Hss]; subst; [constructor|].
    unfold sub_axis in Hs. cbn [fst snd] in Hs. destruct k as [i|sl].
    + destruct (getidx (ax_grid ax) i); [|discriminate]. cbn in Hs. injection Hs as <-. exact (IH _ _ Hf Hss).
    + destruct (axis_slice spl ax sl) eqn:E; [|discriminate]. cbn in Hs. injection Hs as <-.
      constructor; [now apply axis_slice_noded in E|exact (IH _ _ Hf Hss)].
Qed.
Lemma getitem_noded {V} spl (f g : field V) keys : consistent f -> Forall axis_noded (f_axes f) ->
  forward_keys (f_axes f) keys -> field_getitem spl f keys = Ok g -> Forall axis_noded (f_axes g).
Proof.
  intros Hf Hn Hk H. unfold field_getitem in H. apply bind_ok in H as (sls & Hsl & H).
  apply bind_ok in H as ((ls & b) & Hd & H). destruct ls as [|l ls]; [discriminate|]. injection H as <-.
  destruct Hf as (L & _). pose proof (normalize_slices_length _ _ _ _ L Hsl) as Ls.
  apply data_getitem_top in Hd as (_ & _ & _ & _ & (subs & Hs & Ha & _) & _); [|exact L|exact Ls].
  unfold f_axes. cbn [f_top]. rewrite Ha. eapply sub_axes_noded; [exact Hn| |exact Hs].
  unfold normalize_slices in Hsl. destruct (negb _); [discriminate|]. apply mapM_ok in Hsl.
  clear -Hsl Hk. unfold forward_keys in Hk. induction Hsl as [|[ax key] k l sls Hx Hsl IH]; [constructor|].
  constructor; [eapply Hk; [left; reflexivity|exact Hx]|]. apply IH. intros ax' key' k' Hin. apply Hk. now right.
Qed.
Lemma key_of_slice_norm ax sl : normalize_slice ax (key_of_slice sl) = Ok (inr sl).
Proof. destruct sl as [[s|] [e|] st]; reflexivity. Qed.
Lemma forward_slices (axes : list axis) sls : Forall (fun sl => forward (inr sl)) sls ->
  forward_keys axes (map key_of_slice sls).
Proof.
  intros H ax key k Hin Hk. apply in_combine_r in Hin. apply in_map_iff in Hin as (sl & <- & Hin).
  rewrite key_of_slice_norm in Hk. injection Hk as <-. rewrite Forall_forall in H. auto.
Qed.
Lemma full_forward : forward (inr full_slice).
Proof. split; [now left|exact I]. Qed.
Lemma squeeze_noded {V} spl (f g : field V) : consistent f -> Forall axis_noded (f_axes f) ->
  field_squeeze spl f = Ok g -> Forall axis_noded (f_axes g).
Proof.
  intros Hf Hn H. unfold field_squeeze in H. apply bind_ok in H as (ones & _ & H).
  apply bind_ok in H as (ret & Hr & H). destruct (idx_eqb _ _); [|discriminate]. injection H as <-.
  apply getitem_noded in Hr; auto. intros ax key k Hin Hk. apply in_combine_r in Hin.
  apply in_map_iff in Hin as (b & <- & _). destruct b.
  - cbn in Hk. injection Hk as <-. exact I.
  - rewrite key_of_slice_norm in Hk. injection Hk as <-. exact full_forward.
Qed.
Lemma permuted_all {A} (P : A -> Prop) d p l : (forall k, In k p -> (k < length l)%nat) -> Forall P l -> Forall P (permute d p l).
Proof.
  intros Hb H. apply Forall_forall. intros x Hx. apply in_map_iff in Hx as (k & <- & Hk).
  rewrite Forall_forall in H. apply H, nth_In. now apply Hb.
Qed.
Lemma transpose_noded {V} (f g : field V) axes : consistent f -> Forall axis_noded (f_axes f) ->
  field_transpose f axes = Ok g -> Forall axis_noded (f_axes g).
Proof.
  intros Hf Hn H. assert (exists l, field_transpose f (Some l) = Ok g) as (l & Hl)
    by (destruct axes as [l|]; [|rewrite transpose_none in H]; eauto).
  apply transpose_ok in Hl as (p & (Pl & _ & Pb) & _ & _ & Ha & _); [|exact Hf].
  rewrite (Ha axis0). apply permuted_all; [|exact Hn]. destruct Hf as (L & _). rewrite L. exact Pb.
Qed.
Lemma flip_noded {V} spl (f g : field V) a : Forall axis_noded (f_axes f) ->
  field_flip spl f a = Ok g -> Forall axis_noded (f_axes g).
Proof.
  intros Hn H. apply flip_parts in H as (p & h & ax & ax' & _ & _ & _ & Hax & Hr & Hset & _).
  apply setidx_ok in Hset as (k & _ & ->). apply Forall_upd; [exact Hn|].
  apply axis_reversed_noded in Hr; [exact Hr|]. apply getidx_some in Hax as (k' & _ & Hax).
  rewrite Forall_forall in Hn. eapply Hn, nth_error_In, Hax.
Qed.
Lemma rot90_noded {V} spl (f g : field V) k a b : inv f -> Forall axis_noded (f_axes f) ->
  field_rot90 spl f k a b = Ok g -> Forall axis_noded (f_axes g).
Proof.
  intros Hf Hn. unfold field_rot90. destruct (a =? b)%Z; [discriminate|].
  destruct (_ || _)%Z; [discriminate|]. destruct (_ =? 0)%Z; [intros [= <-]; exact Hn|].
  destruct (_ =? 2)%Z.
  - intro H. apply bind_ok in H as (h & Hh & H). apply flip_noded in H; [exact H|]. now apply flip_noded in Hh.
  - intro H. apply bind_ok in H as (x0 & _ & H). apply bind_ok in H as (x1 & _ & H).
    apply bind_ok in H as (l & _ & H). apply bind_ok in H as (l' & _ & H).
    unfold field_transpose_seq in H. destruct (_ =? 1)%Z; apply bind_ok in H as (h & Hh & H).
    + destruct (dims _ =? 1)%Z in H; [discriminate|]. apply transpose_noded in H; [exact H| |].
      * now apply flip_inv in Hh as [Hh _].
      * now apply flip_noded in Hh.
    + destruct (dims _ =? 1)%Z in Hh; [discriminate|]. apply flip_noded in H; [exact H|].
      apply transpose_noded in Hh; [exact Hh|apply Hf|exact Hn].
Qed.
Lemma add_dims_noded {V} spl st k : forall (f g : field V), Forall axis_noded (f_axes f) ->
  add_dims spl st k f = Ok g -> Forall axis_noded (f_axes g).
Proof.
  induction k as [|k IH]; intros f g Hf H; cbn [add_dims] in H; [now injection H as <-|].
  destruct (_ && _); [discriminate|]. destruct (max_dims <=? _)%nat; [discriminate|].
  apply bind_ok in H as (ax & Hax & H). revert H. apply IH.
  destruct (mk_unit_axis spl) as (ax' & E & E2). rewrite E in Hax. injection Hax as <-.
  unfold f_axes. cbn [f_top l_axes]. apply Forall_app. split; [exact Hf|]. constructor; [|constructor].
  rewrite E2. split; reflexivity.
Qed.
Lemma field_of_axes_noded {V} (a : nda V) nm un axes ats tao f :
  Forall axis_noded axes -> field_of a nm un (map Some axes) ats tao = Ok f -> Forall axis_noded (f_axes f).
Proof. intros Hn H. apply field_of_ok in H as (_ & _ & H & _). apply map_Some_inj in H. now rewrite <- H. Qed.
Lemma shrink_axes_noded spl is : forall axes r, Forall axis_noded axes -> shrink_axes spl axes is = Ok r -> Forall axis_noded r.
Proof.
  induction is as [|i is IH]; intros axes r Hc H; cbn [shrink_axes] in H; [injection H as <-; auto|].
  apply bind_ok in H as (ax & Hax & H). apply bind_ok in H as (ax' & Hax' & H).
  apply bind_ok in H as (axes' & Hs & H). apply setidx_ok in Hs as (k & _ & ->). apply IH in H; [exact H|].
  apply Forall_upd; [exact Hc|]. now apply mk_axis_ext_noded in Hax'.
Qed.
Lemma del_all_Forall {A} (P : A -> Prop) l is r : Forall P l -> del_all l is = Ok r -> Forall P r.
Proof.
  intros H Hd. apply Forall_forall. intros x Hx. rewrite Forall_forall in H. apply H. now apply (del_all_incl _ _ _ Hd).
Qed.
Lemma reduce_noded {V} spl red (f g : field V) ax kd : Forall axis_noded (f_axes f) ->
  field_reduce spl red f ax kd = Ok g -> Forall axis_noded (f_axes g).
Proof.
  intros Hn H. unfold field_reduce in H. apply bind_ok in H as (((axes & ats) & tao) & Ha & H).
  apply bind_ok in H as (o & _ & H). apply field_of_axes_noded in H; [exact H|]. destruct kd.
  - apply bind_ok in Ha as (axes' & Hs & Ha). injection Ha as <- <- <-. now apply shrink_axes_noded in Hs.
  - apply bind_ok in Ha as (axes' & E1 & Ha). apply bind_ok in Ha as (tao' & E2 & Ha).
    apply bind_ok in Ha as (ats' & E3 & Ha). injection Ha as <- <- <-. eapply del_all_Forall; [exact Hn|exact E1].
Qed.

Definition e_noded (e : entry) : Prop := match e_axis e with Some ax => axis_noded ax | None => True end.
Lemma layer_entries_noded l es : Forall axis_noded (l_axes l) -> layer_entries l = Ok es -> Forall e_noded es.
Proof.
  intros Hc H. apply zip3_ok in H as (H & _). apply Forall_forall. intros e He.
  assert (Hin0 : In (e_axis e) (map e_axis es)) by (now apply in_map). rewrite H in Hin0.
  apply in_map_iff in Hin0 as (ax & Hax & Hin). unfold e_noded. rewrite <- Hax. rewrite Forall_forall in Hc. auto.
Qed.
Lemma plain_entries_noded n : Forall e_noded (plain_entries n).
Proof. unfold plain_entries. induction n; constructor; auto. exact I. Qed.
Lemma combine_entry_noded e1 e2 e : combine_entry e1 e2 = Ok e -> e_noded e1 -> e_noded e2 -> e_noded e.
Proof.
  destruct e1 as [[a1 s1] t1], e2 as [[a2 s2] t2]. unfold combine_entry.
  destruct a1 as [x1|], a2 as [x2|]; try (intros [= <-]; auto; fail).
  destruct (ax_len x1 =? ax_len x2)%Z; [destruct t2; intros [= <-]; auto|].
  destruct (ax_len x1 =? 1)%Z; [intros [= <-]; auto|].
  destruct (ax_len x2 =? 1)%Z; [intros [= <-]; auto|discriminate].
Qed.
Lemma combine_rev_noded l1 : forall l2 r, combine_rev l1 l2 = Ok r -> Forall e_noded l1 -> Forall e_noded l2 -> Forall e_noded r.
Proof.
  induction l1 as [|e1 l1 IH]; intros [|e2 l2] r H H1 H2; cbn [combine_rev] in H; try (injection H as <-; auto; fail).
  apply bind_ok in H as (e & He & H). apply bind_ok in H as (r' & Hr & H). injection H as <-.
  inversion H1; inversion H2; subst. constructor; [now apply combine_entry_noded in He|]. now apply IH in Hr.
Qed.
Lemma combine_entries_noded l1 l2 r : combine_entries l1 l2 = Ok r -> Forall e_noded l1 -> Forall e_noded l2 -> Forall e_noded r.
Proof.
  unfold combine_entries. destruct (combine_rev (rev l1) (rev l2)) as [r'|] eqn:E; [|discriminate].
  intros [= <-] H1 H2. apply Forall_rev. eapply combine_rev_noded; [exact E|now apply Forall_rev|now apply Forall_rev].
Qed.
Definition layer_noded (l : option layer) : Prop :=
  match l with Some l => Forall axis_noded (l_axes l) | None => True end.
Lemma wrap_op2_noded {A B C} (op : A -> B -> C) ta tb la lb a b f :
  layer_noded ta -> layer_noded tb -> wrap_op2 op ta tb la lb a b = Ok f -> Forall axis_noded (f_axes f).
Proof.
  intros Ha Hb H. unfold wrap_op2 in H. apply bind_ok in H as (es & Hes & H).
  apply bind_ok in H as (c & _ & H).
  assert (Hn : Forall e_noded es).
  { unfold op2_entries in Hes. destruct ta as [l|], tb as [m|]; cbn [layer_noded] in *.
    - apply bind_ok in Hes as (e1 & E1 & Hes). apply bind_ok in Hes as (e2 & E2 & Hes).
      exact (combine_entries_noded _ _ _ Hes (layer_entries_noded _ _ Ha E1) (layer_entries_noded _ _ Hb E2)).
    - apply bind_ok in Hes as (e1 & E1 & Hes).
      exact (combine_entries_noded _ _ _ Hes (layer_entries_noded _ _ Ha E1) (plain_entries_noded _)).
    - apply bind_ok in Hes as (e1 & E1 & Hes).
      exact (combine_entries_noded _ _ _ Hes (layer_entries_noded _ _ Hb E1) (plain_entries_noded _)).
    - injection Hes as <-. constructor. }
  apply field_of_ok in H as (_ & _ & H & _). apply Forall_forall. intros ax Hax.
  assert (Hin0 : In (Some ax) (map e_axis es))
    by exact (eq_ind_r (fun l => In (Some ax) l) (in_map Some _ _ Hax) H).
  apply in_map_iff in Hin0 as (e & He & Hin). rewrite Forall_forall in Hn. specialize (Hn e Hin).
  unfold e_noded in Hn. now rewrite He in Hn.
Qed.
Lemma half_noded spl f a g : inv f -> few_dims f -> Forall axis_noded (f_axes f) ->
  field_half_resolution spl f a = Ok g -> Forall axis_noded (f_axes g).
Proof.
  intros Hi Hfew Hn H. apply half_ok in H as (k & m & ax & ax' & _ & _ & _ & _ & _ & Hax & Hh & Ha & _); auto.
  rewrite Ha. apply Forall_upd; [exact Hn|]. apply axis_half_noded in Hh; [exact Hh|].
  rewrite Forall_forall in Hn. eapply Hn, nth_error_In, Hax.
Qed.
Lemma pad_axis_noded spl ax p r : axis_noded ax -> pad_axis spl ax p = Ok r -> axis_noded (snd r).
Proof.
  intros Hn H. unfold pad_axis in H. apply bind_ok in H as (dx & _ & H).
  apply bind_ok in H as (p0 & _ & H). apply bind_ok in H as (p1 & _ & H).
  destruct (_ =? 0)%Z; [now injection H as <-|].
  destruct (ax_extent ax) as [e0 e1]. apply bind_ok in H as (ax' & Hax & H). injection H as <-.
  now apply mk_axis_ext_noded in Hax.
Qed.
Lemma pad_noded {V} spl c (f g : field V) p : consistent f -> Forall axis_noded (f_axes f) ->
  field_pad spl c f p = Ok g -> Forall axis_noded (f_axes g).
Proof.
  intros Hf Hn H. apply field_pad_parts in H as (l & r & _ & _ & _ & Hr & _ & _ & _ & _ & Ag & _); [|exact Hf].
  rewrite Ag. apply Forall_forall. intros ax Hax. apply in_map_iff in Hax as (q & <- & Hq).
  apply mapM_ok in Hr. apply In_nth_error in Hq as (k & Hq).
  destruct (Forall2_nth_error_r _ _ _ _ _ Hr Hq) as ((ax & w) & Hin & Hp). cbn [fst snd] in Hp.
  apply pad_axis_noded in Hp; [exact Hp|]. apply nth_error_In in Hin. apply in_combine_l in Hin.
  rewrite Forall_forall in Hn. now apply Hn.
Qed.
Lemma cutout_bounds_forward prof fr e ff b c : cutout_bounds prof fr = Ok (e, ff, (b, c)) -> (0 <= e)%Z.
Proof.
  unfold cutout_bounds. intro H. apply bind_ok in H as ((a0 & d0) & _ & H).
  apply bind_ok in H as ((b0 & c0) & Hbc & H). destruct (negb _); [discriminate|]. injection H as <- <- <- <-.
  unfold max_frac_bounds in Hbc. apply bind_ok in Hbc as (m & _ & Hbc).
  destruct (filter _ _) as [|x l]; [discriminate|]. injection Hbc as <- <-. lia.
Qed.
Lemma cutout_slices_forward spl fr f axes : forall slices r ws,
  Forall (fun sl => forward (inr sl)) slices -> cutout_slices spl fr f axes slices = Ok (r, ws) ->
  Forall (fun sl => forward (inr sl)) r.
Proof.
  induction axes as [|a axes IH]; intros slices r ws Hs H; cbn [cutout_slices] in H; [now injection H as <- <-|].
  apply bind_ok in H as (fm & _ & H). apply bind_ok in H as (fm' & _ & H). apply bind_ok in H as (prof & _ & H).
  apply bind_ok in H as (((e & ff) & (b & c)) & Hb & H). apply bind_ok in H as (sl' & Hset & H).
  apply bind_ok in H as ((sl & ws') & Hr & H). injection H as <- <-.
  apply IH in Hr; [exact Hr|]. apply setidx_ok in Hset as (k & _ & ->). apply Forall_upd; [exact Hs|].
  split; [now left|]. cbn [s_start]. now apply cutout_bounds_forward in Hb.
Qed.

Lemma apply_op_noded spl f o g : inv f -> few_dims f -> Forall axis_noded (f_axes f) -> calm f o ->
  apply_op spl f o = Ok g -> Forall axis_noded (f_axes g).
Proof.
  intros Hi Hfew Hn Hcalm H. pose proof Hi as [Hf Hc].
  destruct o; cbn [apply_op calm] in *.
  - now apply getitem_noded in H.
  - unfold field_cutout in H. destruct (negb _); [discriminate|]. apply bind_ok in H as (sls & Hs & H).
    apply getitem_noded in H; auto. apply forward_slices. apply mapM_ok in Hs. unfold forward_extents in Hcalm.
    clear -Hs Hcalm. induction Hs as [|[ax e] sl l sls Hx Hs IH]; [constructor|].
    constructor; [eapply Hcalm; [left; reflexivity|exact Hx]|]. apply IH. intros ax' e' sl' Hin. apply Hcalm. now right.
  - now apply transpose_noded in H.
  - unfold field_swapaxes in H. apply bind_ok in H as (l & _ & H). apply bind_ok in H as (l' & _ & H).
    now apply transpose_noded in H.
  - now apply flip_noded in H.
  - now apply rot90_noded in H.
  - now apply squeeze_noded in H.
  - unfold field_atleast_nd in H. destruct (_ <=? _)%Z; [injection H as <-; exact Hn|].
    apply bind_ok in H as (st & _ & H). now apply add_dims_noded in H.
  - now apply reduce_noded in H.
  - unfold field_ufunc_reduce in H. apply bind_ok in H as (axes & E1 & H). apply bind_ok in H as (ats & _ & H).
    apply bind_ok in H as (tao & _ & H). apply bind_ok in H as (o & _ & H).
    apply field_of_axes_noded in H; [exact H|]. eapply del_all_Forall; [exact Hn|exact E1].
  - now apply half_noded in H.
  - unfold field_autoreduce in H.
    refine (proj2 (reduce_axes_ok (fun x => (inv x /\ few_dims x) /\ Forall axis_noded (f_axes x)) spl maxlen fuel
                            _ _ f g (conj (conj Hi Hfew) Hn) H)).
    intros i x y [[Hx Hfx] Hnx] Hh. split; [split|].
    + eapply half_inv; eauto.
    + eapply half_few; eauto.
    + eapply half_noded; eauto.
  - now apply pad_noded in H.
  - apply field_of_axes_noded in H; [exact H|exact Hn].
  - now apply wrap_op2_noded in H.
  - now apply wrap_op2_noded in H.
  - unfold integrate_constant in H. apply bind_ok in H as (r & Hr & H). apply reduce_noded in H; [exact H|].
    refine (times_boxes_ok (fun x => Forall axis_noded (f_axes x)) f _ _ f r Hn Hr).
    intros x b y Hx Hy. now apply wrap_op2_noded in Hy.
  - unfold integrate_fast in H. apply bind_ok in H as (u & _ & H).
    refine (proj2 (fast_loop_ok (fun x => inv x /\ Forall axis_noded (f_axes x)) _ _ _ f g (conj Hi Hn) H)).
    intros x a y [Hx Hnx] Hs. pose proof (fast_step_inv _ _ _ Hx Hs) as [Hy _]. split; [exact Hy|].
    apply fast_step_ok in Hs as (k & ax & _ & _ & _ & _ & _ & Ha & _); [|exact Hx]. rewrite Ha. now apply Forall_del.
  - unfold derivative_stagger in H.
    apply bind_ok in H as (oax & Hoax & H). apply bind_ok in H as (lin & _ & H).
    destruct (negb lin); [discriminate|]. apply bind_ok in H as (gg & Hgg & H).
    apply bind_ok in H as (ax & Hax & H). apply bind_ok in H as (axes & Hset & H).
    apply bind_ok in H as (i1 & _ & H). apply bind_ok in H as (i2 & _ & H).
    apply bind_ok in H as (d1 & _ & H). apply bind_ok in H as (d2 & _ & H).
    apply bind_ok in H as (dx & _ & H). apply bind_ok in H as (m & _ & H).
    apply setidx_ok in Hset as (k & _ & Hset). apply field_of_axes_noded in H; [exact H|].
    rewrite Hset. apply Forall_upd; [exact Hn|]. now apply mk_axis_grid_noded in Hax.
  - apply map_grid_parts in H as (k & ax & ax' & _ & Hax & Hm & Ha & _); [|exact Hi].
    rewrite Ha. apply Forall_upd; [exact Hn|]. apply mk_axis_both_noded in Hm; [exact Hm|].
    rewrite !map_length. rewrite Forall_forall in Hn. apply (Hn ax). eapply nth_error_In, Hax.
  - now apply wrap_op2_noded in H.
  - apply field_of_axes_noded in H; [exact H|]. apply Forall_app. auto.
  - unfold field_fft_autopad in H. apply bind_ok in H as (l & _ & H). now apply pad_noded in H.
  - apply autocutout_parts in H as (s & h & sls & ws & Hs & Hsl & Hh & _ & _ & Tg & _).
    pose proof (squeeze_noded _ _ _ Hf Hn Hs) as Hns. pose proof (squeeze_inv _ _ _ Hi Hs) as [Hsc _].
    unfold f_axes. rewrite Tg. change (l_axes (f_top h)) with (f_axes h).
    apply getitem_noded in Hh; auto. apply forward_slices. apply cutout_slices_forward in Hsl; [exact Hsl|].
    apply Forall_forall. intros x Hx. apply repeat_spec in Hx. subst x. exact full_forward.
Qed.
Lemma run_ops_calm spl ops : forall f g, inv f -> few_dims f -> Forall axis_noded (f_axes f) ->
  Forall operand_ok ops -> calm_history spl f ops ->
  run_ops spl f ops = Ok g -> inv g /\ few_dims g /\ Forall axis_noded (f_axes g).
Proof.
  induction ops as [|o ops IH]; intros f g Hf Hfew Hn Ho Hc H; cbn [run_ops] in H; [injection H as <-; auto|].
  apply bind_ok in H as (h & Hh & H). inversion Ho; subst. destruct Hc as [Hc Hrest]. specialize (Hrest h Hh).
  pose proof (apply_op_noded _ _ _ _ Hf Hfew Hn Hc Hh) as Hnh.
  apply apply_op_inv in Hh as [H1' H2']; auto. now apply (IH h g).
Qed.
