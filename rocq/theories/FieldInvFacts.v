(** Consistency of matrix, axes and per-axis lists (C09). *)
From Coq Require Import Lia.
From Verif Require Import PyBase PyBaseFacts NumpyModel NumpyFacts AxisModel AxisSpec AxisFacts
  NdModel NdFacts FieldModel FieldSpec.

Lemma mk_axis_counted spl nm un gn g ext n ax :
  mk_axis spl nm un gn g ext n = Ok ax -> axis_counted ax.
Proof.
  unfold mk_axis. intro H.
  apply bind_ok in H as (u1 & _ & H). apply bind_ok in H as (u2 & _ & H).
  apply bind_ok in H as (gn' & _ & H). apply bind_ok in H as (g' & _ & H).
  destruct gn' as [|g0 gn']; [discriminate|].
  apply bind_ok in H as (ext' & _ & H). apply bind_ok in H as (n' & Hn & H).
  injection H as <-. unfold axis_counted, ax_len. cbn [ax_n ax_grid].
  destruct n as [n|].
  - destruct (Z.eqb_spec n (Z.of_nat (length g'))); [|discriminate]. injection Hn as <-. assumption.
  - now injection Hn as <-.
Qed.
Lemma axis_slice_counted spl ax sl r : axis_slice spl ax sl = Ok r -> axis_counted r.
Proof.
  unfold axis_slice. destruct (negb _); [discriminate|]. intro H.
  apply bind_ok in H as (g & _ & H). apply bind_ok in H as (gn & _ & H).
  now apply mk_axis_counted in H.
Qed.
Lemma axis_half_counted spl ax r : axis_half_resolution spl ax = Ok r -> axis_counted r.
Proof.
  unfold axis_half_resolution. intro H.
  apply bind_ok in H as (gn & _ & H). apply bind_ok in H as (g0 & _ & H).
  apply bind_ok in H as (g1 & _ & H). apply bind_ok in H as (s & _ & H).
  now apply mk_axis_counted in H.
Qed.
Lemma mk_axis_grid spl nm un gn g ext n ax :
  mk_axis spl nm un gn (Some g) ext n = Ok ax -> ax_grid ax = g.
Proof.
  unfold mk_axis. intro H.
  apply bind_ok in H as (u1 & _ & H). apply bind_ok in H as (u2 & _ & H).
  apply bind_ok in H as (gn' & _ & H). apply bind_ok in H as (g' & Hg & H).
  apply bind_ok in Hg as (u3 & _ & Hg). injection Hg as <-.
  destruct gn' as [|g0 gn']; [discriminate|].
  apply bind_ok in H as (ext' & _ & H). apply bind_ok in H as (n' & Hn & H).
  now injection H as <-.
Qed.
Lemma axis_reversed_len spl ax r : axis_counted ax -> axis_reversed spl ax = Ok r -> ax_len r = ax_len ax.
Proof.
  unfold axis_reversed. rewrite !getslice_rev. cbn [bind]. intros C H.
  pose proof (mk_axis_counted _ _ _ _ _ _ _ _ H) as C'. apply mk_axis_grid in H.
  unfold axis_counted in *. rewrite C', C, H. now rewrite rev_length.
Qed.
Lemma axis_reversed_counted spl ax r : axis_reversed spl ax = Ok r -> axis_counted r.
Proof.
  unfold axis_reversed. rewrite !getslice_rev. cbn [bind]. intros H.
  now apply mk_axis_counted in H.
Qed.

(** * Fields made by the constructor *)
Lemma axesidentify_small i : (0 <= i)%Z -> (i < 90)%Z -> axesidentify i = Ok i -> (i mod 90 = i)%Z /\ (i < 3)%Z.
Proof.
  intros H0 H1. unfold axesidentify.
  destruct (_ || _)%Z eqn:E; [|discriminate]. intros _. rewrite Z.mod_small by lia.
  rewrite !orb_true_iff, !Z.eqb_eq in E. lia.
Qed.
Lemma axesidentify_ok i j : axesidentify i = Ok j ->
  j = i /\ (i = 0 \/ i = 1 \/ i = 2 \/ i = 90 \/ i = 91)%Z.
Proof.
  unfold axesidentify. destruct (_ || _)%Z eqn:E; [|discriminate]. intros [= <-].
  rewrite !orb_true_iff, !Z.eqb_eq in E. split; [reflexivity|tauto].
Qed.
(** indices counted up from 0 stop at 3 *)
Lemma axesidentify_3 : axesidentify 3 = Err KeyError.
Proof. reflexivity. Qed.

Lemma init_axes_ok sh axs : forall i axes, (0 <= i <= 3)%Z -> init_axes sh i axs = Ok axes ->
  axs = map Some axes /\
  forall k ax, nth_error axes k = Some ax -> nth_error sh (Z.to_nat i + k) = Some (ax_len ax).
Proof.
  induction axs as [|a axs IH]; intros i axes Hi H; cbn [init_axes] in H.
  - injection H as <-. split; [reflexivity|]. intros [|k] ax E; discriminate.
  - apply bind_ok in H as (id & Hid & H). apply axesidentify_ok in Hid as [-> Hid].
    assert (Hm : (i mod 90)%Z = i) by (apply Z.mod_small; lia). rewrite Hm in H.
    destruct a as [ax|]; [|discriminate].
    apply bind_ok in H as (n & Hn & H).
    destruct (Z.eqb_spec (ax_len ax) n) as [E|E]; [|discriminate].
    apply bind_ok in H as (r & Hr & H). injection H as <-.
    destruct (IH (i + 1)%Z r) as [H1 H2]; [lia|exact Hr|].
    split; [now rewrite H1|]. apply getidx_some in Hn as (k0 & Hk0 & Hn).
    apply py_pos_ok in Hk0.
    intros [|k] ax' Hax; cbn [nth_error] in Hax.
    + injection Hax as <-. rewrite Nat.add_0_r. rewrite E. replace (Z.to_nat i) with k0 by lia. exact Hn.
    + specialize (H2 k ax' Hax). replace (Z.to_nat (i + 1) + k)%nat with (Z.to_nat i + S k)%nat in H2 by lia.
      exact H2.
Qed.

Definition inv {V} (f : field V) : Prop := consistent f /\ Forall axis_counted (f_axes f).

Lemma lengths_consistent {V} (f : field V) :
  length (f_axes f) = length (f_shape f) ->
  (forall k ax, nth_error (f_axes f) k = Some ax -> nth_error (f_shape f) k = Some (ax_len ax)) ->
  length (f_ats f) = length (f_shape f) -> length (f_tao f) = length (f_shape f) -> consistent f.
Proof.
  intros H1 H2 H3 H4. split; [exact H1|]. split; [|split; assumption].
  intros k ax n Hax Hn. specialize (H2 k ax Hax). congruence.
Qed.
Lemma consistent_map {V} (f : field V) : consistent f -> map ax_len (f_axes f) = f_shape f.
Proof.
  intros (H1 & H2 & _). apply nth_error_ext. intro k. rewrite nth_error_map.
  destruct (nth_error (f_axes f) k) as [ax|] eqn:E; cbn [option_map].
  - destruct (nth_error (f_shape f) k) as [n|] eqn:E2.
    + f_equal. now apply (H2 k).
    + exfalso. assert (k < length (f_axes f))%nat by (apply nth_error_Some; congruence).
      apply nth_error_None in E2. lia.
  - symmetry. apply nth_error_None. apply nth_error_None in E. lia.
Qed.
Lemma map_consistent {V} (f : field V) :
  map ax_len (f_axes f) = f_shape f ->
  length (f_ats f) = length (f_shape f) -> length (f_tao f) = length (f_shape f) -> consistent f.
Proof.
  intros H. apply lengths_consistent.
  - rewrite <- H. now rewrite map_length.
  - intros k ax E. rewrite <- H, nth_error_map, E. reflexivity.
Qed.

Lemma field_of_ok {V} (a : nda V) nm un axs ats tao f :
  field_of a nm un axs ats tao = Ok f ->
  f_data f = a /\ f_inner f = [] /\ axs = map Some (f_axes f) /\ map ax_len (f_axes f) = a_shape a /\
  f_ats f = ats /\ f_tao f = tao /\ l_name (f_top f) = nm /\ l_unit (f_top f) = un.
Proof.
  unfold field_of. destruct (Nat.ltb_spec (length axs) (length (a_shape a))) as [|L]; [discriminate|].
  intro H. apply bind_ok in H as (axes & Ha & H). injection H as <-.
  apply init_axes_ok in Ha as [-> Ha]; [|lia].
  cbn [f_data f_inner f_top f_axes l_axes f_ats l_ats f_tao l_tao l_name l_unit].
  unfold f_axes, f_ats, f_tao. cbn [f_top l_axes l_ats l_tao].
  repeat split. rewrite map_length in L. change (Z.to_nat 0) with 0%nat in Ha. cbn [Nat.add] in Ha.
  apply nth_error_ext. intro k. rewrite nth_error_map.
  destruct (nth_error axes k) as [ax|] eqn:E; cbn [option_map].
  - symmetry. now apply Ha.
  - symmetry. apply nth_error_None. apply nth_error_None in E. lia.
Qed.
Lemma field_of_consistent {V} (a : nda V) nm un axs ats tao f :
  length ats = length axs -> length tao = length axs ->
  field_of a nm un axs ats tao = Ok f -> consistent f.
Proof.
  intros L1 L2 H. apply field_of_ok in H as (H1 & _ & H3 & H4 & H5 & H6 & _).
  apply map_consistent; unfold f_shape; rewrite H1; [exact H4|..].
  - rewrite H5, L1, H3, map_length, <- H4, map_length. reflexivity.
  - rewrite H6, L2, H3, map_length, <- H4, map_length. reflexivity.
Qed.
Lemma map_Some_inj {A} (l m : list A) : map Some l = map Some m -> l = m.
Proof.
  revert m; induction l as [|x l IH]; intros [|y m] H; try discriminate; [reflexivity|].
  cbn in H. injection H as <- H. f_equal. now apply IH.
Qed.

(** * Indexing *)
Lemma setaxisobj_ok axes sh i ax r : (0 <= i <= 3)%Z -> setaxisobj axes sh i ax = Ok r ->
  (i < 3)%Z /\ (Z.to_nat i < length axes)%nat /\ r = upd axes (Z.to_nat i) ax /\
  nth_error sh (Z.to_nat i) = Some (ax_len ax).
Proof.
  intros Hi. unfold setaxisobj. intro H. apply bind_ok in H as (id & Hid & H).
  apply axesidentify_ok in Hid as [-> Hid]. rewrite Z.mod_small in H by lia.
  apply bind_ok in H as (n & Hn & H). destruct (Z.eqb_spec (ax_len ax) n) as [E|]; [|discriminate].
  apply setidx_ok in H as (k & Hk & ->). apply getidx_some in Hn as (k' & Hk' & Hn).
  apply py_pos_ok in Hk. apply py_pos_ok in Hk'.
  assert (k = Z.to_nat i) as -> by lia. assert (k' = Z.to_nat i) as -> by lia.
  split; [lia|]. split; [lia|]. split; [reflexivity|]. now rewrite Hn, E.
Qed.
Lemma set_axes_ok sh news : forall axes i r, (0 <= i <= 3)%Z -> set_axes axes sh i news = Ok r ->
  length r = length axes /\
  (forall k, (k < Z.to_nat i)%nat -> nth_error r k = nth_error axes k) /\
  (forall k ax, nth_error news k = Some ax ->
     nth_error r (Z.to_nat i + k) = Some ax /\ nth_error sh (Z.to_nat i + k) = Some (ax_len ax)) /\
  (forall k, (Z.to_nat i + length news <= k)%nat -> nth_error r k = nth_error axes k).
Proof.
  induction news as [|a news IH]; intros axes i r Hi H; cbn [set_axes] in H.
  - injection H as <-. repeat split; auto. all: destruct k; discriminate.
  - apply bind_ok in H as (axes' & Hs & H). apply setaxisobj_ok in Hs as (H3 & Hlt & -> & Hsh); [|exact Hi].
    apply IH in H as (L & Hlo & Hk & Hhi); [|lia]. rewrite upd_length in L.
    assert (Z.to_nat (i + 1) = S (Z.to_nat i)) as E by lia. rewrite E in *.
    split; [exact L|]. split; [|split].
    + intros k Hk'. rewrite Hlo by lia. rewrite nth_error_upd.
      destruct (Nat.eqb_spec k (Z.to_nat i)); [lia|reflexivity].
    + intros [|k] ax Hax; cbn [nth_error] in Hax.
      * injection Hax as <-. rewrite Nat.add_0_r. split; [|exact Hsh]. rewrite Hlo by lia.
        rewrite nth_error_upd, Nat.eqb_refl. destruct (Nat.ltb_spec (Z.to_nat i) (length axes)); [reflexivity|lia].
      * destruct (Hk k ax Hax) as [H1 H2]. rewrite <- Nat.add_succ_comm. split; assumption.
    + intros k Hk'. cbn [length] in Hk'. rewrite Hhi by lia. rewrite nth_error_upd.
      destruct (Nat.eqb_spec k (Z.to_nat i)); [lia|reflexivity].
Qed.
Lemma set_axes_all sh axes news r : set_axes axes sh 0 news = Ok r -> length news = length axes ->
  length news = length sh -> r = news /\ map ax_len news = sh.
Proof.
  intros H L1 L2. apply set_axes_ok in H as (L & _ & Hk & _); [|lia].
  change (Z.to_nat 0) with 0%nat in Hk. cbn [Nat.add] in Hk. split.
  - apply nth_error_ext. intro k. destruct (nth_error news k) as [ax|] eqn:E.
    + now apply Hk.
    + apply nth_error_None. apply nth_error_None in E. lia.
  - apply nth_error_ext. intro k. rewrite nth_error_map. destruct (nth_error news k) as [ax|] eqn:E; cbn [option_map].
    + symmetry. now apply Hk.
    + symmetry. apply nth_error_None. apply nth_error_None in E. lia.
Qed.

(** which keys drop the axis *)
Definition is_int (k : Z + slice) : bool := match k with inl _ => true | inr _ => false end.
Definition keeps (sls : list (Z + slice)) : nat := length (filter (fun k => negb (is_int k)) sls).

Lemma somes_length_subs spl axes sls subs :
  length axes = length sls ->
  mapM (sub_axis spl) (combine axes sls) = Ok subs -> length (somes subs) = keeps sls /\ length subs = length sls.
Proof.
  intros L H. split; [|rewrite (mapM_length _ _ _ H), combine_length; lia].
  apply mapM_ok in H. revert axes L subs H. induction sls as [|k sls IH]; intros axes L subs H.
  - destruct axes; [|discriminate]. cbn in H. inversion H. reflexivity.
  - destruct axes as [|ax axes]; [discriminate|]. cbn [combine] in H. inversion H as [|? s ? ss Hs Hss]; subst.
    specialize (IH axes ltac:(cbn in L; lia) ss Hss). unfold keeps in *. cbn [filter].
    unfold sub_axis in Hs. cbn [fst snd] in Hs. destruct k as [i|sl]; cbn [is_int negb] in *.
    + destruct (getidx (ax_grid ax) i); [|discriminate]. cbn in Hs. injection Hs as <-. exact IH.
    + destruct (axis_slice spl ax sl); [|discriminate]. cbn in Hs. injection Hs as <-. cbn. now rewrite IH.
Qed.
Lemma somes_counted spl axes sls subs :
  mapM (sub_axis spl) (combine axes sls) = Ok subs -> Forall axis_counted (somes subs).
Proof.
  intro H. apply mapM_ok in H. remember (combine axes sls) as l. clear Heql.
  induction H as [|[ax k] s l ss Hs H IH]; [constructor|]. unfold sub_axis in Hs. cbn [fst snd] in Hs.
  destruct k as [i|sl].
  - destruct (getidx (ax_grid ax) i); [|discriminate]. cbn in Hs. injection Hs as <-. exact IH.
  - destruct (axis_slice spl ax sl) eqn:E; [|discriminate]. cbn in Hs. injection Hs as <-.
    constructor; [now apply axis_slice_counted in E|exact IH].
Qed.

Lemma retained_length (subs : list (option axis)) :
  length (retained (length subs) subs) = length (somes subs).
Proof.
  unfold retained.
  assert (G : forall pre, length (filter (fun i => match nth_error (pre ++ subs) i with Some None => false | _ => true end)
                             (seq (length pre) (length subs))) = length (somes subs)).
  { induction subs as [|s subs IH]; intro pre; [reflexivity|]. cbn [length seq filter].
    rewrite nth_error_app2 by lia. rewrite Nat.sub_diag. cbn [nth_error].
    specialize (IH (pre ++ [s])). rewrite <- app_assoc in IH. cbn [app] in IH.
    rewrite app_length, Nat.add_1_r in IH.
    destruct s; cbn [somes length]; [f_equal|]; exact IH. }
  exact (G []).
Qed.
Lemma retained_In n subs i : In i (retained n subs) <->
  (i < n)%nat /\ match nth_error subs i with Some None => False | _ => True end.
Proof.
  unfold retained. rewrite filter_In, in_seq. destruct (nth_error subs i) as [[|]|]; intuition (try lia; try discriminate).
Qed.

Lemma sel_of_shape n k s : sel_of n k = Ok s -> length (sel_shape [s]) = (if is_int k then 0 else 1)%nat.
Proof.
  unfold sel_of. destruct k as [i|sl]; intro H.
  - apply bind_ok in H as (p & _ & H). injection H as <-. reflexivity.
  - apply bind_ok in H as (((st & sp) & se) & _ & H). injection H as <-. reflexivity.
Qed.
Lemma sels_of_shape sh : forall ks ss, length ks = length sh -> sels_of sh ks = Ok ss ->
  length (sel_shape ss) = keeps ks.
Proof.
  induction sh as [|n sh IH]; intros [|k ks] ss L H; try discriminate; cbn [sels_of] in H.
  - injection H as <-. reflexivity.
  - apply bind_ok in H as (s & Hs & H). apply bind_ok in H as (ss' & Hss & H). injection H as <-.
    apply IH in Hss; [|cbn in L; lia]. apply sel_of_shape in Hs. unfold keeps in *. cbn [filter].
    destruct k; cbn [is_int negb] in *; destruct s; cbn [sel_shape length] in *; lia.
Qed.
Lemma np_getitem_dims {V} (a b : nda V) ks : length ks = length (a_shape a) -> np_getitem a ks = Ok b ->
  length (a_shape b) = keeps ks.
Proof.
  intros L H. unfold np_getitem in H. apply bind_ok in H as (ss & Hss & H). injection H as <-.
  cbn [a_shape]. now apply (sels_of_shape (a_shape a)).
Qed.

Lemma dims_length sh n : Z.of_nat n = dims sh -> n = length sh.
Proof. unfold dims. destruct (zprod sh =? 0)%Z; lia. Qed.

(** Whatever the nesting, a successful Field.__getitem__ with one key per dimension
    indexes the array with these keys. *)
Lemma data_getitem_array {V} spl ls : forall (a b : nda V) sls inner,
  length sls = length (a_shape a) ->
  data_getitem spl ls a sls = Ok (inner, b) -> np_getitem a sls = Ok b /\ length inner = length ls.
Proof.
  induction ls as [|l ls IH]; intros a b sls inner L H; cbn [data_getitem] in H.
  - apply bind_ok in H as (b' & Hb & H). injection H as <- <-. split; [exact Hb|reflexivity].
  - destruct (Z.eqb_spec (Z.of_nat (length sls)) (dims (a_shape a))) as [E|]; cbn [negb] in H; [|discriminate].
    apply bind_ok in H as (subs & Hs & H). apply bind_ok in H as ((inner' & b') & Hi & H).
    apply bind_ok in H as (axes & Hp & H). apply bind_ok in H as (axes' & Hset & H).
    apply bind_ok in H as (ats & Ha & H). apply bind_ok in H as (tao & Ht & H). injection H as <- <-.
    destruct (le_lt_dec (length sls) (length (l_axes l))) as [Hle|Hlt].
    + rewrite firstn_all2 in * by exact Hle. apply IH in Hi as [H1 H2]; [|exact L].
      split; [exact H1|]. cbn. now rewrite H2.
    + exfalso. apply mapM_length in Hs. rewrite combine_length, firstn_length in Hs.
      assert (Hin : In (length (l_axes l)) (retained (length (a_shape a)) subs)).
      { apply retained_In. split; [lia|].
        replace (nth_error subs (length (l_axes l))) with (@None (option axis)); [exact I|].
        symmetry. apply nth_error_None. lia. }
      unfold pick in Hp. apply pick_ext in Hp. clear -Hp Hin.
      induction Hp as [|i x ps r Hx H IH]; [destruct Hin|]. destruct Hin as [->|Hin]; [|auto].
      assert (length (l_axes l) < length (l_axes l))%nat by (apply nth_error_Some; congruence). lia.
Qed.

Lemma normalize_slices_length axes sh keys sls :
  length axes = length sh -> normalize_slices axes sh keys = Ok sls -> length sls = length sh.
Proof.
  intros L. unfold normalize_slices.
  destruct (Z.eqb_spec (Z.of_nat (length keys)) (dims sh)) as [E|]; cbn [negb]; [|discriminate].
  intro H. apply mapM_length in H. rewrite combine_length in H. apply dims_length in E. lia.
Qed.

Lemma data_getitem_top {V} spl l ls (a b : nda V) sls l' inner :
  length (l_axes l) = length (a_shape a) -> length sls = length (a_shape a) ->
  data_getitem spl (l :: ls) a sls = Ok (l' :: inner, b) ->
  map ax_len (l_axes l') = a_shape b /\ length (l_ats l') = length (a_shape b) /\
  length (l_tao l') = length (a_shape b) /\ Forall axis_counted (l_axes l') /\
  (exists subs, mapM (sub_axis spl) (combine (l_axes l) sls) = Ok subs /\ l_axes l' = somes subs /\
     pick (l_ats l) (retained (length (a_shape a)) subs) = Ok (l_ats l') /\
     pick (l_tao l) (retained (length (a_shape a)) subs) = Ok (l_tao l')) /\
  np_getitem a sls = Ok b /\ l_name l' = l_name l /\ l_unit l' = l_unit l /\
  data_getitem spl ls a sls = Ok (inner, b).
Proof.
  intros La Ls H. pose proof H as H0.
  apply data_getitem_array in H0 as [Hb _]; [|exact Ls].
  cbn [data_getitem] in H.
  destruct (Z.eqb_spec (Z.of_nat (length sls)) (dims (a_shape a))) as [E|]; cbn [negb] in H; [|discriminate].
  rewrite firstn_all2 in H by lia.
  apply bind_ok in H as (subs & Hs & H). apply bind_ok in H as ((inner' & b') & Hi & H).
  apply bind_ok in H as (axes & Hp & H). apply bind_ok in H as (axes' & Hset & H).
  apply bind_ok in H as (ats & Ha & H). apply bind_ok in H as (tao & Ht & H). injection H as <- <- <-.
  destruct (somes_length_subs spl (l_axes l) sls subs ltac:(lia) Hs) as [Hn Hl].
  pose proof (somes_counted _ _ _ _ Hs) as Hc.
  pose proof (retained_length subs) as Hr. rewrite Hl, Ls in Hr.
  pose proof (mapM_length _ _ _ Hp) as Lp. pose proof (mapM_length _ _ _ Ha) as Lat.
  pose proof (mapM_length _ _ _ Ht) as Ltao.
  pose proof (np_getitem_dims _ _ _ Ls Hb) as Ld.
  apply set_axes_all in Hset as [-> Hm]; [|congruence|congruence].
  cbn [l_axes l_ats l_tao l_name l_unit].
  split; [exact Hm|]. split; [congruence|]. split; [congruence|]. split; [exact Hc|].
  split; [exists subs; auto|]. auto.
Qed.

Lemma getitem_inv {V} spl (f g : field V) keys :
  consistent f -> field_getitem spl f keys = Ok g -> inv g.
Proof.
  intros Hf H. unfold field_getitem in H. apply bind_ok in H as (sls & Hn & H).
  apply bind_ok in H as ((ls & b) & Hd & H). destruct ls as [|l ls]; [discriminate|]. injection H as <-.
  destruct Hf as (L & _). pose proof (normalize_slices_length _ _ _ _ L Hn) as Ls.
  apply data_getitem_top in Hd as (H1 & H2 & H3 & H4 & _); [|exact L|exact Ls].
  split; [|exact H4]. apply map_consistent; unfold f_shape, f_axes, f_ats, f_tao; cbn [f_data f_top]; assumption.
Qed.

(** * Transposing, flipping, rotating *)
Lemma mapM_getidx_permute {A} (d : A) l axes r p :
  mapM (getidx l) axes = Ok r -> mapM (py_pos (length l)) axes = Ok p -> r = permute d p l.
Proof.
  rewrite !mapM_ok. intro H; revert p; induction H as [|i x axes r Hx H IH]; intros p Hp.
  - inversion Hp. reflexivity.
  - inversion Hp as [|? k ? p' Hk Hp']; subst. cbn [permute map]. f_equal; [|now apply IH].
    apply getidx_some in Hx as (k' & Hk' & Hx). rewrite Hk in Hk'. injection Hk' as ->.
    symmetry. now apply nth_error_nth.
Qed.
Lemma mapM_getidx_total {A} (d : A) l axes p :
  mapM (py_pos (length l)) axes = Ok p -> mapM (getidx l) axes = Ok (permute d p l).
Proof.
  rewrite !mapM_ok. intro H. induction H as [|i k axes p Hk H IH]; [constructor|].
  cbn [permute map]. constructor; [|exact IH]. apply getidx_some. exists k. split; [exact Hk|].
  apply nth_error_nth'. now apply py_pos_ok in Hk.
Qed.
Lemma data_transpose_array {V} ls : forall (a b : nda V) axes inner,
  data_transpose ls a axes = Ok (inner, b) -> np_transpose a axes = Ok b /\ length inner = length ls.
Proof.
  induction ls as [|l ls IH]; intros a b axes inner H; cbn [data_transpose] in H.
  - apply bind_ok in H as (b' & Hb & H). injection H as <- <-. split; [exact Hb|reflexivity].
  - destruct (negb _) in H; [discriminate|]. apply bind_ok in H as (axs & _ & H).
    apply bind_ok in H as ((inner' & b') & Hi & H). injection H as <- <-.
    apply IH in Hi as [H1 H2]. split; [exact H1|]. cbn. now rewrite H2.
Qed.
Lemma map_permute {A B} (f : A -> B) d p l :
  map f (permute d p l) = permute (f d) p (map f l).
Proof.
  unfold permute. rewrite map_map. apply map_ext. intro k. now rewrite map_nth.
Qed.
Lemma permute_default {A} (d e : A) p l : (forall k, In k p -> (k < length l)%nat) -> permute d p l = permute e p l.
Proof. intro H. unfold permute. apply map_ext_in. intros k Hk. apply nth_indep. now apply H. Qed.

Lemma transpose_ok {V} (f g : field V) axes : consistent f -> field_transpose f (Some axes) = Ok g ->
  exists p, perm_of (length (f_shape f)) p /\ mapM (py_pos (length (f_shape f))) axes = Ok p /\
    f_data g = nd_transpose p (f_data f) /\
    (forall d, f_axes g = permute d p (f_axes f)) /\
    f_ats g = f_ats f /\ f_tao g = f_tao f /\
    l_name (f_top g) = l_name (f_top f) /\ l_unit (f_top g) = l_unit (f_top f).
Proof.
  intros Hf H. unfold field_transpose in H. apply bind_ok in H as ((ls & b) & Hd & H).
  destruct ls as [|l ls]; [discriminate|]. injection H as <-.
  pose proof Hd as Ha. apply data_transpose_array in Ha as [Ha _].
  apply np_transpose_ok in Ha as (p & Hp & Hperm & Hb).
  cbn [data_transpose] in Hd. destruct (negb _) in Hd; [discriminate|].
  apply bind_ok in Hd as (axs & Hax & Hd). apply bind_ok in Hd as ((inner' & b') & _ & Hd).
  injection Hd as <- <- ->. exists p. split; [exact Hperm|]. split; [exact Hp|].
  unfold f_axes, f_ats, f_tao. cbn [f_data f_top l_axes l_ats l_tao l_name l_unit].
  split; [exact Hb|]. split; [|auto].
  intro d. apply (mapM_getidx_permute d _ _ _ p Hax).
  destruct Hf as (L & _). unfold f_axes in L. now rewrite L.
Qed.
Lemma transpose_none {V} (f : field V) :
  field_transpose f None = field_transpose f (Some (rev (zlist (Z.to_nat (dims (f_shape f)))))).
Proof. reflexivity. Qed.
Lemma transpose_inv_some {V} (f g : field V) axes : inv f -> field_transpose f (Some axes) = Ok g -> inv g.
Proof.
  intros [Hf Hc] H. apply transpose_ok in H as (p & (Pl & Pn & Pb) & _ & Hd & Ha & Hat & Ht & _); [|exact Hf].
  pose proof (consistent_map f Hf) as Hm. destruct Hf as (L & _ & L2 & L3).
  assert (Hs : f_shape g = permute 0%Z p (f_shape f)) by (unfold f_shape; rewrite Hd; reflexivity).
  split.
  - apply map_consistent.
    + rewrite (Ha axis0), map_permute, Hs, Hm. apply permute_default. exact Pb.
    + rewrite Hat, Hs, permute_length. congruence.
    + rewrite Ht, Hs, permute_length. congruence.
  - rewrite (Ha axis0). unfold permute. apply Forall_forall. intros x Hx. apply in_map_iff in Hx as (k & <- & Hk).
    rewrite Forall_forall in Hc. apply Hc, nth_In. rewrite L. now apply Pb.
Qed.
Lemma transpose_inv {V} (f g : field V) axes : inv f -> field_transpose f axes = Ok g -> inv g.
Proof. destruct axes as [l|]; [apply transpose_inv_some|]. rewrite transpose_none. apply transpose_inv_some. Qed.
Lemma swapaxes_inv {V} (f g : field V) a b : inv f -> field_swapaxes f a b = Ok g -> inv g.
Proof.
  intros Hf H. unfold field_swapaxes in H. apply bind_ok in H as (l & _ & H).
  apply bind_ok in H as (l' & _ & H). now apply transpose_inv in H.
Qed.
Lemma transpose_seq_inv {V} (f g : field V) axes : inv f -> field_transpose_seq f axes = Ok g -> inv g.
Proof.
  intros Hf. unfold field_transpose_seq. destruct (dims _ =? 1)%Z; [discriminate|]. now apply transpose_inv.
Qed.
Lemma Forall_upd {A} (P : A -> Prop) l k x : Forall P l -> P x -> Forall P (upd l k x).
Proof.
  intros H Hx; revert k; induction H as [|a l Ha H IH]; intros [|k]; cbn [upd]; auto.
Qed.
Lemma map_upd_same {A B} (f : A -> B) l k x y : nth_error l k = Some y -> f x = f y -> map f (upd l k x) = map f l.
Proof.
  intros H E. revert k H. induction l as [|z l IH]; intros [|k] H; try discriminate; cbn [upd map nth_error] in *.
  - injection H as ->. now rewrite E.
  - now rewrite IH.
Qed.
Lemma flip_parts {V} spl (f g : field V) a : field_flip spl f a = Ok g ->
  exists p h ax ax', py_pos (length (f_shape f)) a = Ok p /\
    field_getitem spl f (map key_of_slice (upd (repeat full_slice (length (f_shape f))) p rev_slice)) = Ok h /\
    f_shape h = f_shape f /\ getidx (f_axes f) a = Ok ax /\ axis_reversed spl ax = Ok ax' /\
    setidx (f_axes f) a ax' = Ok (f_axes g) /\ f_data g = f_data h /\
    f_ats g = f_ats f /\ f_tao g = f_tao f /\ f_inner g = f_top h :: f_inner h /\
    l_name (f_top g) = l_name (f_top f) /\ l_unit (f_top g) = l_unit (f_top f).
Proof.
  unfold field_flip. intro H. apply bind_ok in H as (p & Hp & H). apply bind_ok in H as (h & Hh & H).
  destruct (idx_eqb (f_shape h) (f_shape f)) eqn:E; cbn [negb] in H; [|discriminate].
  apply idx_eqb_eq in E. apply bind_ok in H as (ax & Hax & H). apply bind_ok in H as (ax' & Hax' & H).
  apply bind_ok in H as (axes & Hs & H). injection H as <-.
  exists p, h, ax, ax'. unfold f_axes, f_ats, f_tao. cbn [f_data f_top f_inner l_axes l_ats l_tao l_name l_unit].
  repeat (split; [assumption || reflexivity|]). reflexivity.
Qed.
Lemma flip_inv {V} spl (f g : field V) a : inv f -> field_flip spl f a = Ok g -> inv g.
Proof.
  intros [Hf Hc] H. apply flip_parts in H as (p & h & ax & ax' & Hp & Hh & Es & Hax & Hr & Hset & Hd & Ha & Ht & _).
  pose proof (consistent_map f Hf) as Hm. destruct Hf as (L & _ & L2 & L3).
  apply getidx_some in Hax as (k & Hk & Hax). apply setidx_ok in Hset as (k' & Hk' & Hset).
  rewrite Hk in Hk'. injection Hk' as <-.
  assert (Hca : axis_counted ax) by (rewrite Forall_forall in Hc; eapply Hc, nth_error_In, Hax).
  assert (Eg : f_shape g = f_shape f) by (unfold f_shape in *; now rewrite Hd).
  split.
  - apply map_consistent; rewrite Eg, ?Ha, ?Ht; [|assumption|assumption].
    rewrite Hset, (map_upd_same ax_len _ _ _ ax Hax); [exact Hm|]. now apply (axis_reversed_len spl).
  - rewrite Hset. apply Forall_upd; [exact Hc|]. now apply axis_reversed_counted in Hr.
Qed.
Lemma rot90_inv {V} spl (f g : field V) k a b : inv f -> field_rot90 spl f k a b = Ok g -> inv g.
Proof.
  intros Hf. unfold field_rot90. destruct (a =? b)%Z; [discriminate|].
  destruct (_ || _)%Z; [discriminate|]. destruct (_ =? 0)%Z; [intros [= <-]; exact Hf|].
  destruct (_ =? 2)%Z.
  - intro H. apply bind_ok in H as (h & Hh & H). apply flip_inv in H; [exact H|].
    now apply flip_inv in Hh.
  - intro H. apply bind_ok in H as (x0 & _ & H). apply bind_ok in H as (x1 & _ & H).
    apply bind_ok in H as (l & _ & H). apply bind_ok in H as (l' & _ & H).
    destruct (_ =? 1)%Z; apply bind_ok in H as (h & Hh & H).
    + apply transpose_seq_inv in H; [exact H|]. now apply flip_inv in Hh.
    + apply flip_inv in H; [exact H|]. now apply transpose_seq_inv in Hh.
Qed.

(** * squeeze, atleast_nd *)
Lemma squeeze_inv {V} spl (f g : field V) : inv f -> field_squeeze spl f = Ok g -> inv g.
Proof.
  intros [Hf _] H. unfold field_squeeze in H. apply bind_ok in H as (ones & _ & H).
  apply bind_ok in H as (ret & Hr & H). destruct (idx_eqb _ _); [|discriminate]. injection H as <-.
  now apply getitem_inv in Hr.
Qed.
Lemma mk_unit_axis spl : exists ax,
  mk_axis spl "" "" (Some [- qhalf; qhalf]) None None None = Ok ax /\
  ax = mkAxis "" "" [- qhalf; qhalf] [qhalf * - qhalf + qhalf * qhalf] (- qhalf, qhalf) 1.
Proof. eexists. split; [|reflexivity]. reflexivity. Qed.
Lemma add_dims_inv {V} spl st k : forall (f g : field V), inv f -> add_dims spl st k f = Ok g -> inv g.
Proof.
  induction k as [|k IH]; intros f g Hf H; cbn [add_dims] in H; [now injection H as <-|].
  destruct (_ && _); [discriminate|]. destruct (max_dims <=? _)%nat; [discriminate|].
  apply bind_ok in H as (ax & Hax & H). revert H. apply IH.
  destruct (mk_unit_axis spl) as (ax' & E & E2). rewrite E in Hax. injection Hax as <-.
  destruct Hf as [Hf Hc]. pose proof (consistent_map f Hf) as Hm. destruct Hf as (L & _ & L2 & L3).
  unfold f_axes, f_shape, f_ats, f_tao in *. split.
  - apply map_consistent; unfold f_axes, f_shape, f_ats, f_tao; cbn [f_data f_top l_axes l_ats l_tao np_newaxis a_shape].
    + rewrite map_app, Hm. cbn [map]. rewrite E2. reflexivity.
    + rewrite !app_length, L2. reflexivity.
    + rewrite !app_length, L3. reflexivity.
  - unfold f_axes. cbn [f_top l_axes]. apply Forall_app. split; [exact Hc|]. constructor; [|constructor].
    rewrite E2. reflexivity.
Qed.
Lemma atleast_inv {V} spl (f g : field V) n : inv f -> field_atleast_nd spl f n = Ok g -> inv g.
Proof.
  intros Hf. unfold field_atleast_nd. destruct (n <=? _)%Z; [intros [= <-]; exact Hf|].
  intro H. apply bind_ok in H as (st & _ & H). now apply add_dims_inv in H.
Qed.

(** * Reductions and arithmetic *)
Lemma del_all_length {A B} (l : list A) (m : list B) is : forall l' m', length l = length m ->
  del_all l is = Ok l' -> del_all m is = Ok m' -> length l' = length m'.
Proof.
  revert l m; induction is as [|i is IH]; intros l m l' m' L H1 H2; cbn [del_all] in *.
  - injection H1 as <-. injection H2 as <-. exact L.
  - apply bind_ok in H1 as (l1 & E1 & H1). apply bind_ok in H2 as (m1 & E2 & H2).
    apply (IH l1 m1); auto. apply delidx_ok in E1 as (k & Hk & ->). apply delidx_ok in E2 as (k' & Hk' & ->).
    rewrite L in Hk. rewrite Hk in Hk'. injection Hk' as <-. apply py_pos_ok in Hk as [Hk _].
    rewrite !del_length by lia. lia.
Qed.
Lemma del_all_incl {A} (l : list A) is : forall l', del_all l is = Ok l' -> incl l' l.
Proof.
  revert l; induction is as [|i is IH]; intros l l' H; cbn [del_all] in *.
  - injection H as <-. apply incl_refl.
  - apply bind_ok in H as (l1 & E & H). apply IH in H. apply delidx_ok in E as (k & Hk & ->).
    intros x Hx. apply H in Hx. apply py_pos_ok in Hk as [Hk _]. rewrite del_split in Hx by exact Hk.
    apply in_app_or in Hx. rewrite <- (firstn_skipn k l). apply in_or_app.
    destruct Hx as [Hx|Hx]; [now left|right]. clear -Hx. revert k l Hx.
    induction k as [|k IH]; intros [|a l] Hx; cbn [skipn] in *; auto; now right.
Qed.
Lemma shrink_axes_ok spl is : forall axes r, Forall axis_counted axes -> shrink_axes spl axes is = Ok r ->
  length r = length axes /\ Forall axis_counted r.
Proof.
  induction is as [|i is IH]; intros axes r Hc H; cbn [shrink_axes] in H.
  - injection H as <-. auto.
  - apply bind_ok in H as (ax & Hax & H). apply bind_ok in H as (ax' & Hax' & H).
    apply bind_ok in H as (axes' & Hs & H). pose proof (setidx_length _ _ _ _ Hs) as L.
    apply setidx_ok in Hs as (k & _ & ->). apply IH in H as [H1 H2].
    + split; [congruence|exact H2].
    + apply Forall_upd; [exact Hc|]. now apply mk_axis_counted in Hax'.
Qed.
Lemma field_of_inv {V} (a : nda V) nm un axes ats tao f :
  length ats = length axes -> length tao = length axes -> Forall axis_counted axes ->
  field_of a nm un (map Some axes) ats tao = Ok f -> inv f.
Proof.
  intros L1 L2 Hc H. split.
  - apply field_of_consistent in H; [exact H|now rewrite map_length|now rewrite map_length].
  - apply field_of_ok in H as (_ & _ & H & _). apply map_Some_inj in H. now rewrite <- H.
Qed.
Lemma reduce_inv {V} spl red (f g : field V) ax kd : inv f -> field_reduce spl red f ax kd = Ok g -> inv g.
Proof.
  intros [Hf Hc] H. destruct Hf as (L & _ & L2 & L3). unfold f_axes, f_ats, f_tao in *.
  unfold field_reduce in H. apply bind_ok in H as (((axes & ats) & tao) & Ha & H).
  apply bind_ok in H as (o & _ & H). destruct kd.
  - apply bind_ok in Ha as (axes' & Hs & Ha). injection Ha as <- <- <-.
    apply shrink_axes_ok in Hs as [H1 H2]; [|exact Hc]. apply field_of_inv in H; auto; congruence.
  - apply bind_ok in Ha as (axes' & E1 & Ha). apply bind_ok in Ha as (tao' & E2 & Ha).
    apply bind_ok in Ha as (ats' & E3 & Ha). injection Ha as <- <- <-.
    apply field_of_inv in H; auto.
    + apply (del_all_length _ _ _ _ _ ltac:(rewrite L2, L; reflexivity) E3 E1).
    + apply (del_all_length _ _ _ _ _ ltac:(rewrite L3, L; reflexivity) E2 E1).
    + apply Forall_forall. intros x Hx. rewrite Forall_forall in Hc. apply Hc.
      now apply (del_all_incl _ _ _ E1).
Qed.
Lemma ufunc_reduce_inv {V} red (f g : field V) ax : inv f -> field_ufunc_reduce red f ax = Ok g -> inv g.
Proof.
  intros [Hf Hc] H. destruct Hf as (L & _ & L2 & L3). unfold f_axes, f_ats, f_tao in *.
  unfold field_ufunc_reduce in H.
  apply bind_ok in H as (axes' & E1 & H). apply bind_ok in H as (ats' & E3 & H).
  apply bind_ok in H as (tao' & E2 & H). apply bind_ok in H as (o & _ & H).
  apply field_of_inv in H; auto.
  - apply (del_all_length _ _ _ _ _ ltac:(rewrite L2, L; reflexivity) E3 E1).
  - apply (del_all_length _ _ _ _ _ ltac:(rewrite L3, L; reflexivity) E2 E1).
  - apply Forall_forall. intros x Hx. rewrite Forall_forall in Hc. apply Hc.
    now apply (del_all_incl _ _ _ E1).
Qed.
Lemma map_inv {V W} (op : V -> W) (f : field V) g : inv f -> field_map op f = Ok g -> inv g.
Proof.
  intros [Hf Hc] H. destruct Hf as (L & _ & L2 & L3). unfold field_map in H.
  apply field_of_inv in H; auto; congruence.
Qed.

(** ** binary operations *)
Definition e_axis (e : entry) : option axis := fst (fst e).
Definition e_ok (e : entry) : Prop := match e_axis e with Some ax => axis_counted ax | None => True end.
Lemma zip3_ok a s t es : zip3 a s t = Ok es ->
  map e_axis es = map Some a /\ map (fun e => snd (fst e)) es = s /\ map snd es = t.
Proof.
  revert s t es; induction a as [|x a IH]; intros [|y s] [|z t] es H; try discriminate; cbn [zip3] in H.
  - injection H as <-. auto.
  - apply bind_ok in H as (r & Hr & H). injection H as <-. apply IH in Hr as (H1 & H2 & H3).
    cbn. rewrite H1, H2, H3. auto.
Qed.
Lemma layer_entries_ok l es : Forall axis_counted (l_axes l) -> layer_entries l = Ok es -> Forall e_ok es.
Proof.
  intros Hc H. apply zip3_ok in H as (H & _). apply Forall_forall. intros e He.
  assert (In (e_axis e) (map e_axis es)) by (now apply in_map). rewrite H in H0.
  apply in_map_iff in H0 as (ax & Hax & Hin). unfold e_ok. rewrite <- Hax. rewrite Forall_forall in Hc. auto.
Qed.
Lemma plain_entries_ok n : Forall e_ok (plain_entries n).
Proof. unfold plain_entries. induction n; constructor; auto. exact I. Qed.
Lemma combine_entry_ok e1 e2 e : combine_entry e1 e2 = Ok e -> e_ok e1 -> e_ok e2 -> e_ok e.
Proof.
  destruct e1 as [[a1 s1] t1], e2 as [[a2 s2] t2]. unfold combine_entry.
  destruct a1 as [x1|], a2 as [x2|]; try (intros [= <-]; auto; fail).
  destruct (ax_len x1 =? ax_len x2)%Z; [destruct t2; intros [= <-]; auto|].
  destruct (ax_len x1 =? 1)%Z; [intros [= <-]; auto|].
  destruct (ax_len x2 =? 1)%Z; [intros [= <-]; auto|discriminate].
Qed.
Lemma combine_rev_ok l1 : forall l2 r, combine_rev l1 l2 = Ok r -> Forall e_ok l1 -> Forall e_ok l2 -> Forall e_ok r.
Proof.
  induction l1 as [|e1 l1 IH]; intros [|e2 l2] r H H1 H2; cbn [combine_rev] in H; try (injection H as <-; auto; fail).
  apply bind_ok in H as (e & He & H). apply bind_ok in H as (r' & Hr & H). injection H as <-.
  inversion H1; inversion H2; subst. constructor; [now apply combine_entry_ok in He|].
  now apply IH in Hr.
Qed.
Lemma combine_entries_ok l1 l2 r : combine_entries l1 l2 = Ok r -> Forall e_ok l1 -> Forall e_ok l2 -> Forall e_ok r.
Proof.
  unfold combine_entries. destruct (combine_rev (rev l1) (rev l2)) as [r'|] eqn:E; [|discriminate].
  intros [= <-] H1 H2. apply Forall_rev. eapply combine_rev_ok; [exact E|now apply Forall_rev|now apply Forall_rev].
Qed.
Definition layer_counted (l : option layer) : Prop :=
  match l with Some l => Forall axis_counted (l_axes l) | None => True end.
Lemma op2_entries_ok la lb na nb es : layer_counted la -> layer_counted lb ->
  op2_entries la lb na nb = Ok es -> Forall e_ok es.
Proof.
  intros Ha Hb H. unfold op2_entries in H. destruct la as [l|], lb as [m|]; cbn [layer_counted] in *.
  - apply bind_ok in H as (e1 & E1 & H). apply bind_ok in H as (e2 & E2 & H).
    exact (combine_entries_ok _ _ _ H (layer_entries_ok _ _ Ha E1) (layer_entries_ok _ _ Hb E2)).
  - apply bind_ok in H as (e1 & E1 & H).
    exact (combine_entries_ok _ _ _ H (layer_entries_ok _ _ Ha E1) (plain_entries_ok _)).
  - apply bind_ok in H as (e1 & E1 & H).
    exact (combine_entries_ok _ _ _ H (layer_entries_ok _ _ Hb E1) (plain_entries_ok _)).
  - injection H as <-. constructor.
Qed.
Lemma wrap_op2_inv {A B C} (op : A -> B -> C) ta tb la lb a b f :
  layer_counted ta -> layer_counted tb -> wrap_op2 op ta tb la lb a b = Ok f -> inv f.
Proof.
  intros Ha Hb H. unfold wrap_op2 in H. apply bind_ok in H as (es & Hes & H).
  apply bind_ok in H as (c & _ & H). apply op2_entries_ok in Hes; auto. split.
  - apply field_of_consistent in H; [exact H|now rewrite !map_length..].
  - apply field_of_ok in H as (_ & _ & H & _). apply Forall_forall. intros ax Hax.
    assert (In (Some ax) (map e_axis es))
      by exact (eq_ind_r (fun l => In (Some ax) l) (in_map Some _ _ Hax) H).
    apply in_map_iff in H0 as (e & He & Hin). rewrite Forall_forall in Hes. specialize (Hes e Hin).
    unfold e_ok in Hes. now rewrite He in Hes.
Qed.
Lemma op2_inv {A B C} (op : A -> B -> C) f g h :
  Forall axis_counted (f_axes f) -> Forall axis_counted (f_axes g) -> field_op2 op f g = Ok h -> inv h.
Proof. intros Hf Hg H. now apply wrap_op2_inv in H. Qed.
Lemma op_array_inv {A B C} (op : A -> B -> C) f b h :
  Forall axis_counted (f_axes f) -> field_op_array op f b = Ok h -> inv h.
Proof. intros Hf H. now apply wrap_op2_inv in H. Qed.

(** * Sizes of slices with one changed axis *)
Lemma shape_nonneg {V} (f : field V) : inv f -> Forall (fun n => 0 <= n)%Z (f_shape f).
Proof.
  intros [Hf Hc]. rewrite <- (consistent_map f Hf). apply Forall_forall. intros n Hn.
  apply in_map_iff in Hn as (ax & <- & Hin). rewrite Forall_forall in Hc. rewrite (Hc ax Hin). lia.
Qed.
Lemma half_slices m : (0 <= m)%Z ->
  slice_indices (mkslice (Some 0%Z) (Some (m - m mod 2)%Z) (Some 2%Z)) m = Ok (0%Z, (m - m mod 2)%Z, 2%Z) /\
  range_len 0 (m - m mod 2) 2 = Z.to_nat (m / 2) /\
  exists s, slice_indices (mkslice (Some 1%Z) (Some (m - m mod 2)%Z) (Some 2%Z)) m = Ok (s, (m - m mod 2)%Z, 2%Z) /\
    range_len s (m - m mod 2) 2 = Z.to_nat (m / 2) /\ (2 <= m -> s = 1)%Z.
Proof.
  intro H. unfold slice_indices. cbn [s_start s_stop s_step Z.eqb].
  assert (A : adjust_bound m 2 (m - m mod 2) = (m - m mod 2)%Z).
  { unfold adjust_bound. cbn [Z.ltb Z.compare].
    destruct (Z.ltb_spec (m - m mod 2) 0); [lia|]. destruct (Z.leb_spec m (m - m mod 2)); lia. }
  rewrite A. split; [|split].
  - unfold adjust_bound. cbn [Z.ltb Z.compare]. destruct (Z.leb_spec m 0); [|reflexivity].
    replace m with 0%Z by lia. reflexivity.
  - unfold range_len. cbn [Z.ltb Z.compare]. destruct (Z.ltb_spec 0 (m - m mod 2)); f_equal; lia.
  - exists (adjust_bound m 2 1). split; [reflexivity|]. unfold adjust_bound. cbn [Z.ltb Z.compare].
    unfold range_len. cbn [Z.ltb Z.compare].
    destruct (Z.leb_spec m 1); [|split; [|auto]].
    + destruct (Z.ltb_spec m (m - m mod 2)); split; lia.
    + destruct (Z.ltb_spec 1 (m - m mod 2)); lia.
Qed.
Lemma upd_repeat_length {A} (x y : A) n k : length (upd (repeat x n) k y) = n.
Proof. now rewrite upd_length, repeat_length. Qed.
Lemma in_shape_length_upd sh k n idx : in_shape (upd sh k n) idx = true -> length idx = length sh.
Proof. intro H. apply in_shape_length in H. now rewrite upd_length in H. Qed.

Lemma half_ok spl f a g : inv f -> few_dims f -> field_half_resolution spl f a = Ok g ->
  exists k m ax ax', (k < length (f_shape f))%nat /\ a = Z.of_nat k /\ nth k (f_shape f) 0%Z = m /\
    f_shape g = upd (f_shape f) k (m / 2)%Z /\
    (forall idx, in_shape (f_shape g) idx = true ->
       a_at (f_data g) idx = (a_at (f_data f) (upd idx k (2 * nth k idx 0)%Z)
                              + a_at (f_data f) (upd idx k (1 + 2 * nth k idx 0)%Z)) / 2) /\
    nth_error (f_axes f) k = Some ax /\ axis_half_resolution spl ax = Ok ax' /\
    f_axes g = upd (f_axes f) k ax' /\ ax_len ax' = (m / 2)%Z /\
    f_ats g = f_ats f /\ f_tao g = upd (f_tao f) k None /\ f_inner g = [] /\
    l_name (f_top g) = l_name (f_top f) /\ l_unit (f_top g) = l_unit (f_top f).
Proof.
  intros Hi Hfew H. unfold few_dims, max_dims in Hfew. pose proof (shape_nonneg f Hi) as Hn. destruct Hi as [Hf Hc].
  unfold field_half_resolution in H.
  apply bind_ok in H as (a' & Ha & H). apply axesidentify_ok in Ha as [-> Ha].
  apply bind_ok in H as (m & Hm & H). apply getidx_some in Hm as (k & Hk & Hm).
  pose proof Hk as Hk'. apply py_pos_ok in Hk'. assert (Ek : a = Z.of_nat k) by lia.
  assert (Hlt : (k < length (f_shape f))%nat) by lia.
  apply bind_ok in H as (s1 & Hs1 & H). apply bind_ok in H as (s2 & Hs2 & H).
  apply setidx_ok in Hs1 as (k1 & Hk1 & Hs1). apply setidx_ok in Hs2 as (k2 & Hk2 & Hs2).
  rewrite repeat_length in Hk1, Hk2. rewrite Hk in Hk1, Hk2. injection Hk1 as <-. injection Hk2 as <-.
  apply bind_ok in H as ((i1 & d1) & Hd1 & H). apply bind_ok in H as ((i2 & d2) & Hd2 & H). cbn [snd] in H.
  apply bind_ok in H as (d & Hd & H). apply bind_ok in H as (ax & Hax & H).
  apply bind_ok in H as (ax' & Hax' & H). apply bind_ok in H as (axes & Hset & H).
  apply bind_ok in H as (tao & Ht & H). injection H as <-.
  apply data_getitem_array in Hd1 as [Hd1 _]; [|rewrite Hs1; apply upd_repeat_length].
  apply data_getitem_array in Hd2 as [Hd2 _]; [|rewrite Hs2; apply upd_repeat_length].
  rewrite Hs1 in Hd1. rewrite Hs2 in Hd2.
  assert (Em : nth k (f_shape f) 0%Z = m) by now apply nth_error_nth.
  assert (Hm0 : (0 <= m)%Z) by (rewrite Forall_forall in Hn; apply Hn; eapply nth_error_In; eauto).
  destruct (half_slices m Hm0) as (S1 & R1 & s & S2 & R2 & E2).
  apply np_getitem_one_inv in Hd1 as (x1 & y1 & z1 & X1 & Sh1 & At1); [|exact Hn|exact Hlt].
  apply np_getitem_one_inv in Hd2 as (x2 & y2 & z2 & X2 & Sh2 & At2); [|exact Hn|exact Hlt].
  unfold f_shape in Em. rewrite Em in X1, X2. rewrite S1 in X1. rewrite S2 in X2.
  injection X1 as <- <- <-. injection X2 as <- <- <-. rewrite R1 in Sh1. rewrite R2 in Sh2.
  assert (Hm2 : (0 <= m / 2)%Z) by (apply Z.div_pos; lia).
  rewrite Z2Nat.id in Sh1, Sh2 by exact Hm2.
  destruct (np_map2_same (fun x y => (x + y) / 2) d1 d2) as (c & Hc2 & Sc & Atc); [congruence|].
  rewrite Hd in Hc2. injection Hc2 as <-.
  apply getidx_some in Hax as (k3 & Hk3 & Hax). destruct Hf as (L & _ & L2 & L3).
  rewrite L in Hk3. rewrite Hk in Hk3. injection Hk3 as <-.
  apply setaxisobj_ok in Hset; [|lia]. destruct Hset as (_ & _ & Hset & Hsh).
  rewrite Ek, Nat2Z.id in Hset, Hsh.
  apply setidx_ok in Ht as (k4 & Hk4 & Ht). rewrite L3, Hk in Hk4. injection Hk4 as <-.
  exists k, m, ax, ax'. unfold f_shape, f_axes, f_ats, f_tao in *. cbn [f_data f_top f_inner l_axes l_ats l_tao l_name l_unit].
  split; [exact Hlt|]. split; [exact Ek|]. split; [exact Em|]. split; [congruence|].
  split.
  { intros idx Hidx. rewrite Sc, Sh1 in Hidx. rewrite Atc by (rewrite Sh1; exact Hidx).
    pose proof (in_shape_length_upd _ _ _ _ Hidx) as Li. rewrite At1, At2 by exact Li.
    assert (H2 : (2 <= m)%Z).
    { pose proof (in_shape_nth _ _ k 0%Z 0%Z Hidx) as B. rewrite upd_length in B.
      rewrite nth_upd_same in B by exact Hlt. specialize (B Hlt). lia. }
    rewrite (E2 H2). replace (0 + nth k idx 0 * 2)%Z with (2 * nth k idx 0)%Z by lia.
    replace (1 + nth k idx 0 * 2)%Z with (1 + 2 * nth k idx 0)%Z by lia. reflexivity. }
  split; [exact Hax|]. split; [exact Hax'|]. split; [exact Hset|].
  split; [|auto].
  rewrite Sc, Sh1, nth_error_upd, Nat.eqb_refl in Hsh.
  destruct (Nat.ltb_spec k (length (a_shape (f_data f)))); [|lia]. now injection Hsh.
Qed.
Lemma half_inv spl f a g : inv f -> few_dims f -> field_half_resolution spl f a = Ok g -> inv g.
Proof.
  intros Hi Hfew H. apply half_ok in H as (k & m & ax & ax' & Hk & _ & _ & Hs & _ & _ & Hh & Ha & Hl & Hat & Ht & _); auto.
  destruct Hi as [Hf Hc]. pose proof (consistent_map f Hf) as Hm. destruct Hf as (L & _ & L2 & L3).
  split.
  - apply map_consistent; rewrite Hs, ?Ha, ?Hat, ?Ht, ?upd_length; [|assumption..].
    now rewrite map_upd, Hm, Hl.
  - rewrite Ha. apply Forall_upd; [exact Hc|]. now apply axis_half_counted in Hh.
Qed.
Lemma half_few spl f a g : inv f -> few_dims f -> field_half_resolution spl f a = Ok g -> few_dims g.
Proof.
  intros Hi Hfew H. apply half_ok in H as (k & m & ax & ax' & Hk & _ & _ & Hs & _); auto.
  unfold few_dims. now rewrite Hs, upd_length.
Qed.
Lemma reduce_axis_ok (P : field Q -> Prop) spl maxlen i :
  (forall f g, P f -> field_half_resolution spl f i = Ok g -> P g) ->
  forall fuel f g, P f -> reduce_axis fuel spl maxlen f i = Ok g -> P g.
Proof.
  intro HP. induction fuel as [|fuel IH]; intros f g Hf H; cbn [reduce_axis] in H;
    apply bind_ok in H as (ax & _ & H); (destruct (maxlen <? _)%Z; [|now injection H as <-]); [discriminate|].
  apply bind_ok in H as (h & Hh & H). apply (IH h); auto. eapply HP; eauto.
Qed.
Lemma reduce_axes_ok (P : field Q -> Prop) spl maxlen fuel :
  (forall i f g, P f -> field_half_resolution spl f i = Ok g -> P g) ->
  forall is f g, P f -> reduce_axes fuel spl maxlen f is = Ok g -> P g.
Proof.
  intro HP. induction is as [|i is IH]; intros f g Hf H; cbn [reduce_axes] in H; [now injection H as <-|].
  apply bind_ok in H as (h & Hh & H). apply (IH h); auto.
  eapply reduce_axis_ok; [intros; eapply HP; eassumption|exact Hf|exact Hh].
Qed.
Lemma autoreduce_inv spl fuel m f g : inv f /\ few_dims f -> field_autoreduce fuel spl f m = Ok g -> inv g /\ few_dims g.
Proof.
  intros Hf H. unfold field_autoreduce in H.
  refine (reduce_axes_ok (fun x => inv x /\ few_dims x) spl m fuel _ _ f g Hf H).
  intros i x y [Hx Hfx] Hh. split; [eapply half_inv; eauto|eapply half_few; eauto].
Qed.

(** ** integration *)
Lemma fast_step_ok f axis g : inv f -> fast_step f axis = Ok g ->
  exists k ax, py_pos (length (f_shape f)) axis = Ok k /\ (k < length (f_shape f))%nat /\
    dims (f_shape f) = Z.of_nat (length (f_shape f)) /\
    nth_error (f_axes f) k = Some ax /\
    nth k (f_shape f) 0%Z = Z.of_nat (length (box_sizes ax)) /\
    f_axes g = del (f_axes f) k /\ f_ats g = del (f_ats f) k /\ f_tao g = del (f_tao f) k /\
    f_inner g = [] /\ l_name (f_top g) = l_name (f_top f) /\ l_unit (f_top g) = l_unit (f_top f) /\
    exists m, f_data g = nd_reduce rsum [k] m /\ a_shape m = f_shape f /\
      forall idx, in_shape (f_shape f) idx = true ->
        a_at m idx = nth (Z.to_nat (nth k idx 0%Z)) (box_sizes ax) 0 * a_at (f_data f) idx.
Proof.
  intros Hi H. pose proof (shape_nonneg f Hi) as Hnn. destruct Hi as [(L & _ & L2 & L3) _]. unfold fast_step in H. apply bind_ok in H as (k & Hk & H).
  assert (Hd : dims (f_shape f) = Z.of_nat (length (f_shape f))).
  { unfold dims in *. destruct (zprod (f_shape f) =? 0)%Z; [|reflexivity].
    apply py_pos_ok in Hk. cbn in Hk. lia. }
  rewrite Hd, Nat2Z.id in Hk, H.
  apply bind_ok in H as (n & Hn & H). apply getidx_some in Hn as (k' & Hk' & Hn).
  rewrite Hk in Hk'. injection Hk' as <-. apply bind_ok in H as (ax & Hax & H).
  destruct (Z.eqb_spec (Z.of_nat (length (ax_node ax))) (n + 1)) as [E|]; cbn [negb] in H; [|discriminate].
  apply getidx_some in Hax as (k' & Hk' & Hax). rewrite L, Hk in Hk'. injection Hk' as <-.
  apply bind_ok in H as (m & Hm & H). apply bind_ok in H as (m' & Hr & H).
  apply bind_ok in H as (axes & Ha & H). apply bind_ok in H as (ats & Hat & H).
  apply bind_ok in H as (tao & Ht & H). injection H as <-.
  pose proof Hk as Hk'. apply py_pos_ok in Hk'. assert (Hlt : (k < length (f_shape f))%nat) by lia.
  assert (Lb : length (box_sizes ax) = (length (ax_node ax) - 1)%nat) by (unfold box_sizes; apply np_diff_length).
  assert (Hnk : nth k (f_shape f) 0%Z = Z.of_nat (length (box_sizes ax)))
    by (rewrite (nth_error_nth _ _ 0%Z Hn); rewrite Forall_forall in Hnn;
        specialize (Hnn n (nth_error_In _ _ Hn)); lia).
  destruct (np_along_op Qmult (box_sizes ax) (f_data f) k Hlt Hnk) as (c & Hc & Sc & Ac).
  unfold f_shape in *. rewrite Hm in Hc. injection Hc as <-.
  apply np_reduce_one in Hr as (k' & Hk'' & ->). rewrite Sc, Hk in Hk''. injection Hk'' as <-.
  apply delidx_ok in Ha as (k' & Hk'' & Ha). unfold f_axes, f_ats, f_tao in *.
  rewrite L, Hk in Hk''. injection Hk'' as <-.
  apply delidx_ok in Hat as (k' & Hk'' & Hat). rewrite L2, Hk in Hk''. injection Hk'' as <-.
  apply delidx_ok in Ht as (k' & Hk'' & Ht). rewrite L3, Hk in Hk''. injection Hk'' as <-.
  exists k, ax. cbn [f_data f_top f_inner l_axes l_ats l_tao l_name l_unit].
  repeat (split; [assumption || reflexivity|]). exists m. auto.
Qed.
Lemma Forall_del {A} (P : A -> Prop) l k : Forall P l -> Forall P (del l k).
Proof. intro H; revert k; induction H as [|a l Ha H IH]; intros [|k]; cbn [del]; auto. Qed.
Lemma fast_step_inv f axis g : inv f -> fast_step f axis = Ok g -> inv g /\ (few_dims f -> few_dims g).
Proof.
  intros [Hf Hc] H. apply fast_step_ok in H as (k & ax & _ & Hk & _ & _ & _ & Ha & Hat & Ht & _ & _ & _ & m & Hd & Sm & _); [|split; assumption].
  pose proof (consistent_map f Hf) as Hm. destruct Hf as (L & _ & L2 & L3).
  assert (Sg : f_shape g = del (f_shape f) k).
  { unfold f_shape at 1. rewrite Hd. cbn [nd_reduce a_shape]. now rewrite kept_one, Sm. }
  split; [split|].
  - apply map_consistent; rewrite Sg, ?Ha, ?Hat, ?Ht, ?del_length by lia.
    + now rewrite map_del, Hm.
    + congruence.
    + congruence.
  - rewrite Ha. now apply Forall_del.
  - unfold few_dims. rewrite Sg, del_length by lia. lia.
Qed.
Lemma fast_loop_ok (P : field Q -> Prop) :
  (forall f a g, P f -> fast_step f a = Ok g -> P g) ->
  forall fuel axes f g, P f -> fast_loop fuel f axes = Ok g -> P g.
Proof.
  intro HP. induction fuel as [|fuel IH]; intros axes f g Hf H; cbn [fast_loop] in H;
    destruct axes as [|a0 axes]; try (injection H as <-; exact Hf); [discriminate|].
  apply bind_ok in H as (h & Hh & H). refine (IH _ h g _ H). eapply HP; eauto.
Qed.
Lemma integrate_fast_inv f axes g : inv f /\ few_dims f -> integrate_fast f axes = Ok g -> inv g /\ few_dims g.
Proof.
  intros Hf H. unfold integrate_fast in H. apply bind_ok in H as (u & _ & H).
  refine (fast_loop_ok (fun x => inv x /\ few_dims x) _ _ _ f g Hf H).
  intros x a y [Hx Hfx] Hs. apply fast_step_inv in Hs as [H1 H2]; auto.
Qed.
Lemma times_boxes_ok (P : field Q -> Prop) f :
  (forall x b y, P x -> field_op_array Qmult x b = Ok y -> P y) ->
  forall axes x y, P x -> times_boxes f x axes = Ok y -> P y.
Proof.
  intro HP. induction axes as [|a axes IH]; intros x y Hx H; cbn [times_boxes] in H; [now injection H as <-|].
  apply bind_ok in H as (ax & _ & H). apply bind_ok in H as (k & _ & H).
  apply bind_ok in H as (r & Hr & H). apply (IH r y); [|exact H]. eapply HP; eauto.
Qed.
Lemma integrate_constant_inv spl f axes g : inv f -> integrate_constant spl f axes = Ok g -> inv g.
Proof.
  intros Hf H. unfold integrate_constant in H. apply bind_ok in H as (r & Hr & H).
  apply reduce_inv in H; [exact H|].
  refine (times_boxes_ok inv f _ _ f r Hf Hr). intros x b y [_ Hx] Hy. now apply op_array_inv in Hy.
Qed.

(** ** derivative, map_axis_grid *)
Lemma derivative_inv spl f a g : inv f -> derivative_stagger spl f a = Ok g -> inv g.
Proof.
  intros [Hf Hc] H. unfold derivative_stagger in H.
  apply bind_ok in H as (oax & Hoax & H). apply bind_ok in H as (lin & _ & H).
  destruct (negb lin); [discriminate|]. apply bind_ok in H as (gg & Hgg & H).
  apply bind_ok in H as (ax & Hax & H). apply bind_ok in H as (axes & Hset & H).
  apply bind_ok in H as (i1 & _ & H). apply bind_ok in H as (i2 & _ & H).
  apply bind_ok in H as (d1 & _ & H). apply bind_ok in H as (d2 & _ & H).
  apply bind_ok in H as (dx & _ & H). apply bind_ok in H as (m & _ & H).
  apply setidx_ok in Hset as (k & _ & Hset).
  pose proof H as H0. apply field_of_ok in H0 as (H1 & _ & H2 & H3 & H4 & H5 & _).
  apply map_Some_inj in H2. split.
  - apply map_consistent; unfold f_shape; rewrite H1; [exact H3| |].
    + rewrite H4. apply repeat_length.
    + rewrite H5. apply repeat_length.
  - rewrite <- H2, Hset. apply Forall_upd; [exact Hc|]. now apply mk_axis_counted in Hax.
Qed.
Lemma map_grid_parts spl f a t j p g : inv f -> map_axis_grid spl f a t j p = Ok g ->
  exists k ax ax', py_pos (length (f_axes f)) a = Ok k /\ nth_error (f_axes f) k = Some ax /\
    mk_axis spl (ax_name ax) (ax_unit ax) (Some (map t (ax_node ax))) (Some (map t (ax_grid ax))) None None = Ok ax' /\
    f_axes g = upd (f_axes f) k ax' /\ f_shape g = f_shape f /\ f_ats g = f_ats f /\ f_tao g = f_tao f /\
    (p = false -> f_data g = f_data f) /\
    (p = true -> forall idx, in_shape (f_shape f) idx = true ->
       a_at (f_data g) idx = a_at (f_data f) idx / j (nth (Z.to_nat (nth k idx 0%Z)) (ax_grid ax) 0)).
Proof.
  intros Hi H. pose proof Hi as [Hf Hc]. unfold map_axis_grid in H. apply bind_ok in H as (a' & Ha & H).
  apply axesidentify_ok in Ha as [-> _]. apply bind_ok in H as (ax & Hax & H).
  apply bind_ok in H as (d & Hd & H). apply bind_ok in H as (ax' & Hax' & H).
  apply bind_ok in H as (axes & Hset & H). injection H as <-.
  apply getidx_some in Hax as (k & Hk & Hax). apply setidx_ok in Hset as (k' & Hk' & Hset).
  rewrite Hk in Hk'. injection Hk' as <-. exists k, ax, ax'.
  split; [exact Hk|]. split; [exact Hax|]. split; [exact Hax'|].
  unfold f_shape, f_axes, f_ats, f_tao in *. cbn [f_data f_top l_axes l_ats l_tao].
  split; [exact Hset|].
  destruct Hf as (L & HL & _). unfold f_shape, f_axes in *.
  destruct p.
  - apply bind_ok in Hd as (k' & Hk' & Hd). apply bind_ok in Hd as (m & Hm & Hd).
    destruct (idx_eqb (a_shape m) (a_shape (f_data f))) eqn:E; [|discriminate].
    injection Hd as <-. apply idx_eqb_eq in E.
    assert (Hdm : dims (a_shape (f_data f)) = Z.of_nat (length (a_shape (f_data f)))).
    { unfold dims in *. destruct (zprod (a_shape (f_data f)) =? 0)%Z; [|reflexivity].
      apply py_pos_ok in Hk'. cbn in Hk'. lia. }
    rewrite Hdm, Nat2Z.id in Hk', Hm. rewrite L, Hk' in Hk. injection Hk as ->.
    assert (Hlt : (k < length (a_shape (f_data f)))%nat) by (apply py_pos_ok in Hk'; lia).
    assert (Hn : nth k (a_shape (f_data f)) 0%Z = Z.of_nat (length (map j (ax_grid ax)))).
    { rewrite map_length. destruct (nth_error (a_shape (f_data f)) k) as [n|] eqn:En.
      - rewrite (nth_error_nth _ _ 0%Z En). rewrite <- (HL k ax n Hax En).
        rewrite Forall_forall in Hc. apply Hc. unfold f_axes. eapply nth_error_In; eauto.
      - apply nth_error_None in En. lia. }
    destruct (np_along_op_r Qdiv (map j (ax_grid ax)) (f_data f) k Hlt Hn) as (c & Hc' & Sc & Ac).
    rewrite Hm in Hc'. injection Hc' as <-.
    split; [exact E|]. split; [reflexivity|]. split; [reflexivity|]. split; [discriminate|].
    intros _ idx Hidx. rewrite Ac by exact Hidx. f_equal.
    pose proof (in_shape_nth _ _ k 0%Z 0%Z Hidx Hlt) as B. rewrite Hn, map_length in B.
    rewrite (nth_indep _ 0 (j 0)) by (rewrite map_length; lia). now rewrite map_nth.
  - injection Hd as <-. split; [reflexivity|]. split; [reflexivity|]. split; [reflexivity|].
    split; [reflexivity|discriminate].
Qed.
Lemma map_grid_inv spl f a t j p g : inv f -> map_axis_grid spl f a t j p = Ok g -> inv g.
Proof.
  intros Hi H. apply map_grid_parts in H as (k & ax & ax' & Hk & Hax & Hax' & Ha & Hs & Hat & Ht & _); [|exact Hi].
  destruct Hi as [Hf Hc]. pose proof (consistent_map f Hf) as Hm. destruct Hf as (L & _ & L2 & L3).
  assert (Hca : axis_counted ax) by (rewrite Forall_forall in Hc; eapply Hc, nth_error_In, Hax).
  pose proof (mk_axis_counted _ _ _ _ _ _ _ _ Hax') as Hca'.
  split.
  - apply map_consistent; rewrite ?Hs, ?Ha, ?Hat, ?Ht; [|assumption..].
    rewrite (map_upd_same ax_len _ _ _ ax Hax); [exact Hm|].
    apply mk_axis_grid in Hax'. unfold axis_counted in *. rewrite Hca', Hca, Hax'. now rewrite map_length.
  - rewrite Ha. now apply Forall_upd.
Qed.
Lemma cutout_inv {V} spl (f g : field V) ext : inv f -> field_cutout spl f ext = Ok g -> inv g.
Proof.
  intros [Hf _] H. unfold field_cutout in H. destruct (negb _); [discriminate|].
  apply bind_ok in H as (sls & _ & H). now apply getitem_inv in H.
Qed.

(** * Few dimensions *)
Lemma init_axes_few sh axs : forall i axes, (0 <= i <= 3)%Z -> init_axes sh i axs = Ok axes ->
  (i + Z.of_nat (length axs) <= 3)%Z.
Proof.
  induction axs as [|a axs IH]; intros i axes Hi H; cbn [init_axes length] in *; [lia|].
  apply bind_ok in H as (id & Hid & H). apply axesidentify_ok in Hid as [-> Hid].
  destruct a as [ax|]; [|discriminate]. apply bind_ok in H as (n & Hn & H).
  destruct (_ =? _)%Z; [|discriminate]. apply bind_ok in H as (r & Hr & H).
  apply IH in Hr; lia.
Qed.
Lemma field_of_few {V} (a : nda V) nm un axs ats tao f : field_of a nm un axs ats tao = Ok f ->
  (length (f_shape f) <= 3)%nat.
Proof.
  intro H. pose proof H as H0. apply field_of_ok in H0 as (H1 & _ & _ & H2 & _).
  unfold field_of in H. destruct (Nat.ltb_spec (length axs) (length (a_shape a))); [discriminate|].
  apply bind_ok in H as (axes & Ha & H). apply init_axes_few in Ha; [|lia].
  unfold f_shape. rewrite H1. lia.
Qed.
Lemma few3 {V} (f : field V) : (length (f_shape f) <= 3)%nat -> few_dims f.
Proof. unfold few_dims, max_dims. lia. Qed.
Lemma keeps_le sls : (keeps sls <= length sls)%nat.
Proof. unfold keeps. induction sls as [|k sls IH]; [cbn; lia|]. cbn [filter]. destruct (negb _); cbn [length]; lia. Qed.
Lemma getitem_few {V} spl (f g : field V) keys :
  consistent f -> few_dims f -> field_getitem spl f keys = Ok g -> few_dims g.
Proof.
  intros Hf Hfew H. unfold field_getitem in H. apply bind_ok in H as (sls & Hn & H).
  apply bind_ok in H as ((ls & b) & Hd & H). destruct ls as [|l ls]; [discriminate|]. injection H as <-.
  destruct Hf as (L & _). pose proof (normalize_slices_length _ _ _ _ L Hn) as Ls.
  apply data_getitem_array in Hd as [Hd _]; [|exact Ls]. apply np_getitem_dims in Hd; [|exact Ls].
  unfold few_dims, f_shape in *. cbn [f_data]. rewrite Hd. pose proof (keeps_le sls). lia.
Qed.
Lemma transpose_few {V} (f g : field V) axes : consistent f -> few_dims f -> field_transpose f axes = Ok g -> few_dims g.
Proof.
  intros Hf Hfew H. assert (exists l, field_transpose f (Some l) = Ok g) as (l & Hl)
    by (destruct axes as [l|]; [|rewrite transpose_none in H]; eauto).
  apply transpose_ok in Hl as (p & (Pl & _) & _ & Hd & _); [|exact Hf].
  unfold few_dims, f_shape in *. rewrite Hd. cbn [nd_transpose a_shape]. rewrite permute_length. lia.
Qed.
Lemma flip_few {V} spl (f g : field V) a : few_dims f -> field_flip spl f a = Ok g -> few_dims g.
Proof.
  intros Hfew H. apply flip_parts in H as (p & h & ax & ax' & _ & _ & Es & _ & _ & _ & Hd & _).
  unfold few_dims, f_shape in *. rewrite Hd, Es. exact Hfew.
Qed.
Lemma rot90_few {V} spl (f g : field V) k a b : inv f -> few_dims f -> field_rot90 spl f k a b = Ok g -> few_dims g.
Proof.
  intros Hf Hfew. unfold field_rot90. destruct (a =? b)%Z; [discriminate|].
  destruct (_ || _)%Z; [discriminate|]. destruct (_ =? 0)%Z; [intros [= <-]; exact Hfew|].
  destruct (_ =? 2)%Z.
  - intro H. apply bind_ok in H as (h & Hh & H). apply flip_few in H; [exact H|]. now apply flip_few in Hh.
  - intro H. apply bind_ok in H as (x0 & _ & H). apply bind_ok in H as (x1 & _ & H).
    apply bind_ok in H as (l & _ & H). apply bind_ok in H as (l' & _ & H).
    unfold field_transpose_seq in H. destruct (_ =? 1)%Z; apply bind_ok in H as (h & Hh & H).
    + destruct (dims _ =? 1)%Z in H; [discriminate|]. apply transpose_few in H; [exact H| |].
      * now apply flip_inv in Hh as [Hh _].
      * now apply flip_few in Hh.
    + destruct (dims _ =? 1)%Z in Hh; [discriminate|]. apply flip_few in H; [exact H|].
      apply transpose_few in Hh; [exact Hh|apply Hf|exact Hfew].
Qed.
Lemma add_dims_few {V} spl st k : forall (f g : field V), few_dims f -> add_dims spl st k f = Ok g -> few_dims g.
Proof.
  induction k as [|k IH]; intros f g Hf H; cbn [add_dims] in H; [now injection H as <-|].
  destruct (_ && _); [discriminate|]. destruct (Nat.leb_spec max_dims (length (f_shape f))); [discriminate|].
  apply bind_ok in H as (ax & Hax & H). revert H. apply IH.
  unfold few_dims, f_shape in *. cbn [f_data np_newaxis a_shape]. rewrite app_length. cbn. lia.
Qed.
Lemma atleast_few {V} spl (f g : field V) n : few_dims f -> field_atleast_nd spl f n = Ok g -> few_dims g.
Proof.
  intros Hf. unfold field_atleast_nd. destruct (n <=? _)%Z; [intros [= <-]; exact Hf|].
  intro H. apply bind_ok in H as (st & _ & H). now apply add_dims_few in H.
Qed.
Lemma wrap_op2_few {A B C} (op : A -> B -> C) ta tb la lb a b f : wrap_op2 op ta tb la lb a b = Ok f -> few_dims f.
Proof.
  intro H. unfold wrap_op2 in H. apply bind_ok in H as (es & _ & H). apply bind_ok in H as (c & _ & H).
  apply few3. now apply field_of_few in H.
Qed.
Lemma outer_inv {A B C} (op : A -> B -> C) f g h : inv f ->
  Forall axis_counted (f_axes g) -> length (f_ats g) = length (f_axes g) -> length (f_tao g) = length (f_axes g) ->
  field_outer op f g = Ok h -> inv h /\ few_dims h.
Proof.
  intros [(L & _ & L2 & L3) Hc] Hcg L4 L5 H. split; [|apply few3; now apply field_of_few in H].
  apply field_of_inv in H; [exact H|..].
  - rewrite !app_length. congruence.
  - rewrite !app_length. congruence.
  - apply Forall_app. auto.
Qed.
Lemma autocutout_parts spl win f axes fr g : field_autocutout spl win f axes fr = Ok g ->
  exists s h sls ws, field_squeeze spl f = Ok s /\
    cutout_slices spl fr s (match axes with None => zlist (Z.to_nat (dims (f_shape s))) | Some l => l end)
                  (repeat full_slice (Z.to_nat (dims (f_shape s)))) = Ok (sls, ws) /\
    field_getitem spl s (map key_of_slice sls) = Ok h /\
    apply_windows win (Z.to_nat (dims (f_shape s))) ws (f_data h) = Ok (f_data g) /\
    f_shape g = f_shape h /\ f_top g = f_top h /\ f_inner g = [].
Proof.
  unfold field_autocutout. intro H. apply bind_ok in H as (s & Hs & H).
  destruct (negb _); [discriminate|]. apply bind_ok in H as ((sls & ws) & Hc & H).
  apply bind_ok in H as (h & Hh & H). apply bind_ok in H as (a & Ha & H).
  destruct (idx_eqb (a_shape a) (f_shape h)) eqn:E; [|discriminate]. apply idx_eqb_eq in E. injection H as <-.
  exists s, h, sls, ws. cbn [f_data f_top f_inner].
  split; [exact Hs|]. split; [exact Hc|]. split; [exact Hh|]. split; [exact Ha|]. split; [exact E|auto].
Qed.
Lemma autocutout_inv spl win f axes fr g : inv f -> few_dims f ->
  field_autocutout spl win f axes fr = Ok g -> inv g /\ few_dims g.
Proof.
  intros Hf Hfew H. apply autocutout_parts in H as (s & h & sls & ws & Hs & _ & Hh & _ & Sg & Tg & _).
  pose proof (squeeze_inv _ _ _ Hf Hs) as [Hsc Hsi].
  assert (Hsf : few_dims s).
  { unfold field_squeeze in Hs. apply bind_ok in Hs as (ones & _ & Hs). apply bind_ok in Hs as (ret & Hr & Hs).
    destruct (idx_eqb _ _); [|discriminate]. injection Hs as <-. apply getitem_few in Hr; [exact Hr|apply Hf|exact Hfew]. }
  pose proof (getitem_few _ _ _ _ Hsc Hsf Hh) as Hhf. pose proof (getitem_inv _ _ _ _ Hsc Hh) as [Hhc Hhi].
  unfold inv, consistent, few_dims in *. unfold f_axes, f_ats, f_tao in *. rewrite Sg, Tg. auto.
Qed.

(** * Padding *)
Lemma pad_axis_ok spl ax p r : axis_noded ax -> pad_axis spl ax p = Ok r -> (0 <= fst (fst r))%Z -> (0 <= snd (fst r))%Z ->
  ax_len (snd r) = (fst (fst r) + ax_len ax + snd (fst r))%Z /\ axis_counted (snd r).
Proof.
  intros [Hc Hn] H P0 P1. unfold pad_axis in H. apply bind_ok in H as (dx & _ & H).
  apply bind_ok in H as (p0 & _ & H). apply bind_ok in H as (p1 & _ & H).
  destruct (Z.eqb_spec (p0 + p1) 0) as [E|E].
  - injection H as <-. cbn [fst snd] in *. split; [lia|exact Hc].
  - destruct (ax_extent ax) as [e0 e1]. apply bind_ok in H as (ax' & Hax & H). injection H as <-.
    cbn [fst snd] in *. pose proof (mk_axis_counted _ _ _ _ _ _ _ _ Hax) as Hc'. split; [|exact Hc'].
    unfold mk_axis in Hax.
    apply bind_ok in Hax as (u1 & _ & H). apply bind_ok in H as (u2 & _ & H).
    apply bind_ok in H as (gn & Hgn & H). apply bind_ok in H as (g & Hg & H).
    destruct gn as [|g0 gn]; [discriminate|].
    apply bind_ok in H as (ext' & _ & H). apply bind_ok in H as (n' & Hn' & H).
    injection H as <-. unfold ax_len. cbn [ax_n]. destruct (_ =? _)%Z in Hn'; [|discriminate].
    injection Hn' as <-. unfold axis_counted, ax_len in Hc. rewrite Hn, Hc. lia.
Qed.
Lemma field_pad_parts {V} spl c (f g : field V) p : consistent f -> field_pad spl c f p = Ok g ->
  exists l r, l = pad_list (dims (f_shape f)) p /\ length l = length (f_shape f) /\
    dims (f_shape f) = Z.of_nat (length (f_shape f)) /\
    mapM (fun q => pad_axis spl (fst q) (snd q)) (combine (f_axes f) l) = Ok r /\
    length r = length (f_shape f) /\
    Forall (fun q => 0 <= fst (fst q) /\ 0 <= snd (fst q))%Z r /\
    f_shape g = pad_shape (f_shape f) (map fst r) /\
    (forall idx, a_at (f_data g) idx = if in_shape (f_shape f) (pad_index idx (map fst r))
                                       then a_at (f_data f) (pad_index idx (map fst r)) else c) /\
    f_axes g = map snd r /\ f_ats g = f_ats f /\
    f_tao g = map2 (fun q t => if (fst (fst q) + snd (fst q) =? 0)%Z then t else None) r (f_tao f) /\
    f_inner g = [].
Proof.
  intros (L & _ & L2 & L3) H. unfold field_pad in H. apply bind_ok in H as (lin & _ & H).
  destruct lin as [|b lin]; [discriminate|].
  destruct (Z.eqb_spec (Z.of_nat (length (pad_list (dims (f_shape f)) p))) (dims (f_shape f))) as [E|]; cbn [negb] in H; [|discriminate].
  destruct (_ <? _)%nat; [discriminate|].
  apply bind_ok in H as (r & Hr & H). apply bind_ok in H as (d & Hd & H). injection H as <-.
  pose proof (dims_length _ _ E) as El.
  pose proof (mapM_length _ _ _ Hr) as Lr. rewrite combine_length in Lr.
  assert (Lr' : length r = length (f_shape f)) by lia.
  unfold np_pad in Hd. destruct (negb (Nat.eqb _ _)); [discriminate|].
  destruct (forallb _ _) eqn:Ef; cbn [negb] in Hd; [|discriminate]. injection Hd as <-.
  exists (pad_list (dims (f_shape f)) p), r. split; [reflexivity|]. split; [exact El|]. split; [lia|].
  split; [exact Hr|]. split; [exact Lr'|]. split.
  { rewrite forallb_forall in Ef. apply Forall_forall. intros q Hq.
    specialize (Ef (fst q) (in_map fst _ _ Hq)). apply andb_true_iff in Ef as [E1 E2].
    apply Z.leb_le in E1. apply Z.leb_le in E2. auto. }
  unfold f_shape, f_axes, f_ats, f_tao in *. cbn [f_data f_top f_inner l_axes l_ats l_tao a_shape a_at].
  split; [reflexivity|]. split; [reflexivity|].
  rewrite (skipn_all2 (n := length r) (l_axes (f_top f))) by lia. rewrite app_nil_r. split; [reflexivity|].
  split; [reflexivity|]. rewrite (skipn_all2 (n := length r) (l_tao (f_top f))) by lia. rewrite app_nil_r. auto.
Qed.
Lemma pad_inv {V} spl c (f g : field V) p : consistent f -> Forall axis_noded (f_axes f) -> few_dims f ->
  field_pad spl c f p = Ok g -> inv g /\ few_dims g.
Proof.
  intros Hf Hn Hfew H. apply field_pad_parts in H as (l & r & _ & Ll & _ & Hr & Lr & Hp & Sg & _ & Ag & Atg & Tg & _); [|exact Hf].
  pose proof (consistent_map f Hf) as Hm. destruct Hf as (L & _ & L2 & L3).
  assert (G : map ax_len (map snd r) = pad_shape (f_shape f) (map fst r) /\ Forall axis_counted (map snd r)).
  { rewrite <- Hm. clear - Hr Hn Hp L Ll. rewrite <- L in Ll. clear L. apply mapM_ok in Hr. revert l r Hr Hp Ll.
    induction Hn as [|ax axes Hax Hn IH]; intros l r Hr Hp Ll.
    - cbn in Hr. inversion Hr. split; [reflexivity|constructor].
    - destruct l as [|p l]; [discriminate|]. cbn [combine] in Hr. inversion Hr as [|? q ? r' Hq Hr']; subst.
      inversion Hp as [|? ? [P0 P1] Hp']; subst. cbn [fst snd] in Hq.
      destruct (pad_axis_ok _ _ _ _ Hax Hq P0 P1) as [E1 E2].
      destruct (IH l r' Hr' Hp' ltac:(cbn in *; lia)) as [E3 E4].
      cbn [map pad_shape map2]. split; [rewrite E1; f_equal; exact E3|constructor; assumption]. }
  destruct G as [G1 G2].
  assert (Ls : length (f_shape g) = length (f_shape f)).
  { rewrite Sg. unfold pad_shape. rewrite map2_length, map_length. lia. }
  split; [split|].
  - apply map_consistent; rewrite ?Ag, ?Atg, ?Tg, ?Ls; [congruence|exact L2|].
    rewrite map2_length. lia.
  - now rewrite Ag.
  - unfold few_dims in *. lia.
Qed.

(** * Histories *)
Lemma apply_op_inv spl f o g : inv f -> few_dims f -> operand_ok o ->
  (Forall axis_noded (f_axes f) \/ no_padding o) -> apply_op spl f o = Ok g -> inv g /\ few_dims g.
Proof.
  intros Hi Hfew Ho Hpad H. pose proof Hi as [Hf Hc].
  destruct o; cbn [apply_op operand_ok no_padding] in *.
  - split; [now apply getitem_inv in H|now apply getitem_few in H].
  - split; [now apply cutout_inv in H|]. unfold field_cutout in H. destruct (negb _); [discriminate|].
    apply bind_ok in H as (sls & _ & H). now apply getitem_few in H.
  - split; [now apply transpose_inv in H|now apply transpose_few in H].
  - split; [now apply swapaxes_inv in H|]. unfold field_swapaxes in H.
    apply bind_ok in H as (l & _ & H). apply bind_ok in H as (l' & _ & H). now apply transpose_few in H.
  - split; [now apply flip_inv in H|now apply flip_few in H].
  - split; [now apply rot90_inv in H|now apply rot90_few in H].
  - split; [now apply squeeze_inv in H|]. unfold field_squeeze in H.
    apply bind_ok in H as (ones & _ & H). apply bind_ok in H as (ret & Hr & H).
    destruct (idx_eqb _ _); [|discriminate]. injection H as <-. now apply getitem_few in Hr.
  - split; [now apply atleast_inv in H|now apply atleast_few in H].
  - split; [now apply reduce_inv in H|]. unfold field_reduce in H.
    apply bind_ok in H as (((axes & ats) & tao) & _ & H). apply bind_ok in H as (o & _ & H).
    apply few3. now apply field_of_few in H.
  - split; [now apply ufunc_reduce_inv in H|]. unfold field_ufunc_reduce in H.
    apply bind_ok in H as (axes & _ & H). apply bind_ok in H as (ats & _ & H).
    apply bind_ok in H as (tao & _ & H). apply bind_ok in H as (o & _ & H).
    apply few3. now apply field_of_few in H.
  - split; [now apply half_inv in H|now apply half_few in H].
  - apply autoreduce_inv in H; auto.
  - destruct Hpad as [Hn|[]]. now apply pad_inv in H.
  - split; [now apply map_inv in H|]. apply few3. now apply field_of_few in H.
  - split; [|now apply wrap_op2_few in H]. now apply op2_inv in H.
  - split; [|now apply wrap_op2_few in H]. now apply op_array_inv in H.
  - split; [now apply integrate_constant_inv in H|]. unfold integrate_constant in H.
    apply bind_ok in H as (r & _ & H). unfold field_reduce in H.
    apply bind_ok in H as (((axs & ats) & tao) & _ & H). apply bind_ok in H as (o & _ & H).
    apply few3. now apply field_of_few in H.
  - apply integrate_fast_inv in H; auto.
  - split; [now apply derivative_inv in H|]. unfold derivative_stagger in H.
    apply bind_ok in H as (oax & Hoax & H). apply bind_ok in H as (lin & _ & H).
    destruct (negb lin); [discriminate|]. apply bind_ok in H as (gg & Hgg & H).
    apply bind_ok in H as (ax & Hax & H). apply bind_ok in H as (axes & Hset & H).
    apply bind_ok in H as (i1 & _ & H). apply bind_ok in H as (i2 & _ & H).
    apply bind_ok in H as (d1 & _ & H). apply bind_ok in H as (d2 & _ & H).
    apply bind_ok in H as (dx & _ & H). apply bind_ok in H as (m & _ & H).
    apply few3. now apply field_of_few in H.
  - split; [now apply map_grid_inv in H|].
    apply map_grid_parts in H as (k & ax & ax' & _ & _ & _ & _ & Hs & _); [|exact Hi].
    unfold few_dims. now rewrite Hs.
  - split; [|now apply wrap_op2_few in H]. now apply wrap_op2_inv in H.
  - destruct Ho as (H1 & H2 & H3). apply outer_inv in H; auto.
  - destruct Hpad as [Hn|[]]. unfold field_fft_autopad in H. apply bind_ok in H as (l & _ & H). now apply pad_inv in H.
  - now apply autocutout_inv in H.
Qed.
Lemma run_ops_no_padding spl ops : forall f g, inv f -> few_dims f -> Forall operand_ok ops -> Forall no_padding ops ->
  run_ops spl f ops = Ok g -> inv g /\ few_dims g.
Proof.
  induction ops as [|o ops IH]; intros f g Hf Hfew Ho Hp H; cbn [run_ops] in H; [injection H as <-; auto|].
  apply bind_ok in H as (h & Hh & H). inversion Ho; inversion Hp; subst.
  apply apply_op_inv in Hh as [H1' H2']; auto. now apply (IH h g).
Qed.
