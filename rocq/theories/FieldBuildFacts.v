(** Newly built fields (C09); transposition in terms of positions (C10). *)
From Coq Require Import Lia Permutation.
From Verif Require Import PyBase PyBaseFacts NumpyModel NumpyFacts AxisModel AxisSpec AxisFacts
  NdModel NdFacts FieldModel FieldSpec FieldInvFacts FieldNodedFacts FieldRearrFacts.

(** * Construction *)
Definition axes_fit (sh : list Z) (axes : list axis) : Prop :=
  Forall axis_counted axes /\ forall k ax, nth_error axes k = Some ax -> nth_error sh k = Some (ax_len ax).
Lemma fits_le sh axes : axes_fit sh axes -> (length axes <= length sh)%nat.
Proof.
  intros [_ H]. destruct axes as [|a l]; [cbn; lia|]. set (axes := a :: l) in *.
  destruct (nth_error axes (length axes - 1)) as [ax|] eqn:E.
  - apply H in E. apply nth_error_lt in E. subst axes. cbn [length] in *. lia.
  - apply nth_error_None in E. subst axes. cbn [length] in *. lia.
Qed.
Lemma add_axis_fits sh axes ax axes' : axes_fit sh axes -> axis_counted ax -> add_axis sh axes ax = Ok axes' ->
  axes_fit sh axes' /\ axes' = axes ++ [ax].
Proof.
  intros [H1 H2] Hc H. unfold add_axis in H. apply bind_ok in H as (n & Hn & H).
  destruct (Z.eqb_spec n (ax_len ax)) as [E|]; [|discriminate]. injection H as <-. split; [|reflexivity]. split.
  - apply Forall_app. auto.
  - intros k ax' E'. destruct (Nat.lt_ge_cases k (length axes)) as [L|L].
    + rewrite nth_error_app1 in E' by exact L. now apply H2.
    + rewrite nth_error_app2 in E' by exact L. destruct (k - length axes)%nat as [|m] eqn:D; [|destruct m; discriminate].
      injection E' as <-. assert (k = length axes) by lia. subst k.
      apply getidx_some in Hn as (p & Hp & Hn). apply py_pos_ok in Hp as [Hp Hp'].
      destruct (Z.ltb_spec (Z.of_nat (length axes)) 0); [lia|]. replace (length axes) with p by lia. congruence.
Qed.
Lemma edge_axis_fits spl nm e d sh axes axes' : axes_fit sh axes -> edge_axis spl nm e d sh axes = Ok axes' ->
  axes_fit sh axes' /\
  ((exists ax, axes' = axes ++ [ax] /\ axis_counted ax /\
     (match e with Some l => (2 <= length l)%nat | None => True end -> axis_noded ax)) \/
   (axes' = axes /\ (dims sh <= d)%Z)).
Proof.
  intros Hf H. unfold edge_axis in H. destruct e as [l|].
  - apply bind_ok in H as (ax & Hax & H). pose proof (mk_axis_counted _ _ _ _ _ _ _ _ Hax) as Hc.
    destruct (add_axis_fits _ _ _ _ Hf Hc H) as [H1 H2]. split; [exact H1|]. left. exists ax. split; [exact H2|].
    split; [exact Hc|]. intro L. split; [exact Hc|]. rewrite (mk_axis_node _ _ _ _ _ _ _ _ Hax).
    unfold mk_axis in Hax. apply bind_ok in Hax as (u1 & _ & Hax). apply bind_ok in Hax as (u2 & _ & Hax).
    cbn [bind] in Hax. apply bind_ok in Hax as (g & Hg & Hax). destruct l as [|x l]; [discriminate|].
    cbn [bind] in Hax. injection Hax as <-. cbn [ax_grid].
    unfold grid_from_nodes in Hg. destruct (Nat.ltb_spec 3 (length (x :: l))) as [L'|L'].
    + injection Hg as <-. rewrite map_length, seq_length. cbn [length] in *. lia.
    + destruct l as [|y l]; [cbn in L; lia|]. destruct l as [|z l]; [injection Hg as <-; reflexivity|].
      destruct l; [injection Hg as <-; reflexivity|cbn in L'; lia].
  - destruct (Z.ltb_spec d (dims sh)) as [L|L].
    + unfold add_default in H. apply bind_ok in H as (n & Hn & H). apply bind_ok in H as (ax & Hax & H).
      pose proof (mk_axis_counted _ _ _ _ _ _ _ _ Hax) as Hc.
      destruct (add_axis_fits _ _ _ _ Hf Hc H) as [H1 H2]. split; [exact H1|]. left. exists ax. split; [exact H2|].
      split; [exact Hc|]. intros _. now apply mk_axis_ext_noded in Hax.
    + injection H as <-. split; [exact Hf|]. right. auto.
Qed.
Lemma field_new_fits {V} spl (m : nda V) nm un xe ye ze f :
  field_new spl m nm un xe ye ze = Ok f -> nonempty (f_shape f) -> (length (f_shape f) <= 3)%nat ->
  well_formed f /\ f_inner f = [] /\
  ((forall l, In (Some l) [xe; ye; ze] -> (2 <= length l)%nat) -> Forall axis_noded (f_axes f)).
Proof.
  unfold field_new. set (a := match xe with Some _ => m | None => np_squeeze m end). intros H Hn H3.
  apply bind_ok in H as (a1 & H1 & H). apply bind_ok in H as (a2 & H2 & H). apply bind_ok in H as (a3 & H3' & H).
  injection H as <-. unfold f_shape in Hn, H3. cbn [f_data] in Hn, H3.
  assert (F0 : axes_fit (a_shape a) []) by (split; [constructor|]; intros [|k] ax E; discriminate).
  apply (edge_axis_fits _ _ _ _ _ _ _ F0) in H1 as [F1 C1].
  apply (edge_axis_fits _ _ _ _ _ _ _ F1) in H2 as [F2 C2].
  apply (edge_axis_fits _ _ _ _ _ _ _ F2) in H3' as [F3 C3].
  rewrite nonempty_dims in C1, C2, C3 by exact Hn. pose proof (fits_le _ _ F3) as L3.
  assert (La : length a3 = length (a_shape a)).
  { destruct C1 as [(x & -> & _)|[-> C1]], C2 as [(y & -> & _)|[-> C2]], C3 as [(z & -> & _)|[-> C3]];
      rewrite ?app_length in *; cbn [length] in *; lia. }
  split; [|split; [reflexivity|]].
  - split; [|split; [exact (proj1 F3)|]].
    + apply lengths_consistent; unfold f_axes, f_shape, f_ats, f_tao; cbn [f_top f_data l_axes l_ats l_tao];
        rewrite ?repeat_length; auto. exact (proj2 F3).
    + unfold few_dims, f_shape, max_dims. cbn [f_data]. lia.
  - intro He. unfold f_axes. cbn [f_top l_axes].
    assert (Hx : match xe with Some l => (2 <= length l)%nat | None => True end) by (destruct xe; [apply He; now left|exact I]).
    assert (Hy : match ye with Some l => (2 <= length l)%nat | None => True end) by (destruct ye; [apply He; right; now left|exact I]).
    assert (Hz : match ze with Some l => (2 <= length l)%nat | None => True end) by (destruct ze; [apply He; right; right; now left|exact I]).
    destruct C1 as [(x & -> & _ & Nx)|[-> C1]], C2 as [(y & -> & _ & Ny)|[-> C2]], C3 as [(z & -> & _ & Nz)|[-> C3]];
      repeat first [apply Forall_app; split | apply Forall_cons | apply Forall_nil]; auto.
Qed.
Lemma field_of_fits {V} (a : nda V) nm un axes ats tao f :
  field_of a nm un (map Some axes) ats tao = Ok f -> Forall axis_counted axes ->
  length ats = length axes -> length tao = length axes -> well_formed f /\ f_inner f = [] /\ f_axes f = axes.
Proof.
  intros H Hc L1 L2. pose proof H as H'. apply field_of_ok in H as (E1 & E2 & E3 & E4 & E5 & E6 & _).
  assert (E : axes = f_axes f).
  { clear - E3. revert E3. generalize (f_axes f) as l. induction axes as [|x axes IH]; intros [|y l] E; try discriminate; [reflexivity|].
    injection E as -> E. f_equal. now apply IH. }
  subst axes. assert (La : length (f_axes f) = length (f_shape f)).
  { unfold f_shape. rewrite E1, <- E4. now rewrite map_length. }
  split; [|auto]. split; [|split; [exact Hc|]].
  - apply lengths_consistent; [exact La| |congruence|congruence].
    intros k ax Hk. unfold f_shape. rewrite E1, <- E4, nth_error_map, Hk. reflexivity.
  - unfold field_of in H'. destruct (_ <? _)%nat; [discriminate|]. apply bind_ok in H' as (x & Hx & _).
    apply (init_axes_few _ _ 0%Z _ ltac:(lia)) in Hx. rewrite map_length in Hx. unfold few_dims, max_dims.
    rewrite <- La. lia.
Qed.

(** * Permutations *)
Lemma rearranges_perm n p : rearranges n p <-> perm_of n p.
Proof.
  unfold rearranges. split.
  - intro H. split; [now rewrite (Permutation_length H), seq_length|]. split.
    + apply (Permutation_NoDup (Permutation_sym H)), seq_NoDup.
    + intros k Hk. apply (Permutation_in _ H) in Hk. apply in_seq in Hk. lia.
  - intros (L & N & B). apply NoDup_Permutation; [exact N|apply seq_NoDup|]. intro k. split; intro Hk.
    + apply in_seq. specialize (B k Hk). lia.
    + apply in_seq in Hk. apply (perm_of_In n); [split; auto|lia].
Qed.
Lemma list_nth_ext {A} (d : A) l m : length l = length m -> (forall i, (i < length l)%nat -> nth i l d = nth i m d) -> l = m.
Proof. apply nth_ext. Qed.
Lemma transpose_positions {V} (f : field V) axes p : orderly f ->
  mapM (py_pos (length (f_shape f))) axes = Ok p -> rearranges (length (f_shape f)) p ->
  exists g, field_transpose f (Some axes) = Ok g /\ orderly g /\
    length (f_shape g) = length (f_shape f) /\ length (f_axes g) = length (f_shape f) /\
    (forall i, (i < length (f_shape f))%nat ->
       nth i (f_shape g) 0%Z = nth (nth i p 0%nat) (f_shape f) 0%Z /\
       nth_error (f_axes g) i = nth_error (f_axes f) (nth i p 0%nat)) /\
    (forall idx jdx, in_shape (f_shape f) idx = true -> length jdx = length idx ->
       (forall i, (i < length idx)%nat -> nth i jdx 0%Z = nth (nth i p 0%nat) idx 0%Z) ->
       in_shape (f_shape g) jdx = true /\ a_at (f_data g) jdx = a_at (f_data f) idx) /\
    f_ats g = f_ats f /\ f_tao g = f_tao f.
Proof.
  intros Hf Hm Hp. apply rearranges_perm in Hp. pose proof Hp as (Lp & _ & Bp).
  destruct (transpose_total f axes p Hf Hm Hp) as (g & E & (D & A & S1 & S2 & _) & Hg).
  pose proof (orderly_length f Hf) as La. exists g. split; [exact E|]. split; [exact Hg|].
  assert (Sg : f_shape g = permute 0%Z p (f_shape f)) by (unfold f_shape; now rewrite D).
  split; [now rewrite Sg, permute_length|]. split; [now rewrite A, permute_length|]. split; [|split; [|auto]].
  - intros i Hi. split; [rewrite Sg, nth_permute by lia; reflexivity|]. rewrite A.
    assert (Hb : (nth i p 0 < length (f_axes f))%nat) by (rewrite La; apply Bp, nth_In; lia).
    rewrite (nth_error_nth' _ axis0) by (rewrite permute_length; lia). rewrite nth_permute by lia.
    now rewrite (nth_error_nth' (f_axes f) axis0 Hb).
  - intros idx jdx Hi Lj Hj. pose proof (in_shape_length _ _ Hi) as Li.
    assert (jdx = permute 0%Z p idx) as ->.
    { apply (nth_ext _ _ 0%Z 0%Z); [rewrite permute_length; congruence|]. intros i Hk. rewrite Hj by lia.
      rewrite nth_permute by lia. reflexivity. }
    split; [rewrite Sg; now rewrite in_shape_permute|]. rewrite D. cbn [nd_transpose a_at]. f_equal.
    apply unpermute_permute. now rewrite Li.
Qed.
Lemma transpose_undone {V} (f : field V) axes axes' p p' : orderly f ->
  mapM (py_pos (length (f_shape f))) axes = Ok p -> mapM (py_pos (length (f_shape f))) axes' = Ok p' ->
  rearranges (length (f_shape f)) p -> rearranges (length (f_shape f)) p' -> undoes (length (f_shape f)) p p' ->
  exists g h, field_transpose f (Some axes) = Ok g /\ field_transpose g (Some axes') = Ok h /\ field_same h f.
Proof.
  intros Hf Hm Hm' Hp Hp' Hu. apply rearranges_perm in Hp, Hp'.
  destruct (transpose_total f axes p Hf Hm Hp) as (g & E & _).
  destruct (transpose_round_trip f g axes axes' p p' Hf Hm Hm' Hp Hp' Hu E) as (h & E' & S). eauto.
Qed.
Lemma rev_seq_nth n i : (i < n)%nat -> nth i (rev (seq 0 n)) 0%nat = (n - 1 - i)%nat.
Proof. intro H. rewrite rev_nth by (now rewrite seq_length). rewrite seq_length, seq_nth by lia. lia. Qed.
Lemma transpose_default {V} (f : field V) : orderly f ->
  field_transpose f None = field_transpose f (Some (map Z.of_nat (rev (seq 0 (length (f_shape f)))))) /\
  mapM (py_pos (length (f_shape f))) (map Z.of_nat (rev (seq 0 (length (f_shape f))))) = Ok (rev (seq 0 (length (f_shape f)))) /\
  rearranges (length (f_shape f)) (rev (seq 0 (length (f_shape f)))).
Proof.
  intros (Hn & _). split; [|split].
  - unfold field_transpose. rewrite nonempty_dims by exact Hn. rewrite Nat2Z.id. unfold zlist. now rewrite map_rev.
  - apply mapM_py_pos_nat. intros k Hk. apply in_rev, in_seq in Hk. lia.
  - apply Permutation_sym, Permutation_rev.
Qed.
Lemma swapaxes_positions {V} (f : field V) a b ka kb : orderly f ->
  py_pos (length (f_shape f)) a = Ok ka -> py_pos (length (f_shape f)) b = Ok kb ->
  exists g, field_swapaxes f a b = Ok g /\ orderly g /\
    f_shape g = put2 (f_shape f) ka (nth kb (f_shape f) 0%Z) kb (nth ka (f_shape f) 0%Z) /\
    f_axes g = put2 (f_axes f) ka (nth kb (f_axes f) axis0) kb (nth ka (f_axes f) axis0) /\
    (forall idx, length idx = length (f_shape f) ->
       a_at (f_data g) idx = a_at (f_data f) (put2 idx ka (nth kb idx 0%Z) kb (nth ka idx 0%Z))) /\
    (forall c v, length c = length (f_shape f) -> (sample g (put2 c ka (nth kb c 0) kb (nth ka c 0)) v <-> sample f c v)).
Proof.
  intros Hf Ha Hb. destruct (swapaxes_total f a b ka kb Hf Ha Hb) as (g & E & T & Hg). exists g. split; [exact E|]. split; [exact Hg|].
  apply py_pos_ok in Ha as [Ha _]. apply py_pos_ok in Hb as [Hb _]. pose proof (orderly_length f Hf) as La.
  destruct (transposed_swap ka kb f g La Ha Hb T) as (H1 & H2 & H3). repeat (split; [assumption|]).
  now apply swap_samples.
Qed.
Lemma transposed_samples {V} (f g : field V) axes p : orderly f ->
  mapM (py_pos (length (f_shape f))) axes = Ok p -> rearranges (length (f_shape f)) p ->
  field_transpose f (Some axes) = Ok g ->
  forall c v, length c = length (f_shape f) -> (sample g (map (fun k => nth k c 0) p) v <-> sample f c v).
Proof.
  intros Hf Hm Hp H. apply rearranges_perm in Hp. destruct (transpose_total f axes p Hf Hm Hp) as (g' & E & (D & A & _) & _).
  rewrite H in E. injection E as <-. pose proof (orderly_length f Hf). now apply (transpose_samples p f g).
Qed.
Lemma flip_keeps {V} spl (f : field V) a k : orderly f -> py_pos (length (f_shape f)) a = Ok k ->
  exists g, field_flip spl f a = Ok g /\ orderly g /\ f_shape g = f_shape f /\
    Forall2 axis_same (f_axes g) (upd (f_axes f) k (axis_back (nth k (f_axes f) axis0))) /\
    (forall idx, length idx = length (f_shape f) ->
       a_at (f_data g) idx = a_at (f_data f) (upd idx k (nth k (f_shape f) 0 - 1 - nth k idx 0)%Z)) /\
    (forall c v, sample g c v <-> sample f c v).
Proof.
  intros Hf Hk. destruct (flip_total spl f a k Hf Hk) as (g & E & F & Hg). exists g. split; [exact E|]. split; [exact Hg|].
  apply py_pos_ok in Hk as [Hk _]. pose proof (flipped_axes _ _ _ F) as [S A]. pose proof (orderly_length f Hf) as La.
  split; [exact S|]. split; [|split].
  - rewrite A. apply axes_same_upd; [apply axes_same_refl|]. apply axis_rev_back.
    destruct Hf as (_ & _ & Hp & _). rewrite Forall_forall in Hp. apply Hp, nth_In. lia.
  - destruct F as ((_ & V') & _). exact V'.
  - now apply (flip_samples k).
Qed.
Lemma rot90_keeps {V} spl (f : field V) k a0 a1 a b : orderly f ->
  py_pos (length (f_shape f)) a0 = Ok a -> py_pos (length (f_shape f)) a1 = Ok b -> a <> b ->
  exists g, field_rot90 spl f k a0 a1 = Ok g /\ orderly g /\ turned_samples (k mod 4) a b f g /\
  (let na := nth a (f_shape f) 0%Z in let nb := nth b (f_shape f) 0%Z in
   f_shape g = put2 (f_shape f) a (fst (turn_pair (k mod 4) na nb)) b (snd (turn_pair (k mod 4) na nb)) /\
   forall idx, length idx = length (f_shape f) ->
     let ij := turn_index (k mod 4) na nb (nth a idx 0%Z) (nth b idx 0%Z) in
     a_at (f_data g) idx = a_at (f_data f) (put2 idx a (fst ij) b (snd ij))) /\
  let xy := turn_axes (k mod 4) (nth a (f_axes f) axis0) (nth b (f_axes f) axis0) in
  Forall2 axis_same (f_axes g) (put2 (f_axes f) a (fst xy) b (snd xy)).
Proof.
  intros Hf Ha Hb N. destruct (rot90_total spl f k a0 a1 a b Hf Ha Hb N) as (g & E & R & Hg & S).
  exists g. split; [exact E|]. split; [exact Hg|]. split; [exact S|].
  apply py_pos_ok in Ha as [Ha _]. apply py_pos_ok in Hb as [Hb _].
  pose proof (rotated_turn_axes _ a b f g Hf Ha Hb R) as A. destruct R as (R1 & R2 & _). split; [split; assumption|exact A].
Qed.
