(** Lemmas about particle histories (C39). *)
From Coq Require Import Lia Qround Permutation.
From Verif Require Import PyBase PyBaseFacts NumpyModel NumpyFacts NdModel NdFacts FieldModel FieldReduceFacts HelperModel HelperFacts ParticleModel ParticleSpec ParticleFacts ParticleOps ParticleHist ParticleRun ParticleLaws StatLaws HistoryModel HistorySpec.

(** ** integer arrays are at most reordered *)
Definition kept (w w' : world) : Prop :=
  (length (w_ids w) <= length (w_ids w'))%nat /\ forall k, (k < length (w_ids w))%nat -> Permutation (nth k (w_ids w) []) (nth k (w_ids w') []).
Definition keeps {A} (m : M A) : Prop := forall w, kept w (fst (m w)).
Lemma kept_refl w : kept w w. Proof. split; [lia|]. intros. apply Permutation_refl. Qed.
Lemma kept_trans a b c : kept a b -> kept b c -> kept a c.
Proof. intros [L1 P1] [L2 P2]. split; [lia|]. intros k K. eapply Permutation_trans; [apply P1, K|apply P2; lia]. Qed.
Lemma kept_same w w' : w_ids w' = w_ids w -> kept w w'.
Proof. intro E. unfold kept. rewrite E. split; [lia|]. intros. apply Permutation_refl. Qed.
Lemma keeps_bind {A B} (m : M A) (f : A -> M B) : keeps m -> (forall a, keeps (f a)) -> keeps (mbind m f).
Proof.
  intros H K w. unfold mbind. specialize (H w). destruct (m w) as [w' [a|e]]; cbn [fst] in *; [|exact H].
  eapply kept_trans; [exact H|apply K].
Qed.
Lemma keeps_ret {A} (a : A) : keeps (mret a). Proof. intro w. apply kept_refl. Qed.
Lemma keeps_raise {A} e : keeps (@mraise A e). Proof. intro w. apply kept_refl. Qed.
Lemma keeps_lift {A} (r : res A) : keeps (mlift r). Proof. intro w. apply kept_refl. Qed.
Lemma keeps_mmap {A B} (f : A -> M B) l : (forall a, keeps (f a)) -> keeps (mmap f l).
Proof.
  intro H. induction l as [|x l IH]; [apply keeps_ret|]. cbn [mmap]. apply keeps_bind; [apply H|]. intro y. apply keeps_bind; [exact IH|]. intro. apply keeps_ret.
Qed.
Lemma keeps_get_obj i : keeps (get_obj i). Proof. intro w. apply kept_refl. Qed.
Lemma keeps_put_obj i s : keeps (put_obj i s). Proof. intro w. apply kept_same. reflexivity. Qed.
Lemma keeps_new_obj s : keeps (new_obj s). Proof. intro w. apply kept_same. reflexivity. Qed.
Lemma keeps_new_bools s : keeps (new_bools s). Proof. intro w. apply kept_same. reflexivity. Qed.
Lemma keeps_new_ms s : keeps (new_ms s). Proof. intro w. apply kept_same. reflexivity. Qed.
Lemma keeps_put_ms m s : keeps (put_ms m s). Proof. intro w. apply kept_same. reflexivity. Qed.
Lemma keeps_get_ms m : keeps (get_ms m). Proof. intro w. apply kept_refl. Qed.
Lemma keeps_get_view v : keeps (get_view v). Proof. intro w. apply kept_refl. Qed.
Lemma keeps_sort_ids k : keeps (sort_ids k).
Proof.
  intro w. cbn [sort_ids fst]. split; cbn [w_ids]; [rewrite length_upd; lia|]. intros j J.
  destruct (Nat.lt_ge_cases k (length (w_ids w))) as [L|L].
  - rewrite nth_upd by exact L. destruct (Nat.eqb_spec j k) as [->|]; [apply Permutation_sym, sort_Z_perm|apply Permutation_refl].
  - rewrite upd_over by exact L. apply Permutation_refl.
Qed.
Lemma keeps_new_ids l : keeps (new_ids l).
Proof. intro w. cbn [new_ids fst]. split; cbn [w_ids]; [rewrite app_length; lia|]. intros j J. rewrite app_nth1 by exact J. apply Permutation_refl. Qed.
Create HintDb keep.
#[export] Hint Resolve keeps_ret keeps_raise keeps_lift keeps_get_obj keeps_put_obj keeps_new_obj keeps_new_bools keeps_new_ms keeps_put_ms keeps_get_ms keeps_get_view keeps_sort_ids keeps_new_ids : keep.
Ltac kp := repeat (first [solve [eauto 2 with keep] | match goal with |- keeps (mbind _ _) => apply keeps_bind; [|intro] end | match goal with |- keeps (mmap _ _) => apply keeps_mmap; intro end | match goal with |- keeps (match ?x with _ => _ end) => destruct x end]).
Lemma keeps_readatomic i key : keeps (readatomic i key).
Proof. unfold readatomic. kp. Qed.
#[export] Hint Resolve keeps_readatomic : keep.
Lemma keeps_len_keys i keys : keeps (len_keys i keys).
Proof.
  induction keys as [|k keys IH]; [apply keeps_ret|]. intro w. cbn [len_keys]. pose proof (keeps_readatomic i k w) as H.
  destruct (readatomic i k w) as [w' [[q|l|n]|[]]]; cbn [fst] in *; try exact H; eapply kept_trans; try exact H; apply IH.
Qed.
#[export] Hint Resolve keeps_len_keys : keep.
Lemma keeps_len_single i : keeps (len_single i). Proof. unfold len_single. kp. Qed.
#[export] Hint Resolve keeps_len_single : keep.
Lemma keeps_compress_bool i v : keeps (compress_bool i v). Proof. unfold compress_bool. kp. Qed.
#[export] Hint Resolve keeps_compress_bool : keep.
Lemma keeps_compress_int i k : keeps (compress_int i k). Proof. unfold compress_int. kp. Qed.
#[export] Hint Resolve keeps_compress_int : keep.
Lemma keeps_eval_single {A} i (e : expr A) : keeps (eval_single i e). Proof. unfold eval_single. kp. Qed.
#[export] Hint Resolve keeps_eval_single : keep.
Lemma keeps_filter_single e i : keeps (filter_single e i). Proof. unfold filter_single. kp. Qed.
Lemma keeps_new_single d n : keeps (new_single d n). Proof. unfold new_single. kp. Qed.
#[export] Hint Resolve keeps_filter_single keeps_new_single : keep.
Lemma keeps_add_species d ig names : keeps (add_species d ig names).
Proof.
  induction names as [|n names IH]; [apply keeps_ret|]. intro w. cbn [add_species]. pose proof (keeps_new_single d n w) as H.
  destruct (new_single d n w) as [w' [i|[]]]; cbn [fst] in *; try exact H.
  - eapply kept_trans; [exact H|]. apply keeps_bind; [exact IH|]. intro. apply keeps_ret.
  - destruct ig; [|exact H]. eapply kept_trans; [exact H|apply IH].
Qed.
#[export] Hint Resolve keeps_add_species : keep.
Lemma keeps_ms_new d names ig : keeps (ms_new d names ig). Proof. unfold ms_new. kp. Qed.
Lemma keeps_ms_len m : keeps (ms_len m). Proof. unfold ms_len. kp. Qed.
Lemma keeps_copy_single i : keeps (copy_single i). Proof. unfold copy_single. kp. Qed.
#[export] Hint Resolve keeps_ms_new keeps_ms_len keeps_copy_single : keep.
Lemma keeps_ms_iadd m o : keeps (ms_iadd m o). Proof. unfold ms_iadd. kp. Qed.
#[export] Hint Resolve keeps_ms_iadd : keep.
Lemma keeps_ms_add m o : keeps (ms_add m o). Proof. unfold ms_add. kp. Qed.
Lemma keeps_ms_filter m e : keeps (ms_filter m e). Proof. unfold ms_filter. kp. Qed.
Lemma keeps_compress_each v is : forall pos, keeps (compress_each v pos is).
Proof. induction is as [|i is IH]; intro pos; cbn [compress_each]; kp. Qed.
#[export] Hint Resolve keeps_compress_each : keep.
Lemma keeps_ms_compress m v : keeps (ms_compress m v). Proof. unfold ms_compress. kp. Qed.
Lemma keeps_ms_compress_ids m k : keeps (ms_compress_ids m k). Proof. unfold ms_compress_ids. kp. Qed.
Lemma keeps_invert_single i : keeps (invert_single i). Proof. unfold invert_single. kp. Qed.
Lemma keeps_uncompress_single i : keeps (uncompress_single i). Proof. unfold uncompress_single. kp. Qed.
#[export] Hint Resolve keeps_invert_single keeps_uncompress_single : keep.
Lemma keeps_ms_invert m : keeps (ms_invert m). Proof. unfold ms_invert. kp. Qed.
Lemma keeps_ms_uncompress m : keeps (ms_uncompress m). Proof. unfold ms_uncompress. kp. Qed.
Lemma keeps_call_single {A} (e : expr A) i : keeps (call_single e i). Proof. unfold call_single. kp. Qed.
#[export] Hint Resolve keeps_call_single : keep.
Lemma keeps_ms_call {A} m (e : expr A) : keeps (ms_call m e). Proof. unfold ms_call. kp. Qed.
Lemma kept_step o w : kept w (step o w).
Proof.
  destruct o; cbn [step]; unfold forget;
    [apply keeps_ms_new|apply keeps_new_bools|exact (keeps_new_ids l w)|apply kept_same; reflexivity|apply keeps_ms_compress|apply keeps_ms_compress_ids|
     apply keeps_ms_filter|apply keeps_ms_invert|apply keeps_ms_uncompress|apply keeps_ms_add|apply keeps_ms_iadd|apply keeps_ms_len|apply keeps_ms_call].
Qed.
Lemma later_kept sizes w s w' s' : later sizes w s w' s' -> kept w w'.
Proof. induction 1 as [|o w' s' L IH A]; [apply kept_refl|]. eapply kept_trans; [exact IH|apply kept_step]. Qed.
Lemma later_history sizes w s w' s' : history sizes w s -> later sizes w s w' s' -> history sizes w' s'.
Proof. intros H. induction 1 as [|o w' s' L IH A]; [exact H|]. now apply h_step. Qed.
Lemma later_trans sizes w s w1 s1 w2 s2 : later sizes w s w1 s1 -> later sizes w1 s1 w2 s2 -> later sizes w s w2 s2.
Proof. intros H. induction 1 as [|o w' s' L IH A]; [exact H|]. now apply l_step. Qed.

(** ** one dump *)
Lemma mapM_ext_in' {A B} (f g : A -> res B) l : (forall x, In x l -> f x = g x) -> mapM f l = mapM g l.
Proof. induction l as [|x l IH]; intro H; [reflexivity|]. cbn [mapM]. rewrite (H x (or_introl eq_refl)), IH; [reflexivity|]. intros y I. apply H. now right. Qed.
Section Collect.
Context (sizes : dump -> string -> nat).
Notation oinv := (oinv sizes).
Notation awf := (awf sizes).
Notation group_of := (group_of sizes).
Definition pdump (names : list string) (ids : list Z) (fs : list (expr Q)) (d : dump) : res (list Z * list (list Q)) :=
  let! os := mapM (aids ids) (map (fun n => mkaobj d n AAll) (filter (there d) names)) in
  let n := fold_right Nat.add 0%nat (map (count sizes) os) in
  let! rows := mapM (fun f => let! v := pcall sizes f os in as_row n v) fs in
  let! v := pcall sizes id_expr os in
  let! l := as_ints v in
  Ok (l, rows).
Lemma oinv_len w oss : oinv w oss -> length (w_ms w) = length oss.
Proof. intro O. exact (Forall2_len' _ _ _ (oi_ms _ _ _ O)). Qed.
Lemma rows_op w oss m n fs : oinv w oss -> (m < length (w_ms w))%nat ->
  exists w2, mmap (fun f => do! v := ms_call m f in mlift (as_row n v)) fs w = (w2, mapM (fun f => let! v := pcall sizes f (nth m oss []) in as_row n v) fs) /\ oinv w2 oss.
Proof.
  revert w. induction fs as [|f fs IH]; intros w O L; [exists w; split; [reflexivity|exact O]|]. cbn [mmap mapM].
  destruct (call_op sizes f w oss m O L) as [w1 [C O1]].
  assert (L1 : (m < length (w_ms w1))%nat) by (rewrite (oinv_len _ _ O1), <- (oinv_len _ _ O); exact L).
  destruct (pcall sizes f (nth m oss [])) as [v|x] eqn:P; cbn [bind].
  - assert (E : (do! v := ms_call m f in mlift (as_row n v)) w = (w1, as_row n v)) by (rewrite (mbind_eq _ _ _ _ _ C); reflexivity).
    destruct (as_row n v) as [r|x]; cbn [bind].
    + rewrite (mbind_eq _ _ _ _ _ E). destruct (IH w1 O1 L1) as [w2 [R O2]].
      destruct (mapM _ fs) as [rs|x]; cbn [bind]; [rewrite (mbind_eq _ _ _ _ _ R)|rewrite (mbind_err _ _ _ _ _ R)]; exists w2; split; auto.
    + rewrite (mbind_err _ _ _ _ _ E). exists w1. split; [reflexivity|exact O1].
  - assert (E : (do! v := ms_call m f in mlift (as_row n v)) w = (w1, Err x)) by (rewrite (mbind_err _ _ _ _ _ C); reflexivity).
    rewrite (mbind_err _ _ _ _ _ E). exists w1. split; [reflexivity|exact O1].
Qed.
Lemma dump_op names k fs d w oss : oinv w oss -> (k < length (w_ids w))%nat -> (forall n, In n names -> dump_ok d n (sizes d n)) ->
  exists w2 oss2, collect_dump names k fs d w = (w2, pdump names (nth k (w_ids w) []) fs d) /\ oinv w2 oss2.
Proof.
  intros O K D. unfold collect_dump, pdump. destruct (new_op sizes w oss d names true O D) as [w1 [E1 O1]].
  pose proof (keeps_ms_new d names true w) as K1. rewrite E1 in K1. cbn [fst] in K1.
  rewrite (mbind_eq _ _ _ _ _ E1). cbn [anew orb] in O1.
  assert (L1 : (length (w_ms w) < length (w_ms w1))%nat) by (rewrite (oinv_len _ _ O1), app_length, (oinv_len _ _ O); cbn; lia).
  destruct (ids_op sizes w1 _ (length (w_ms w)) k O1 L1) as [w2 [E2 O2]].
  rewrite (oinv_len _ _ O), app_nth2, Nat.sub_diag in E2, O2 by lia. cbn [nth] in E2, O2.
  assert (X : mapM (aids (nth k (w_ids w1) [])) (map (fun n => mkaobj d n AAll) (filter (there d) names)) =
              mapM (aids (nth k (w_ids w) [])) (map (fun n => mkaobj d n AAll) (filter (there d) names))).
  { apply mapM_ext_in'. intros o _. apply aids_set. intro z. destruct K1 as [_ K1]. specialize (K1 k K).
    split; apply Permutation_in; [apply Permutation_sym|]; exact K1. }
  unfold anew in *. cbn [orb] in *. rewrite X in E2, O2. rewrite (oinv_len _ _ O).
  destruct (mapM _ _) as [os|x]; cbn [bind].
  - rewrite (mbind_eq _ _ _ _ _ E2). set (m := length (w_ms w1)) in *.
    assert (L2 : (m < length (w_ms w2))%nat) by (rewrite (oinv_len _ _ O2), app_length; unfold m; rewrite (oinv_len _ _ O1); cbn; lia).
    assert (N2 : nth m ((oss ++ [map (fun n => mkaobj d n AAll) (filter (there d) names)]) ++ [os]) [] = os).
    { unfold m. rewrite (oinv_len _ _ O1), app_nth2, Nat.sub_diag by lia. reflexivity. }
    destruct (len_op sizes w2 _ m O2 L2) as [w3 [E3 O3]]. rewrite N2 in E3. rewrite (mbind_eq _ _ _ _ _ E3).
    assert (L3 : (m < length (w_ms w3))%nat) by (rewrite (oinv_len _ _ O3), <- (oinv_len _ _ O2); exact L2).
    destruct (rows_op w3 _ m (fold_right Nat.add 0%nat (map (count sizes) os)) fs O3 L3) as [w4 [E4 O4]]. rewrite N2 in E4.
    destruct (mapM _ fs) as [rows|x]; cbn [bind]; [rewrite (mbind_eq _ _ _ _ _ E4)|rewrite (mbind_err _ _ _ _ _ E4); eauto].
    assert (L4 : (m < length (w_ms w4))%nat) by (rewrite (oinv_len _ _ O4), <- (oinv_len _ _ O2); exact L2).
    destruct (call_op sizes id_expr w4 _ m O4 L4) as [w5 [E5 O5]]. rewrite N2 in E5.
    destruct (pcall sizes id_expr os) as [v|x]; cbn [bind]; [rewrite (mbind_eq _ _ _ _ _ E5)|rewrite (mbind_err _ _ _ _ _ E5); eauto].
    unfold mbind, mlift, mret. destruct (as_ints v) as [l|x]; cbn [bind]; (eexists; eexists; split; [reflexivity|exact O5]).
  - rewrite (mbind_err _ _ _ _ _ E2). eauto.
Qed.
End Collect.
