(** Histories of particle collections (C33-C38). *)
From Coq Require Import Lia Qround Permutation Sorted.
From Verif Require Import PyBase PyBaseFacts NumpyModel NumpyFacts NdModel NdFacts FieldModel FieldReduceFacts HelperModel HelperFacts ParticleModel ParticleSpec ParticleFacts ParticleOps.

Lemma keep_picked {A} b : forall (l : list A), keep b l = picked b l.
Proof. unfold keep. induction b as [|[] b IH]; intros [|x l]; cbn; auto. now rewrite IH. Qed.
Lemma picked_map {A B} (f : A -> B) b : forall l, picked b (map f l) = map f (picked b l).
Proof. induction b as [|[] b IH]; intros [|x l]; cbn; auto. now rewrite IH. Qed.
Lemma picked_filter {A} (f : A -> bool) l : picked (map f l) l = filter f l.
Proof. induction l as [|x l IH]; cbn; auto. destruct (f x); now rewrite IH. Qed.
Lemma picked_app {A} b : forall c (l m : list A), length b = length l -> picked (b ++ c) (l ++ m) = picked b l ++ picked c m.
Proof.
  induction b as [|[] b IH]; intros c [|x l] m H; cbn in *; auto; try discriminate; rewrite IH by lia; reflexivity.
Qed.
(** positions selected by a mask *)
Lemma picked_seq b : forall k, picked b (seq k (length b)) = filter (fun i => nth (i - k) b false) (seq k (length b)).
Proof.
  induction b as [|x b IH]; intro k; [reflexivity|]. cbn [length seq picked filter]. rewrite Nat.sub_diag. change (nth 0 (x :: b) false) with x.
  assert (E : filter (fun i => nth (i - k) (x :: b) false) (seq (S k) (length b)) = filter (fun i => nth (i - S k) b false) (seq (S k) (length b))).
  { apply filter_ext_in. intros i I. apply in_seq in I. replace (i - k)%nat with (S (i - S k)) by lia. reflexivity. }
  rewrite E, <- IH. reflexivity.
Qed.
Lemma picked_nth {A} (l : list A) (d : A) b : length b = length l -> picked b l = map (fun i => nth i l d) (picked b (seq 0 (length b))).
Proof.
  intro L. rewrite <- picked_map. f_equal. rewrite L. clear. 
  transitivity (map (fun i => nth (i - 0) l d) (seq 0 (length l))).
  2:{ apply map_ext. intro. now rewrite Nat.sub_0_r. }
  generalize 0%nat. induction l as [|x l IH]; intro k; [reflexivity|]. cbn [length seq map]. rewrite Nat.sub_diag. cbn [nth]. f_equal.
  etransitivity; [apply (IH (S k))|]. apply map_ext_in. intros i I. apply in_seq in I. replace (i - k)%nat with (S (i - S k)) by lia. reflexivity.
Qed.

Section Hist.
Variable sizes : dump -> string -> nat.
Notation winv := (winv sizes).
Notation obj_ok := (obj_ok sizes).
Notation awf := (awf sizes).
Notation count := (count sizes).

Definition npart (o : aobj) : nat := sizes (a_dump o) (a_name o).
Definition sel_of (o : aobj) : list nat :=
  match a_mask o with AAll => seq 0 (npart o) | ANone => [] | ASome b => picked b (seq 0 (npart o)) end.
Definition group_of (o : aobj) : group := mkgroup (a_dump o) (a_name o) (npart o) (sel_of o).
Lemma sel_length o : awf o -> length (sel_of o) = count o.
Proof.
  intros [_ [_ L]]. unfold sel_of, ParticleFacts.count. destruct (a_mask o); [apply seq_length|reflexivity|].
  apply picked_length. now rewrite seq_length.
Qed.
Lemma acompress_wf o c : awf o -> length c = count o -> awf (acompress o c).
Proof.
  intros [A [B C]] L. split; [exact A|split; [exact B|]]. cbn [acompress a_mask a_dump a_name]. unfold ParticleFacts.count in L.
  destruct (a_mask o); auto. now rewrite refine_length.
Qed.
Lemma group_compress o c : awf o -> length c = count o -> group_of (acompress o c) = with_sel (group_of o) (keep c (sel_of o)).
Proof.
  intros W L. unfold group_of, with_sel. cbn [acompress a_dump a_name g_dump g_name g_count]. f_equal. rewrite keep_picked.
  pose proof W as [_ [_ B]]. unfold sel_of, npart, acompress, ParticleFacts.count in *. cbn [a_mask a_dump a_name].
  destruct (a_mask o) as [| |b]; [reflexivity|now destruct c|]. apply picked_refine; [|exact L]. now rewrite seq_length.
Qed.
Lemma ainvert_wf o o' : awf o -> ainvert o = Ok o' -> awf o'.
Proof.
  intros [A [B C]] E. injection E as <-. split; [exact A|split; [exact B|]]. cbn [a_mask a_dump a_name].
  destruct (a_mask o); auto. now rewrite map_length.
Qed.
Lemma existsb_filter (P : nat -> bool) l i : In i l -> existsb (Nat.eqb i) (filter P l) = P i.
Proof.
  intro I. apply eq_true_iff_eq. rewrite existsb_exists. split.
  - intros [x [J E]]. apply filter_In in J. apply Nat.eqb_eq in E. subst. apply J.
  - intro H. exists i. split; [now apply filter_In|apply Nat.eqb_refl].
Qed.
Lemma sel_filter o : awf o -> exists P, sel_of o = filter P (seq 0 (npart o)).
Proof.
  intros [_ [_ L]]. unfold sel_of. destruct (a_mask o) as [| |b].
  - exists (fun _ => true). symmetry. apply filter_every. auto.
  - exists (fun _ => false). symmetry. apply filter_none. auto.
  - exists (fun i => nth (i - 0) b false). unfold npart. rewrite <- L. apply picked_seq.
Qed.
Lemma group_invert o o' : awf o -> ainvert o = Ok o' -> group_of o' = complement (group_of o).
Proof.
  intros [_ [_ L]] E. injection E as <-. unfold group_of, complement, with_sel. cbn [a_dump a_name g_dump g_name g_count g_sel]. f_equal.
  unfold sel_of. cbn [a_mask]. unfold npart. cbn [a_dump a_name]. set (n := sizes (a_dump o) (a_name o)) in *.
  destruct (a_mask o) as [| |b].
  - symmetry. apply filter_none. intros i I. apply negb_false_iff, existsb_exists. exists i. split; [exact I|apply Nat.eqb_refl].
  - symmetry. apply filter_every. intros i I. reflexivity.
  - rewrite <- L. rewrite <- (map_length negb b) at 1. rewrite !picked_seq, map_length. apply filter_ext_in. intros i I.
    rewrite existsb_filter by exact I. apply in_seq in I. rewrite (nth_indep (map negb b) false (negb false)) by (rewrite map_length; lia).
    now rewrite map_nth.
Qed.
(** ** Values *)
Lemma convert_value d name n key x l : dump_ok d name n -> dumped d name key = Some x -> convert key x = DVec l ->
  length l = n /\ forall i, nth i l 0 = value d name i key.
Proof.
  intros D E C. pose proof (convert_vec key x) as K. destruct x as [q|l0|m]; rewrite C in K; cbv iota in K; try contradiction.
  rewrite K. split; [eapply dumped_vec; eauto|]. intro i. unfold value. rewrite E. unfold convert in C.
  destruct (String.eqb key "id").
  - injection C as <-. exact (map_nth (fun q => inject_Z (trunc q)) l0 0 i).
  - now injection C as <-.
Qed.
Lemma convert_scalar d name key x q : dumped d name key = Some x -> convert key x = DScalar q -> forall i, q = value d name i key.
Proof.
  intros E C i. unfold value. rewrite E. unfold convert in C. destruct x, (String.eqb key "id"); try discriminate; now injection C as <-.
Qed.
Lemma aread_item o key d : awf o -> aread o key = Ok d -> forall j, (j < count o)%nat ->
  item d j = value (a_dump o) (a_name o) (nth j (sel_of o) 0%nat) key.
Proof.
  intros W R j J. pose proof W as [D [_ L]]. unfold aread in R. destruct (dumped (a_dump o) (a_name o) key) as [x|] eqn:E; [|discriminate].
  destruct (convert key x) as [q|l|n] eqn:C; [| |discriminate].
  - injection R as <-. cbn [item]. eapply convert_scalar; eauto.
  - destruct (convert_value _ _ _ _ _ _ D E C) as [K V]. unfold sel_of. unfold ParticleFacts.count in J. destruct (a_mask o) as [| |b]; [|lia|].
    + injection R as <-. cbn [item]. rewrite V, seq_nth by exact J. reflexivity.
    + injection R as <-. cbn [item]. rewrite (picked_nth l 0 b) by congruence. unfold npart. rewrite <- L.
      rewrite (nth_indep _ 0 (nth 0%nat l 0)).
      2:{ rewrite map_length, picked_length by now rewrite seq_length. exact J. }
      rewrite (map_nth (fun i => nth i l 0)). apply V.
Qed.
Lemma aread_shape o key d : awf o -> aread o key = Ok d ->
  match d with DScalar _ => True | DVec l => a_mask o <> ANone /\ length l = count o | DVoid n => a_mask o = ANone /\ n = npart o end.
Proof.
  intros W R. destruct d as [q|l|n]; auto.
  - split; [|eapply aread_vec_length; eauto]. intro A. unfold aread in R. rewrite A in R.
    destruct (dumped (a_dump o) (a_name o) key) as [x|]; [|discriminate]. destruct (convert key x); discriminate.
  - unfold aread in R. destruct (dumped (a_dump o) (a_name o) key) as [x|] eqn:E; [|discriminate].
    destruct (convert key x) as [|l|] eqn:C; try discriminate. destruct W as [D _]. destruct (convert_value _ _ _ _ _ _ D E C) as [K V].
    destruct (a_mask o); try discriminate. injection R as <-. auto.
Qed.
Lemma aread_ok o key : awf o -> known (a_dump o) (a_name o) key -> exists d, aread o key = Ok d.
Proof.
  intros [D _] H. unfold aread. unfold known in H. destruct (dumped (a_dump o) (a_name o) key) as [x|] eqn:E; [|contradiction].
  destruct (convert key x) as [q|l|n] eqn:C; eauto. pose proof (convert_vec key x) as K.
  destruct x; rewrite C in K; cbv iota in K; try contradiction. exfalso. eapply dumped_void; eauto.
Qed.
Lemma shape_none ds : shape_of ds = None -> Forall (fun d => data_scalar d = true) ds.
Proof. induction ds as [|[] ds IH]; cbn; intro H; try discriminate; constructor; auto. Qed.
Lemma shape_some ds b n : shape_of ds = Some (b, n) -> exists d, In d ds /\ (if b then exists l, d = DVec l /\ length l = n else d = DVoid n).
Proof.
  induction ds as [|[q|l|m] ds IH]; cbn [shape_of]; intro H; try discriminate.
  - destruct (IH H) as [d [I P]]. exists d. split; [now right|exact P].
  - injection H as <- <-. exists (DVec l). split; [now left|eauto].
  - injection H as <- <-. exists (DVoid m). split; [now left|reflexivity].
Qed.
Lemma mapM_Forall2 {A B} (f : A -> res B) l : forall r, mapM f l = Ok r -> Forall2 (fun x y => f x = Ok y) l r.
Proof.
  induction l as [|x l IH]; intros r H; cbn in H; [injection H as <-; constructor|].
  destruct (f x) as [y|] eqn:E; [|discriminate]. cbn in H. destruct (mapM f l) as [ys|]; [|discriminate]. injection H as <-. constructor; auto.
Qed.
Lemma items_values o : awf o -> forall keys ds j, Forall2 (fun k d => aread o k = Ok d) keys ds -> (j < count o)%nat ->
  map (fun d => item d j) ds = map (value (a_dump o) (a_name o) (nth j (sel_of o) 0%nat)) keys.
Proof. intros W keys ds j F J. induction F as [|k d keys ds R F IH]; [reflexivity|]. cbn. rewrite IH. f_equal. now apply aread_item. Qed.
(** evaluation of an expression on one species *)
Lemma aeval_spec {A} (e : expr A) o v : awf o -> aeval o e = Ok v ->
  match v with
  | VScalar a => forall i, a = expr_value e (group_of o) i
  | VVec l => l = group_values e (group_of o) /\ a_mask o <> ANone
  | VVoid n => a_mask o = ANone /\ n = npart o
  end.
Proof.
  intros W H. unfold aeval in H. destruct (mapM (aread o) (e_keys e)) as [ds|] eqn:E; [|discriminate]. cbn [bind] in H.
  apply mapM_Forall2 in E. unfold apply_expr in H. destruct (shape_of ds) as [[b n]|] eqn:S.
  - destruct (forallb (has_shape b n) ds) eqn:F; [|discriminate]. injection H as <-.
    apply shape_some in S. destruct S as [d [I P]].
    assert (X : exists k, aread o k = Ok d).
    { clear - E I. induction E as [|k y keys ds R E IH]; [destruct I|]. destruct I as [->|I]; eauto. }
    destruct X as [k R]. pose proof (aread_shape o k d W R) as Sh. destruct b.
    + destruct P as [l [-> <-]]. destruct Sh as [N Sh]. split; [|exact N]. rewrite Sh. unfold group_values, expr_value. cbn [group_of g_dump g_name g_sel].
      rewrite <- (sel_length o W).
      transitivity (map (fun i => e_fn e (map (value (a_dump o) (a_name o) (nth i (sel_of o) 0%nat)) (e_keys e))) (seq 0 (length (sel_of o)))).
      * apply map_ext_in. intros j J. f_equal. apply items_values; auto. apply in_seq in J. rewrite (sel_length o W) in J. lia.
      * rewrite <- (map_map (fun i => nth i (sel_of o) 0%nat) (fun i => e_fn e (map (value (a_dump o) (a_name o) i) (e_keys e)))).
        f_equal. clear. generalize (sel_of o). intro l. induction l as [|x l IH]; [reflexivity|]. cbn [length seq map]. f_equal.
        rewrite <- seq_shift, map_map. exact IH.
    + subst d. exact Sh.
  - injection H as <-. intro i. unfold expr_value. cbn [group_of g_dump g_name]. f_equal. apply shape_none in S.
    clear - E S. induction E as [|k d keys ds R E IH]; [reflexivity|]. inversion S as [|? ? S1 S2]; subst. cbn. rewrite (IH S2). f_equal.
    destruct d as [q|l|n]; try discriminate. cbn [item]. unfold aread in R.
    destruct (dumped (a_dump o) (a_name o) k) as [x|] eqn:D; [|discriminate].
    destruct (convert k x) as [q'|l|n] eqn:C; [injection R as <-; eapply convert_scalar; eauto| |discriminate]. destruct (a_mask o); discriminate.
Qed.
Lemma aeval_error {A} (e : expr A) o x : awf o -> aeval o e = Err x -> x = KeyError /\ exists key, In key (e_keys e) /\ dumped (a_dump o) (a_name o) key = None.
Proof.
  intros W H. unfold aeval in H. destruct (mapM (aread o) (e_keys e)) as [ds|y] eqn:E; cbn [bind] in H.
  - exfalso. apply mapM_Forall2 in E. unfold apply_expr in H. destruct (shape_of ds) as [[b n]|] eqn:S; [|discriminate].
    assert (T : forallb (has_shape b n) ds = true); [|rewrite T in H; discriminate].
    assert (F : forall d, In d ds -> exists k, aread o k = Ok d).
    { clear - E. induction E as [|k y keys ds R E IH]; intros d I; [destruct I|]. destruct I as [->|I]; eauto. }
    apply shape_some in S. destruct S as [d [I P]]. destruct (F d I) as [k R]. pose proof (aread_shape o k d W R) as Sh.
    apply forallb_forall. intros d' I'. destruct (F d' I') as [k' R']. pose proof (aread_shape o k' d' W R') as Sh'.
    unfold has_shape. destruct d' as [q|l|m]; auto.
    + destruct Sh' as [N1 N2]. destruct b.
      * destruct P as [l0 [-> <-]]. destruct Sh as [_ Sh]. apply andb_true_intro. split; [reflexivity|]. apply Nat.eqb_eq. congruence.
      * subst d. destruct Sh. contradiction.
    + destruct Sh' as [N1 N2]. destruct b.
      * destruct P as [l0 [-> <-]]. destruct Sh. contradiction.
      * subst d. destruct Sh as [_ Sh]. apply andb_true_intro. split; [reflexivity|]. apply Nat.eqb_eq. congruence.
  - assert (exists key, In key (e_keys e) /\ aread o key = Err x) as [key [I R]].
    { injection H as <-. clear - E. revert E. induction (e_keys e) as [|k keys IH]; cbn; [discriminate|]. destruct (aread o k) as [d|z] eqn:R.
      - cbn. destruct (mapM (aread o) keys); [discriminate|]. cbn. intro E. destruct (IH E) as [key [I Q]]. eauto.
      - cbn. intros [= <-]. exists k. auto. }
    destruct (dumped (a_dump o) (a_name o) key) as [z|] eqn:D.
    + exfalso. destruct (aread_ok o key W) as [d Q]; [unfold known; congruence|congruence].
    + unfold aread in R. rewrite D in R. injection R as <-. eauto.
Qed.
Lemma acall_spec {A} (e : expr A) o v : awf o -> acall sizes e o = Ok v ->
  match v with VScalar _ => False | VVec l => l = group_values e (group_of o) | VVoid n => a_mask o = ANone /\ n = npart o end.
Proof.
  intros W H. unfold acall in H. destruct (aeval o e) as [x|] eqn:E; [|discriminate]. pose proof (aeval_spec e o x W E) as S.
  destruct x as [a|l|n]; injection H as <-; [|apply S|exact S].
  unfold group_values. cbn [group_of g_sel]. rewrite <- (sel_length o W). generalize (sel_of o). intro l. induction l as [|i l IH]; [reflexivity|]. cbn. rewrite <- IH. f_equal. apply S.
Qed.
Lemma group_values_none {A} (e : expr A) o : a_mask o = ANone -> group_values e (group_of o) = [].
Proof. intro H. unfold group_values, group_of, sel_of. cbn. now rewrite H. Qed.
Lemma hstack_void_spec {A} (e : expr A) os : Forall awf os -> forall ds n, mapM (acall sizes e) os = Ok ds -> hstack_void ds = Ok n -> all_values e (map group_of os) = [].
Proof.
  induction 1 as [|o os W F IH]; intros ds n H1 H2; [reflexivity|]. cbn [mapM] in H1.
  destruct (acall sizes e o) as [v|] eqn:E; [|discriminate]. cbn [bind] in H1. destruct (mapM (acall sizes e) os) as [vs|]; [|discriminate]. injection H1 as <-.
  pose proof (acall_spec e o v W E) as S. destruct v as [|l|m]; try discriminate. cbn [hstack_void] in H2.
  destruct (hstack_void vs) as [k|] eqn:K; [|discriminate]. unfold all_values. cbn [map concat]. rewrite group_values_none by apply S.
  exact (IH vs k eq_refl K).
Qed.
Lemma hstack_vec_spec {A} (e : expr A) os : Forall awf os -> forall ds l, mapM (acall sizes e) os = Ok ds -> hstack_vec ds = Ok l -> l = all_values e (map group_of os).
Proof.
  induction 1 as [|o os W F IH]; intros ds l H1 H2; cbn [mapM] in H1; [injection H1 as <-; now injection H2 as <-|].
  destruct (acall sizes e o) as [v|] eqn:E; [|discriminate]. cbn [bind] in H1. destruct (mapM (acall sizes e) os) as [vs|]; [|discriminate]. injection H1 as <-.
  pose proof (acall_spec e o v W E) as S. destruct v as [|l0|m]; try discriminate. cbn [hstack_vec] in H2.
  destruct (hstack_vec vs) as [k|] eqn:K; [|discriminate]. injection H2 as <-. unfold all_values. cbn [map concat]. rewrite <- S. f_equal.
  exact (IH vs k eq_refl K).
Qed.
Definition pcall {A} (e : expr A) (os : list aobj) : res (values A) := let! ds := mapM (acall sizes e) os in hstack ds.
Lemma pcall_flat {A} (e : expr A) os v : Forall awf os -> pcall e os = Ok v -> flat v = all_values e (map group_of os).
Proof.
  intros W H. unfold pcall in H. destruct (mapM (acall sizes e) os) as [ds|] eqn:E; [|discriminate]. cbn [bind] in H. unfold hstack in H.
  destruct ds as [|[a|l|n] ds].
  - injection H as <-. destruct os; [reflexivity|]. cbn in E. destruct (acall sizes e a); [|discriminate]. cbn in E. destruct (mapM _ os); discriminate.
  - discriminate.
  - destruct (hstack_vec (VVec l :: ds)) as [r|] eqn:K; [|discriminate]. injection H as <-. cbn [flat]. eapply hstack_vec_spec; eauto.
  - destruct (hstack_void (VVoid n :: ds)) as [r|] eqn:K; [|discriminate]. injection H as <-. cbn [flat]. symmetry. eapply hstack_void_spec; eauto.
Qed.
Lemma pcall_total {A} (e : expr A) os : Forall awf os ->
  (forall o, In o os -> a_mask o <> ANone /\ forall key, In key (e_keys e) -> known (a_dump o) (a_name o) key) ->
  pcall e os = Ok (VVec (all_values e (map group_of os))).
Proof.
  intros W K. assert (H : exists ds l, mapM (acall sizes e) os = Ok ds /\ hstack_vec ds = Ok l).
  { induction W as [|o os W F IH]; [exists [], []; split; reflexivity|].
    destruct IH as [ds [l [H1 H2]]]; [intros; apply K; now right|].
    destruct (K o (or_introl eq_refl)) as [K1 K2].
    assert (Hc : exists l0, acall sizes e o = Ok (VVec l0)).
    { unfold acall. destruct (aeval o e) as [[a|l0|n]|x] eqn:E; eauto.
      - destruct (aeval_spec e o _ W E). contradiction.
      - destruct (aeval_error e o x W E) as [_ [key [I D]]]. exfalso. now apply (K2 key I). }
    destruct Hc as [l0 Hc]. exists (VVec l0 :: ds), (l0 ++ l). cbn [mapM]. rewrite Hc. cbn [bind]. rewrite H1. split; [reflexivity|].
    cbn [hstack_vec]. now rewrite H2. }
  destruct H as [ds [l [H1 H2]]]. pose proof (hstack_vec_spec e os W ds l H1 H2) as ->. unfold pcall. rewrite H1. cbn [bind].
  unfold hstack. destruct ds as [|[a|l0|n] ds]; [now rewrite H2|discriminate|now rewrite H2|discriminate].
Qed.
End Hist.
