(** Laws of particle collections, for all histories (C33-C38). *)
From Coq Require Import Lia Qround Permutation Sorted.
From Verif Require Import PyBase PyBaseFacts NumpyModel NumpyFacts NdModel NdFacts FieldModel FieldReduceFacts HelperModel HelperFacts ParticleModel ParticleSpec ParticleFacts ParticleOps ParticleHist ParticleRun.

Section Laws.
Variable sizes : dump -> string -> nat.
Notation winv := (winv sizes).
Notation awf := (awf sizes).
Notation count := (count sizes).
Notation group_of := (group_of sizes).

Lemma history_length w s : history sizes w s -> length s = length (w_ms w).
Proof.
  intro H. destruct (history_ok sizes w s H) as [oss [O ->]]. rewrite map_length. symmetry. eapply Forall2_len'. apply O.
Qed.
Lemma oinv_wf w oss m : oinv sizes w oss -> Forall awf (nth m oss []).
Proof.
  intro O. destruct (Nat.lt_ge_cases m (length (w_ms w))) as [L|L].
  - destruct (oinv_ms sizes w oss m O L) as [is [_ F]]. eapply refs_wf; [apply O|exact F].
  - rewrite nth_overflow; [constructor|]. rewrite <- (Forall2_len' _ _ _ (oi_ms _ _ _ O)). exact L.
Qed.
(** ** Evaluation *)
Lemma call_values {A} (e : expr A) w s m w' d : history sizes w s -> (m < length (w_ms w))%nat ->
  ms_call m e w = (w', Ok d) -> flat d = all_values e (nth m s []).
Proof.
  intros H L E. destruct (history_ok sizes w s H) as [oss [O ->]]. destruct (call_op sizes e w oss m O L) as [w2 [C _]].
  rewrite C in E. injection E as _ E. rewrite nth_map_map. apply (pcall_flat sizes); [now apply (oinv_wf w)|exact E].
Qed.
Lemma call_total {A} (e : expr A) w s m : history sizes w s -> (m < length (w_ms w))%nat ->
  (forall g, In g (nth m s []) -> g_sel g <> [] /\ forall key, In key (e_keys e) -> known (g_dump g) (g_name g) key) ->
  outcome m e w = Ok (VVec (all_values e (nth m s []))).
Proof.
  intros H L K. destruct (history_ok sizes w s H) as [oss [O ->]]. destruct (call_op sizes e w oss m O L) as [w2 [C _]].
  unfold outcome. rewrite C. cbn [snd]. rewrite nth_map_map in *. apply (pcall_total sizes); [now apply (oinv_wf w)|].
  intros o I. destruct (K (group_of o) (in_map group_of _ _ I)) as [K1 K2]. split; [|exact K2].
  intro N. apply K1. unfold group_of. cbn [g_sel]. unfold sel_of. now rewrite N.
Qed.
Lemma fold_total os : Forall awf os -> fold_right Nat.add 0%nat (map count os) = total (map group_of os).
Proof.
  intro W. unfold total. induction W as [|o os W1 W2 IH]; [reflexivity|]. cbn. rewrite IH. f_equal. symmetry. now apply sel_length.
Qed.
Lemma len_total w s m : history sizes w s -> (m < length (w_ms w))%nat -> snd (ms_len m w) = Ok (total (nth m s [])).
Proof.
  intros H L. destruct (history_ok sizes w s H) as [oss [O ->]]. destruct (len_op sizes w oss m O L) as [w2 [C _]].
  rewrite C. cbn [snd]. rewrite nth_map_map. f_equal. apply fold_total. now apply (oinv_wf w).
Qed.
(** ** Frame *)
Lemma nth_upd_other {A} (l : list A) d : forall k x j, j <> k -> nth j (upd l k x) d = nth j l d.
Proof. induction l as [|y l IH]; intros [|k] x [|j] N; cbn; auto; try lia. Qed.
Lemma afollow_frame o w oss m : (m < length oss)%nat -> (forall x, o <> UIadd m x) -> nth m (fst (afollow sizes o w oss)) [] = nth m oss [].
Proof.
  intros L N. assert (A : forall x, nth m (oss ++ x) [] = nth m oss []) by (intro; now apply app_nth1).
  destruct o; cbn [afollow fst]; try reflexivity; try (destruct (anew _ _ _); [apply A|reflexivity]);
    try (destruct (aeach _ _ _ _); [apply A|reflexivity]); try (destruct (mapM _ _); [apply A|reflexivity]); [apply A|].
  destruct (m0 =? other)%nat; [reflexivity|]. cbn [fst]. apply nth_upd_other. intros <-. now apply (N other).
Qed.
Lemma afollow_length o w oss : (length oss <= length (fst (afollow sizes o w oss)))%nat.
Proof.
  assert (A : forall x : list (list aobj), (length oss <= length (oss ++ x))%nat) by (intro; rewrite app_length; lia).
  destruct o; cbn [afollow fst]; try lia; try (destruct (anew _ _ _); [apply A|cbn; lia]);
    try (destruct (aeach _ _ _ _); [apply A|cbn; lia]); try (destruct (mapM _ _); [apply A|cbn; lia]); [apply A|].
  destruct (m =? other)%nat; cbn [fst]; [lia|]. now rewrite length_upd.
Qed.
Lemma frame {A} (e : expr A) o w s m : history sizes w s -> allowed sizes o w -> (m < length (w_ms w))%nat -> (forall x, o <> UIadd m x) ->
  outcome m e (step o w) = outcome m e w /\ snd (ms_len m (step o w)) = snd (ms_len m w).
Proof.
  intros H Al L N. destruct (history_ok sizes w s H) as [oss [O ->]]. destruct (step_ok sizes o w oss O Al) as [O' _].
  pose proof (Forall2_len' _ _ _ (oi_ms _ _ _ O)) as E1. pose proof (Forall2_len' _ _ _ (oi_ms _ _ _ O')) as E2.
  pose proof (afollow_length o w oss) as E3. assert (L' : (m < length (w_ms (step o w)))%nat) by lia.
  assert (Fr : nth m (fst (afollow sizes o w oss)) [] = nth m oss []) by (apply afollow_frame; auto; lia).
  unfold outcome. destruct (call_op sizes e w oss m O L) as [w1 [C1 _]]. destruct (call_op sizes e _ _ m O' L') as [w2 [C2 _]].
  destruct (len_op sizes w oss m O L) as [w3 [C3 _]]. destruct (len_op sizes _ _ m O' L') as [w4 [C4 _]].
  rewrite C1, C2, C3, C4, Fr. auto.
Qed.
(** ** Filters *)
Lemma filter_step e w s m w1 m1 : history sizes w s -> (m < length (w_ms w))%nat -> ms_filter m e w = (w1, Ok m1) ->
  history sizes w1 (s ++ [map (select_if (fun g i => expr_value e g i)) (nth m s [])]) /\ m1 = length s.
Proof.
  intros H L E. assert (m1 = length s) as ->.
  { destruct (history_ok sizes w s H) as [oss [O ->]]. destruct (unary sizes w oss m _ _ O L (filter_does sizes e)) as [w2 [C _]].
    unfold ms_filter in E. rewrite E in C. destruct (mapM _ _); [|discriminate]. injection C as _ ->. rewrite map_length. eapply Forall2_len'. apply O. }
  split; [|reflexivity]. pose proof (h_step sizes (UFilter m e) w s H L) as X. cbn [step succeeds follow] in X. unfold forget in X. rewrite E in X. exact X.
Qed.
Lemma select_twice p q g : (forall g s, p (with_sel g s) = p g) -> select_if p (select_if q g) = select_if (fun g i => q g i && p g i) g.
Proof.
  intro P. unfold select_if. unfold with_sel at 1. cbn [g_dump g_name g_count g_sel with_sel]. unfold with_sel. f_equal. 
  change (p (mkgroup (g_dump g) (g_name g) (g_count g) (filter (q g) (g_sel g)))) with (p (with_sel g (filter (q g) (g_sel g)))).
  rewrite P. generalize (g_sel g). intro l. induction l as [|x l IH]; [reflexivity|]. cbn. destruct (q g x); cbn; [|exact IH]. destruct (p g x); now rewrite IH.
Qed.
Lemma select_all g : select_if (fun _ _ => true) g = g.
Proof. unfold select_if, with_sel. destruct g as [a b c l]. cbn. f_equal. apply filter_every. auto. Qed.
Lemma select_ext p q g : (forall i, p g i = q g i) -> select_if p g = select_if q g.
Proof. intro H. unfold select_if. f_equal. apply filter_ext. exact H. Qed.
Lemma chain_ok es : forall m w s w' m', history sizes w s -> (m < length (w_ms w))%nat -> filter_chain es m w = (w', Ok m') ->
  exists s', history sizes w' (s ++ s') /\
    nth m' (s ++ s') [] = map (select_if (fun g i => forallb (fun e => expr_value e g i) es)) (nth m s []) /\ (m' < length (s ++ s'))%nat.
Proof.
  induction es as [|e es IH]; intros m w s w' m' H L E; cbn [filter_chain] in E.
  - injection E as <- <-. exists []. rewrite app_nil_r. split; [exact H|]. split; [|now rewrite (history_length w s H)].
    cbn [forallb]. rewrite <- (map_id (nth m s [])) at 1. apply map_ext. intro g. symmetry. apply select_all.
  - destruct (ms_filter m e w) as [w1 [m1|x]] eqn:E1; [|discriminate]. destruct (filter_step e w s m w1 m1 H L E1) as [H1 ->].
    assert (L1 : (length s < length (w_ms w1))%nat) by (rewrite <- (history_length _ _ H1), app_length; cbn; lia).
    destruct (IH _ _ _ _ _ H1 L1 E) as [s' [H2 [N2 B2]]].
    exists ([map (select_if (fun g i => expr_value e g i)) (nth m s [])] ++ s'). rewrite app_assoc. split; [exact H2|]. split; [|exact B2]. rewrite N2.
    rewrite app_nth2, Nat.sub_diag by lia. cbn [nth]. rewrite map_map. apply map_ext. intro g. rewrite select_twice; [reflexivity|].
    intros. reflexivity.
Qed.
Lemma filter_total e w s m : history sizes w s -> (m < length (w_ms w))%nat ->
  (forall g, In g (nth m s []) -> g_sel g <> [] /\ (forall key, In key (e_keys e) -> known (g_dump g) (g_name g) key) /\
     exists key, In key (e_keys e) /\ ~ is_scalar (g_dump g) (g_name g) key) ->
  is_ok (snd (ms_filter m e w)) = true.
Proof.
  intros H L K. destruct (history_ok sizes w s H) as [oss [O ->]]. destruct (unary sizes w oss m _ _ O L (filter_does sizes e)) as [w2 [C _]].
  unfold ms_filter. rewrite C. cbn [snd]. rewrite nth_map_map in K. pose proof (oinv_wf w oss m O) as W.
  assert (Z : exists os, mapM (afilter sizes e) (nth m oss []) = Ok os); [|destruct Z as [os ->]; reflexivity].
  revert K W. generalize (nth m oss []) as ol. intros ol K W.
  induction W as [|o os W1 W2 IH]; [eexists; reflexivity|].
  assert (exists r, mapM _ os = Ok r) as [r IHr] by (apply IH; intros g I; apply K; now right).
  destruct (K (group_of o) (or_introl eq_refl)) as [K1 [K2 [key [K3 K4]]]]. cbn [mapM]. rewrite IHr.
  assert (F : exists o', afilter sizes e o = Ok o'); [|destruct F as [o' ->]; eexists; reflexivity].
  assert (NN : a_mask o <> ANone) by (intro N; apply K1; unfold ParticleHist.group_of; cbn [g_sel]; unfold sel_of; now rewrite N).
  unfold afilter. destruct (aeval o e) as [[a|l|n]|x] eqn:E.
  - exfalso. apply K4. cbn [ParticleHist.group_of g_dump g_name]. unfold aeval in E. destruct (mapM (aread o) (e_keys e)) as [ds|] eqn:M; [|discriminate].
    cbn [bind] in E. unfold apply_expr in E. destruct (shape_of ds) as [[b n]|] eqn:S; [destruct (forallb _ ds), b; discriminate|].
    apply shape_none in S. apply mapM_Forall2 in M. 
    assert (R : exists d, aread o key = Ok d /\ data_scalar d = true).
    { clear - M S K3. induction M as [|k d keys ds R M IH]; [destruct K3|]. inversion S; subst. destruct K3 as [->|I]; eauto. }
    destruct R as [d [R D]]. unfold aread in R. unfold is_scalar. destruct (dumped (a_dump o) (a_name o) key) as [x|] eqn:DD; [|discriminate].
    pose proof (convert_vec key x) as Kc. destruct x as [q|l|n]; [eauto|exfalso|exfalso].
    + cbv iota in Kc. revert Kc R. destruct (convert key (DVec l)); intros Kc R; try contradiction. destruct (a_mask o); injection R as <-; discriminate.
    + cbv iota in Kc. revert Kc R. destruct (convert key (DVoid n)); intros Kc R; try contradiction. discriminate.
  - destruct (aeval_spec sizes e o _ W1 E) as [-> _].
    assert (Lg : (count o =? length (group_values e (group_of o)))%nat = true).
    { apply Nat.eqb_eq. unfold group_values. rewrite map_length. symmetry. apply sel_length. exact W1. }
    rewrite Lg. eauto.
  - destruct (aeval_spec sizes e o _ W1 E). contradiction.
  - destruct (aeval_error sizes e o x W1 E) as [_ [k [I D]]]. exfalso. exact (K2 k I D).
Qed.
(** ** Conditions for all species *)
Lemma all_values_cons {A} (e : expr A) g gs : all_values e (g :: gs) = group_values e g ++ all_values e gs.
Proof. reflexivity. Qed.
Lemma distribute_values {A} (e : expr A) : forall gs c, (total gs <= length c)%nat -> all_values e (distribute c gs) = keep c (all_values e gs).
Proof.
  induction gs as [|g gs IH]; intros c L; [rewrite keep_picked; now destruct c as [|[] c]|].
  cbn [distribute]. rewrite !all_values_cons. unfold total in L. cbn [map fold_right] in L. fold (total gs) in L.
  rewrite IH by (rewrite skipn_length; lia). rewrite !keep_picked.
  replace (picked c (group_values e g ++ all_values e gs))
    with (picked (firstn (length (g_sel g)) c ++ skipn (length (g_sel g)) c) (group_values e g ++ all_values e gs)) by now rewrite firstn_skipn.
  rewrite picked_app by (unfold group_values; rewrite firstn_length, map_length; lia). f_equal.
  unfold group_values. cbn [with_sel g_sel]. rewrite picked_map. apply map_ext. reflexivity.
Qed.
Lemma aeach_result c : forall os pos, Forall awf os -> (pos <= length c)%nat ->
  if (pos + total (map group_of os) <=? length c)%nat then exists os', aeach sizes c pos os = Ok os' else aeach sizes c pos os = Err ValueError.
Proof.
  induction os as [|o os IH]; intros pos W P; cbn [aeach].
  - replace (pos + total (map group_of []) <=? length c)%nat with true by (symmetry; apply Nat.leb_le; cbn; lia). eauto.
  - inversion W as [|? ? W1 W2]; subst. unfold total. cbn [map fold_right]. fold (total (map group_of os)).
    change (g_sel (group_of o)) with (sel_of sizes o). rewrite (sel_length sizes o W1). rewrite firstn_length, skipn_length.
    destruct (Nat.leb_spec (pos + (count o + total (map group_of os))) (length c)) as [G|G].
    + replace (count o =? Nat.min (count o) (length c - pos))%nat with true by (symmetry; apply Nat.eqb_eq; lia).
      specialize (IH (pos + count o)%nat W2 ltac:(lia)). 
      replace (pos + count o + total (map group_of os) <=? length c)%nat with true in IH by (symmetry; apply Nat.leb_le; lia).
      destruct IH as [os' ->]. eexists. reflexivity.
    + destruct (Nat.eqb_spec (count o) (Nat.min (count o) (length c - pos))) as [Q|Q]; [|reflexivity].
      specialize (IH (pos + count o)%nat W2 ltac:(lia)). 
      replace (pos + count o + total (map group_of os) <=? length c)%nat with false in IH by (symmetry; apply Nat.leb_gt; lia).
      now rewrite IH.
Qed.
Lemma compress_result w s m v : history sizes w s -> allowed sizes (UCompress m v) w ->
  if (total (nth m s []) <=? v_len v)%nat
  then snd (ms_compress m v w) = Ok (length s) /\ history sizes (fst (ms_compress m v w)) (s ++ [distribute (read_view w v) (nth m s [])])
  else snd (ms_compress m v w) = Err ValueError /\ history sizes (fst (ms_compress m v w)) s.
Proof.
  intros H A. pose proof (h_step sizes (UCompress m v) w s H A) as X. cbn [step succeeds follow] in X. unfold forget in X.
  destruct A as [L V]. destruct (history_ok sizes w s H) as [oss [O ->]]. destruct (compress_op sizes w oss m v O L V) as [w2 [C _]].
  pose proof (aeach_result (read_view w v) (nth m oss []) 0 (oinv_wf w oss m O) ltac:(lia)) as R. cbn [Nat.add] in R.
  rewrite read_view_length in R by exact V. rewrite nth_map_map in *. rewrite C in *. cbn [fst snd] in *.
  destruct (total (map group_of (nth m oss [])) <=? v_len v)%nat.
  - destruct R as [os' R]. rewrite R in *. split; [|exact X]. f_equal. rewrite map_length. eapply Forall2_len'. apply O.
  - rewrite R in *. split; [reflexivity|exact X].
Qed.
Lemma compress_values {A} (e : expr A) w s m v w1 m1 d d1 : history sizes w s -> allowed sizes (UCompress m v) w ->
  ms_compress m v w = (w1, Ok m1) -> outcome m e w = Ok d -> outcome m1 e w1 = Ok d1 -> flat d1 = keep (read_view w v) (flat d).
Proof.
  intros H Al E D D1. pose proof (compress_result w s m v H Al) as R. rewrite E in R. cbn [fst snd] in R.
  destruct (Nat.leb_spec (total (nth m s [])) (v_len v)) as [T|T]; [|now destruct R].
  destruct R as [[= ->] H1]. assert (L1 : (length s < length (w_ms w1))%nat) by (rewrite <- (history_length _ _ H1), app_length; cbn; lia).
  unfold outcome in D, D1. destruct (ms_call m e w) as [wa ra] eqn:Ca. destruct (ms_call (length s) e w1) as [wb rb] eqn:Cb. cbn [snd] in D, D1. subst ra rb.
  rewrite (call_values e w s m wa d H (proj1 Al) Ca), (call_values e w1 _ _ wb d1 H1 L1 Cb).
  rewrite app_nth2, Nat.sub_diag by lia. cbn [nth]. apply distribute_values. rewrite read_view_length; [exact T|apply Al].
Qed.
(** ** Ids *)
Lemma ids_step w s m k w1 m1 : history sizes w s -> allowed sizes (UCompressIds m k) w -> ms_compress_ids m k w = (w1, Ok m1) ->
  history sizes w1 (s ++ [map (select_if (has_id (nth k (w_ids w) []))) (nth m s [])]) /\ m1 = length s.
Proof.
  intros H Al E. assert (m1 = length s) as ->.
  { destruct (history_ok sizes w s H) as [oss [O ->]]. destruct (ids_op sizes w oss m k O (proj1 Al)) as [w2 [C _]].
    rewrite E in C. destruct (mapM _ _); [|discriminate]. injection C as _ ->. rewrite map_length. eapply Forall2_len'. apply O. }
  split; [|reflexivity]. pose proof (h_step sizes (UCompressIds m k) w s H Al) as X. cbn [step succeeds follow] in X. unfold forget in X. rewrite E in X. exact X.
Qed.
Lemma aids_set l l' o : (forall z, In z l <-> In z l') -> aids l o = aids l' o.
Proof.
  intro S. assert (M : forall q, mem_Z (Qfloor q) l = mem_Z (Qfloor q) l').
  { intro q. apply eq_true_iff_eq. rewrite !mem_Z_In. apply S. }
  unfold aids. destruct (aread o "id") as [[q|ids|n]|]; auto.
  assert (X : map (fun q => mem_Z (Qfloor q) l) ids = map (fun q => mem_Z (Qfloor q) l') ids) by (apply map_ext; exact M). rewrite X.
  destruct l as [|z l], l' as [|z' l']; auto; exfalso; [apply (S z')|apply (S z)]; now left.
Qed.
Lemma ids_same_set {A} (e : expr A) w s m k k' : history sizes w s -> allowed sizes (UCompressIds m k) w -> allowed sizes (UCompressIds m k') w ->
  (forall z, In z (nth k (w_ids w) []) <-> In z (nth k' (w_ids w) [])) ->
  let r := ms_compress_ids m k w in let r' := ms_compress_ids m k' w in
  snd r = snd r' /\ forall m1, snd r = Ok m1 -> outcome m1 e (fst r) = outcome m1 e (fst r') /\ snd (ms_len m1 (fst r)) = snd (ms_len m1 (fst r')).
Proof.
  intros H A1 A2 S r r'. destruct (history_ok sizes w s H) as [oss [O ->]].
  destruct (ids_op sizes w oss m k O (proj1 A1)) as [w1 [C1 O1]]. destruct (ids_op sizes w oss m k' O (proj1 A2)) as [w2 [C2 O2]].
  assert (X : mapM (aids (nth k (w_ids w) [])) (nth m oss []) = mapM (aids (nth k' (w_ids w) [])) (nth m oss [])).
  { clear - S. generalize (nth m oss []). intro l. induction l as [|o os IH]; [reflexivity|]. cbn [mapM]. now rewrite IH, (aids_set _ _ o S). }
  rewrite X in *. subst r r'. rewrite C1, C2. cbn [fst snd]. split; [reflexivity|]. intros m1 Q.
  destruct (mapM _ _) as [os|]; [|discriminate]. injection Q as <-.
  pose proof (Forall2_len' _ _ _ (oi_ms _ _ _ O)) as L0. pose proof (Forall2_len' _ _ _ (oi_ms _ _ _ O1)) as L1. pose proof (Forall2_len' _ _ _ (oi_ms _ _ _ O2)) as L2.
  rewrite app_length in L1, L2. cbn in L1, L2.
  destruct (call_op sizes e w1 _ (length (w_ms w)) O1) as [? [D1 _]]; [lia|]. destruct (call_op sizes e w2 _ (length (w_ms w)) O2) as [? [D2 _]]; [lia|].
  destruct (len_op sizes w1 _ (length (w_ms w)) O1) as [? [D3 _]]; [lia|]. destruct (len_op sizes w2 _ (length (w_ms w)) O2) as [? [D4 _]]; [lia|].
  unfold outcome. rewrite D1, D2, D3, D4. auto.
Qed.
Lemma ids_total w s m k : history sizes w s -> allowed sizes (UCompressIds m k) w -> nth k (w_ids w) [] <> [] ->
  (forall g, In g (nth m s []) -> g_sel g <> [] /\ known (g_dump g) (g_name g) "id" /\ ~ is_scalar (g_dump g) (g_name g) "id") ->
  is_ok (snd (ms_compress_ids m k w)) = true.
Proof.
  intros H Al Hk K. destruct (history_ok sizes w s H) as [oss [O ->]]. destruct (ids_op sizes w oss m k O (proj1 Al)) as [w2 [C _]].
  rewrite C. cbn [snd]. rewrite nth_map_map in K. pose proof (oinv_wf w oss m O) as W.
  assert (Z : exists os, mapM (aids (nth k (w_ids w) [])) (nth m oss []) = Ok os); [|destruct Z as [os ->]; reflexivity].
  revert K W. generalize (nth m oss []) as ol. intros ol K W.
  induction W as [|o os W1 W2 IH]; [eexists; reflexivity|].
  assert (exists r, mapM _ os = Ok r) as [r IHr] by (apply IH; intros g I; apply K; now right).
  destruct (K (group_of o) (or_introl eq_refl)) as [K1 [K2 K3]]. cbn [mapM]. rewrite IHr.
  assert (F : exists o', aids (nth k (w_ids w) []) o = Ok o'); [|destruct F as [o' ->]; eexists; reflexivity].
  assert (NN : a_mask o <> ANone) by (intro N; apply K1; unfold ParticleHist.group_of; cbn [g_sel]; unfold sel_of; now rewrite N).
  destruct (aread_ok sizes o "id" W1 K2) as [d R]. unfold aids. rewrite R. pose proof (aread_shape sizes o "id" d W1 R) as Sh. destruct d as [q|l|n].
  - exfalso. apply K3. unfold is_scalar. cbn [ParticleHist.group_of g_dump g_name] in *. unfold aread in R.
    destruct (dumped (a_dump o) (a_name o) "id") as [x|] eqn:D; [|discriminate]. pose proof (convert_vec "id" x) as Kc.
    destruct x as [q'|l|n]; [eauto| |]; cbv iota in Kc; [revert Kc R; destruct (convert "id" (DVec l))|revert Kc R; destruct (convert "id" (DVoid n))];
      intros Kc R; try contradiction; try discriminate. destruct (a_mask o); discriminate.
  - destruct (nth k (w_ids w) []); [contradiction|]. eauto.
  - destruct Sh. contradiction.
Qed.
(** ** Inversion *)
Lemma mapM_total {A B} (f : A -> res B) (g : A -> B) l : (forall x, f x = Ok (g x)) -> mapM f l = Ok (map g l).
Proof. intro H. induction l as [|x l IH]; [reflexivity|]. cbn. now rewrite H, IH. Qed.
Lemma unary_total w s m f g h : history sizes w s -> (m < length (w_ms w))%nat -> does sizes any ref f g -> (forall o, g o = Ok (h o)) ->
  snd ((do! is := get_ms m in do! js := mmap f is in new_ms js) w) = Ok (length s).
Proof.
  intros H L D G. destruct (history_ok sizes w s H) as [oss [O ->]]. destruct (unary sizes w oss m f g O L D) as [w2 [C _]]. rewrite C. cbn [snd].
  rewrite (mapM_total g h _ G). f_equal. rewrite map_length. eapply Forall2_len'. apply O.
Qed.
Lemma invert_step w s m : history sizes w s -> (m < length (w_ms w))%nat ->
  snd (ms_invert m w) = Ok (length s) /\ history sizes (fst (ms_invert m w)) (s ++ [map complement (nth m s [])]).
Proof.
  intros H L. pose proof (unary_total w s m _ _ _ H L (invert_does sizes) (fun o => eq_refl)) as U.
  pose proof (h_step sizes (UInvert m) w s H L) as X. cbn [step succeeds follow] in X. unfold forget, ms_invert in *. rewrite U in X. auto.
Qed.
Lemma uncompress_step w s m : history sizes w s -> (m < length (w_ms w))%nat ->
  snd (ms_uncompress m w) = Ok (length s) /\ history sizes (fst (ms_uncompress m w)) (s ++ [map everything (nth m s [])]).
Proof.
  intros H L. pose proof (unary_total w s m _ _ _ H L (uncompress_does sizes) (fun o => eq_refl)) as U.
  pose proof (h_step sizes (UUncompress m) w s H L) as X. cbn [step succeeds follow] in X. unfold forget, ms_uncompress in *. rewrite U in X. auto.
Qed.
Lemma history_groups w s m g : history sizes w s -> In g (nth m s []) -> g_count g = sizes (g_dump g) (g_name g) /\ in_order g.
Proof.
  intros H I. destruct (history_ok sizes w s H) as [oss [O ->]]. rewrite nth_map_map in I. apply in_map_iff in I. destruct I as [o [<- I]].
  split; [reflexivity|]. pose proof (oinv_wf w oss m O) as W. rewrite Forall_forall in W. exact (sel_filter sizes o (W o I)).
Qed.
Lemma filter_compl (P : nat -> bool) l : NoDup l -> (length (filter P l) + length (filter (fun i => negb (existsb (Nat.eqb i) (filter P l))) l) = length l)%nat.
Proof.
  intro N. rewrite (filter_ext_in (fun i => negb (existsb (Nat.eqb i) (filter P l))) (fun i => negb (P i)) l).
  2:{ intros i I. f_equal. now apply existsb_filter. }
  clear. induction l as [|x l IH]; [reflexivity|]. cbn. destruct (P x); cbn; lia.
Qed.
Lemma complement_total gs : Forall in_order gs -> (total gs + total (map complement gs) = fold_right Nat.add 0 (map g_count gs))%nat.
Proof.
  unfold total. induction 1 as [|g gs [P E] F IH]; [reflexivity|]. cbn [map fold_right]. 
  assert (X : (length (g_sel g) + length (g_sel (complement g)) = g_count g)%nat).
  { unfold complement, with_sel. cbn [g_sel]. rewrite E, filter_compl by apply seq_NoDup. apply seq_length. }
  lia.
Qed.
Lemma complement_twice g : in_order g -> complement (complement g) = g.
Proof.
  intros [P E]. destruct g as [d n c l]. unfold complement, with_sel. cbn [g_dump g_name g_count g_sel] in *. f_equal. subst l.
  apply filter_ext_in. intros i I. rewrite existsb_filter by exact I. rewrite existsb_filter by exact I. apply negb_involutive.
Qed.
Lemma invert_twice {A} (e : expr A) w s m : history sizes w s -> (m < length (w_ms w))%nat ->
  let w1 := fst (ms_invert m w) in let w2 := fst (ms_invert (length s) w1) in
  nth (S (length s)) (s ++ [map complement (nth m s []); map complement (map complement (nth m s []))]) [] = nth m s [] /\
  history sizes w2 (s ++ [map complement (nth m s []); map complement (map complement (nth m s []))]) /\
  outcome (S (length s)) e w2 = outcome m e w.
Proof.
  intros H L w1 w2. destruct (invert_step w s m H L) as [_ H1]. fold w1 in H1.
  assert (L1 : (length s < length (w_ms w1))%nat) by (rewrite <- (history_length _ _ H1), app_length; cbn; lia).
  destruct (invert_step w1 _ (length s) H1 L1) as [_ H2]. fold w2 in H2. rewrite (app_nth2 s), Nat.sub_diag, <- app_assoc in H2 by lia. cbn [nth app] in H2.
  assert (Hg : map complement (map complement (nth m s [])) = nth m s []).
  { rewrite map_map. rewrite <- (map_id (nth m s [])) at 2. apply map_ext_in. intros g I. apply complement_twice. now apply (history_groups w s m). }
  split; [|split; [exact H2|]].
  - rewrite app_nth2 by lia. replace (S (length s) - length s)%nat with 1%nat by lia. exact Hg.
  - destruct (history_ok sizes w s H) as [oss [O Es]]. 
    destruct (unary sizes w oss m _ _ O L (invert_does sizes)) as [wa [Ca Oa]].
    assert (Ew : wa = w1) by (unfold w1, ms_invert; now rewrite Ca). rewrite Ew in Oa.
    rewrite (mapM_total ainvert _ _ (fun o => eq_refl)) in Oa.
    destruct (unary sizes w1 _ (length s) _ _ Oa L1 (invert_does sizes)) as [wb [Cb Ob]].
    assert (Ew2 : wb = w2) by (unfold w2, ms_invert; now rewrite Cb). rewrite Ew2 in Ob.
    rewrite (mapM_total ainvert _ _ (fun o => eq_refl)) in Ob.
    assert (Ls : length s = length oss) by (rewrite Es; apply map_length). rewrite Ls in *.
    rewrite (app_nth2 oss), Nat.sub_diag in Ob by lia. cbn [nth] in Ob.
    pose proof (Forall2_len' _ _ _ (oi_ms _ _ _ Ob)) as L2. rewrite !app_length in L2. cbn in L2.
    destruct (call_op sizes e w oss m O L) as [? [D1 _]]. destruct (call_op sizes e w2 _ (S (length oss)) Ob) as [? [D2 _]]; [lia|].
    unfold outcome. rewrite D1, D2. cbn [snd]. f_equal. rewrite <- app_assoc. rewrite app_nth2 by lia. replace (S (length oss) - length oss)%nat with 1%nat by lia.
    cbn [nth app]. rewrite map_map. rewrite <- (map_id (nth m oss [])) at 2. apply map_ext. intros [d n [| |b]]; cbn; try reflexivity.
    do 2 f_equal. rewrite map_map. rewrite <- (map_id b) at 2. apply map_ext. apply negb_involutive.
Qed.
(** ** Sums *)
Lemma add_step w s a b : history sizes w s -> allowed sizes (UAdd a b) w ->
  snd (ms_add a b w) = Ok (length s) /\ history sizes (fst (ms_add a b w)) (s ++ [nth a s [] ++ nth b s []]).
Proof.
  intros H Al. pose proof (h_step sizes (UAdd a b) w s H Al) as X. cbn [step succeeds follow] in X. unfold forget in X.
  destruct (history_ok sizes w s H) as [oss [O ->]]. destruct Al as [A B]. destruct (add_op sizes w oss a b O A B) as [w2 [C _]]. rewrite C in *. cbn [fst snd is_ok] in *.
  split; [|exact X]. f_equal. rewrite map_length. eapply Forall2_len'. apply O.
Qed.
Lemma iadd_step w s a b : history sizes w s -> allowed sizes (UIadd a b) w -> a <> b ->
  snd (ms_iadd a b w) = Ok a /\ history sizes (fst (ms_iadd a b w)) (upd s a (nth a s [] ++ nth b s [])).
Proof.
  intros H Al N. pose proof (h_step sizes (UIadd a b) w s H Al) as X. cbn [step succeeds follow] in X. unfold forget in X.
  destruct (history_ok sizes w s H) as [oss [O ->]]. destruct Al as [A B]. destruct (iadd_op sizes w oss a b O A B N) as [w2 [C _]]. rewrite C in *. cbn [fst snd is_ok] in *.
  apply Nat.eqb_neq in N. rewrite N in X. auto.
Qed.
Lemma hstack_vec_app {A} (l m : list (values A)) x y : hstack_vec l = Ok x -> hstack_vec m = Ok y -> hstack_vec (l ++ m) = Ok (x ++ y).
Proof.
  revert x. induction l as [|[a|v|n] l IH]; intros x H1 H2; cbn in *; try discriminate; [injection H1 as <-; exact H2|].
  destruct (hstack_vec l) as [r|]; [|discriminate]. injection H1 as <-. rewrite (IH r eq_refl H2). cbn. now rewrite app_assoc.
Qed.
Lemma mapM_app {A B} (f : A -> res B) l m x y : mapM f l = Ok x -> mapM f m = Ok y -> mapM f (l ++ m) = Ok (x ++ y).
Proof.
  revert x. induction l as [|a l IH]; intros x H1 H2; cbn in *; [injection H1 as <-; exact H2|].
  destruct (f a); [|discriminate]. cbn in *. destruct (mapM f l) as [r|]; [|discriminate]. injection H1 as <-. now rewrite (IH r eq_refl H2).
Qed.
Lemma hstack_is_vec {A} (ds : list (values A)) l : hstack ds = Ok (VVec l) -> hstack_vec ds = Ok l.
Proof.
  unfold hstack. destruct ds as [|[a|v|n] ds]; intro H.
  - now injection H as <-.
  - discriminate.
  - destruct (hstack_vec (VVec v :: ds)); [|discriminate]. now injection H as ->.
  - destruct (hstack_void (VVoid n :: ds)); discriminate.
Qed.
Lemma pcall_app {A} (e : expr A) os os' l l' : pcall sizes e os = Ok (VVec l) -> pcall sizes e os' = Ok (VVec l') ->
  pcall sizes e (os ++ os') = Ok (VVec (l ++ l')).
Proof.
  unfold pcall. intros H1 H2. destruct (mapM (acall sizes e) os) as [ds|] eqn:E1; [|discriminate]. destruct (mapM (acall sizes e) os') as [ds'|] eqn:E2; [|discriminate].
  cbn [bind] in *. rewrite (mapM_app _ _ _ _ _ E1 E2). cbn [bind]. apply hstack_is_vec in H1, H2. pose proof (hstack_vec_app _ _ _ _ H1 H2) as H.
  unfold hstack. destruct (ds ++ ds') as [|[a|v|n] r]; [now rewrite H|discriminate|now rewrite H|discriminate].
Qed.
Lemma add_values {A} (e : expr A) w s a b l l' : history sizes w s -> allowed sizes (UAdd a b) w ->
  outcome a e w = Ok (VVec l) -> outcome b e w = Ok (VVec l') -> outcome (length s) e (fst (ms_add a b w)) = Ok (VVec (l ++ l')).
Proof.
  intros H [L1 L2] E1 E2. destruct (history_ok sizes w s H) as [oss [O Es]]. destruct (add_op sizes w oss a b O L1 L2) as [w2 [C O2]]. rewrite C. cbn [fst].
  destruct (call_op sizes e w oss a O L1) as [? [D1 _]]. destruct (call_op sizes e w oss b O L2) as [? [D2 _]].
  pose proof (Forall2_len' _ _ _ (oi_ms _ _ _ O2)) as Lw. rewrite app_length in Lw. cbn in Lw.
  assert (Ls : length s = length oss) by (rewrite Es; apply map_length). rewrite Ls.
  destruct (call_op sizes e w2 _ (length oss) O2) as [? [D3 _]]; [lia|].
  unfold outcome in *. rewrite D1 in E1. rewrite D2 in E2. rewrite D3. cbn [snd] in *. rewrite app_nth2, Nat.sub_diag by lia. cbn [nth]. now apply pcall_app.
Qed.
Lemma iadd_values {A} (e : expr A) w s a b l l' : history sizes w s -> allowed sizes (UIadd a b) w -> a <> b ->
  outcome a e w = Ok (VVec l) -> outcome b e w = Ok (VVec l') -> outcome a e (fst (ms_iadd a b w)) = Ok (VVec (l ++ l')).
Proof.
  intros H [L1 L2] N E1 E2. destruct (history_ok sizes w s H) as [oss [O Es]]. destruct (iadd_op sizes w oss a b O L1 L2 N) as [w2 [C O2]]. rewrite C. cbn [fst].
  destruct (call_op sizes e w oss a O L1) as [? [D1 _]]. destruct (call_op sizes e w oss b O L2) as [? [D2 _]].
  pose proof (Forall2_len' _ _ _ (oi_ms _ _ _ O2)) as Lw. pose proof (Forall2_len' _ _ _ (oi_ms _ _ _ O)) as L0. rewrite length_upd in Lw.
  destruct (call_op sizes e w2 _ a O2) as [? [D3 _]]; [lia|].
  unfold outcome in *. rewrite D1 in E1. rewrite D2 in E2. rewrite D3. cbn [snd] in *. rewrite nth_upd, Nat.eqb_refl by lia. now apply pcall_app.
Qed.
Lemma total_app l m : total (l ++ m) = (total l + total m)%nat.
Proof. unfold total. induction l as [|x l IH]; [reflexivity|]. cbn. lia. Qed.
End Laws.
