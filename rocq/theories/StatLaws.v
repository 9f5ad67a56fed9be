(** mean, var and quantile of a collection after any history. *)
From Coq Require Import Lia Lqa Permutation Sorting.Sorted.
From Verif Require Import PyBase PyBaseFacts QSum NumpyModel NdModel FieldModel HelperModel ParticleModel ParticleSpec ParticleFacts ParticleOps ParticleHist ParticleRun ParticleLaws StatModel StatSpec StatFacts.

Section Laws.
Context (sizes : dump -> string -> nat).

Lemma weights_values wt gs : all_values (times_weight wt) gs = particle_weights (some_weight wt) gs.
Proof. reflexivity. Qed.
Lemma opt_weights_values wt gs : all_values (weight_expr wt) gs = particle_weights (opt_weight wt) gs.
Proof. destruct wt; reflexivity. Qed.
Lemma all_values_length {A} (e : expr A) gs : length (all_values e gs) = total gs.
Proof.
  unfold all_values, total. induction gs as [|g gs IH]; [reflexivity|]. cbn [map concat fold_right].
  rewrite app_length, IH. unfold group_values. now rewrite map_length.
Qed.
Lemma values_weights_length (e : expr Q) wt gs : length (all_values e gs) = length (all_values (weight_expr wt) gs).
Proof. now rewrite !all_values_length. Qed.
Lemma mbind_ok {A B} (c : M A) (k : A -> M B) w w' b : mbind c k w = (w', Ok b) -> exists w1 a, c w = (w1, Ok a) /\ k a w1 = (w', Ok b).
Proof. unfold mbind. destruct (c w) as [w1 [a|x]]; intro H; [eauto|discriminate H]. Qed.
Lemma call_step (e : expr Q) m w s w1 d : history sizes w s -> (m < length (w_ms w))%nat -> ms_call m e w = (w1, Ok d) ->
  history sizes w1 s /\ (m < length (w_ms w1))%nat /\ entries d = all_values e (nth m s []).
Proof.
  intros H L C.
  assert (H1 : history sizes w1 s).
  { replace w1 with (step (UCall m e) w) by (cbn [step]; unfold forget; now rewrite C). apply (h_step sizes (UCall m e) w s H). exact L. }
  split; [exact H1|]. split; [rewrite <- (history_length sizes w1 s H1), (history_length sizes w s H); exact L|].
  exact (call_values sizes e w s m w1 d H L C).
Qed.
Lemma both_values (e we : expr Q) m w s w1 w2 v1 v2 : history sizes w s -> (m < length (w_ms w))%nat ->
  ms_call m we w = (w1, Ok v1) -> ms_call m e w1 = (w2, Ok v2) ->
  entries v1 = all_values we (nth m s []) /\ entries v2 = all_values e (nth m s []).
Proof.
  intros H L C1 C2. destruct (call_step we m w s w1 v1 H L C1) as (H1 & L1 & E1). destruct (call_step e m w1 s w2 v2 H1 L1 C2) as (_ & _ & E2). auto.
Qed.
Lemma both_total (e we : expr Q) m w s : history sizes w s -> (m < length (w_ms w))%nat -> readable (e_keys we ++ e_keys e) (nth m s []) ->
  exists w1 w2 v1 v2, ms_call m we w = (w1, Ok v1) /\ ms_call m e w1 = (w2, Ok v2) /\
  entries v1 = all_values we (nth m s []) /\ entries v2 = all_values e (nth m s []).
Proof.
  intros H L R.
  assert (T1 : outcome m we w = Ok (VVec (all_values we (nth m s [])))).
  { apply (call_total sizes we w s m H L). intros g I. destruct (R g I) as [A B]. split; [exact A|]. intros key K. apply B, in_app_iff. now left. }
  unfold outcome in T1. destruct (ms_call m we w) as [w1 r1] eqn:C1. cbn [snd] in T1. subst r1.
  destruct (call_step we m w s w1 _ H L C1) as (H1 & L1 & E1).
  assert (T2 : outcome m e w1 = Ok (VVec (all_values e (nth m s [])))).
  { apply (call_total sizes e w1 s m H1 L1). intros g I. destruct (R g I) as [A B]. split; [exact A|]. intros key K. apply B, in_app_iff. now right. }
  unfold outcome in T2. destruct (ms_call m e w1) as [w2 r2] eqn:C2. cbn [snd] in T2. subst r2.
  exists w1, w2, (VVec (all_values we (nth m s []))), (VVec (all_values e (nth m s []))). auto.
Qed.

Lemma mean_average m e wt w s w' a : history sizes w s -> (m < length (w_ms w))%nat -> ms_mean m e wt w = (w', Ok a) ->
  np_average (all_values e (nth m s [])) (particle_weights (opt_weight wt) (nth m s [])) = Ok a.
Proof.
  intros H L R. unfold ms_mean in R. apply mbind_ok in R. destruct R as (w1 & v1 & C1 & R). apply mbind_ok in R. destruct R as (w2 & v2 & C2 & R).
  destruct (both_values e (weight_expr wt) m w s w1 w2 v1 v2 H L C1 C2) as [E1 E2]. rewrite E1, E2, opt_weights_values in R.
  unfold mlift in R. now injection R.
Qed.
Lemma mean_total m e wt w s : history sizes w s -> (m < length (w_ms w))%nat -> readable (e_keys (weight_expr wt) ++ e_keys e) (nth m s []) ->
  snd (ms_mean m e wt w) = np_average (all_values e (nth m s [])) (particle_weights (opt_weight wt) (nth m s [])).
Proof.
  intros H L R. destruct (both_total e (weight_expr wt) m w s H L R) as (w1 & w2 & v1 & v2 & C1 & C2 & E1 & E2).
  unfold ms_mean, mbind. rewrite C1, C2, E1, E2, opt_weights_values. reflexivity.
Qed.
Lemma var_variance m e wt w s w' a : history sizes w s -> (m < length (w_ms w))%nat -> ms_var m e wt w = (w', Ok a) ->
  variance (all_values e (nth m s [])) (particle_weights (some_weight wt) (nth m s [])) = Ok a.
Proof.
  intros H L R. unfold ms_var in R. apply mbind_ok in R. destruct R as (w1 & v1 & C1 & R). apply mbind_ok in R. destruct R as (w2 & v2 & C2 & R).
  destruct (both_values e (times_weight wt) m w s w1 w2 v1 v2 H L C1 C2) as [E1 E2]. rewrite E1, E2, weights_values in R.
  unfold mlift in R. unfold variance. now injection R.
Qed.
Lemma var_total m e wt w s : history sizes w s -> (m < length (w_ms w))%nat -> readable (e_keys (times_weight wt) ++ e_keys e) (nth m s []) ->
  snd (ms_var m e wt w) = variance (all_values e (nth m s [])) (particle_weights (some_weight wt) (nth m s [])).
Proof.
  intros H L R. destruct (both_total e (times_weight wt) m w s H L R) as (w1 & w2 & v1 & v2 & C1 & C2 & E1 & E2).
  unfold ms_var, mbind. rewrite C1, C2, E1, E2, weights_values. reflexivity.
Qed.
Lemma linear_values a b e gs : all_values (linear a b e) gs = map (fun x => a * x + b) (all_values e gs).
Proof.
  unfold all_values. induction gs as [|g gs IH]; [reflexivity|]. cbn [map concat]. rewrite map_app, IH. f_equal.
  unfold group_values. rewrite map_map. reflexivity.
Qed.
Lemma weights_length (e : expr Q) wt gs : length (all_values e gs) = length (particle_weights wt gs).
Proof.
  rewrite all_values_length. unfold particle_weights, total. induction gs as [|g gs IH]; [reflexivity|]. cbn [map concat fold_right].
  now rewrite app_length, IH, map_length.
Qed.

(** ** mean *)
Lemma mean_moment m e wt w s w' a : history sizes w s -> (m < length (w_ms w))%nat -> ms_mean m e wt w = (w', Ok a) ->
  let d := all_values e (nth m s []) in let p := particle_weights (opt_weight wt) (nth m s []) in
  ~ total_weight d p == 0 /\ a * total_weight d p == moment d p.
Proof. intros H L R. exact (proj2 (average_ok _ _ _ (mean_average m e wt w s w' a H L R))). Qed.
Lemma mean_defined m e wt w s : history sizes w s -> (m < length (w_ms w))%nat -> readable ("weight"%string :: fst (opt_weight wt) ++ e_keys e) (nth m s []) ->
  let W := total_weight (all_values e (nth m s [])) (particle_weights (opt_weight wt) (nth m s [])) in
  if W ==?q 0 then snd (ms_mean m e wt w) = Err ZeroDivisionError else exists a, snd (ms_mean m e wt w) = Ok a.
Proof.
  intros H L R W. rewrite (mean_total m e wt w s H L) by (destruct wt; exact R).
  assert (LE := weights_length e (opt_weight wt) (nth m s [])). destruct (Qeqb_spec W 0) as [Z|Z].
  - destruct (np_average _ _) as [a|x] eqn:E.
    + exfalso. destruct (average_ok _ _ _ E) as (_ & K & _). contradiction.
    + destruct (average_error _ _ _ LE E) as [-> _]. reflexivity.
  - exact (average_total _ _ LE Z).
Qed.
Lemma mean_bounds m e wt w s w' a lo hi : history sizes w s -> (m < length (w_ms w))%nat -> ms_mean m e wt w = (w', Ok a) ->
  (forall y, In y (particle_weights (opt_weight wt) (nth m s [])) -> 0 <= y) ->
  (forall x, In x (all_values e (nth m s [])) -> lo <= x /\ x <= hi) -> lo <= a /\ a <= hi.
Proof. intros H L R N B. exact (average_bounds lo hi _ _ a (mean_average m e wt w s w' a H L R) N B). Qed.
Lemma mean_linear m e wt w s w1 w2 a b p q : history sizes w s -> (m < length (w_ms w))%nat -> ms_mean m e wt w = (w1, Ok a) ->
  ms_mean m (linear p q e) wt w = (w2, Ok b) -> b == p * a + q.
Proof.
  intros H L A B. apply (mean_average m _ wt w s w2 b H L) in B. rewrite linear_values in B.
  exact (average_linear p q _ _ a b (mean_average m e wt w s w1 a H L A) B).
Qed.
(** ** var *)
Lemma var_nonneg m e wt w s w' v : history sizes w s -> (m < length (w_ms w))%nat -> ms_var m e wt w = (w', Ok v) ->
  (forall y, In y (particle_weights (some_weight wt) (nth m s [])) -> 0 <= y) -> 0 <= v.
Proof. intros H L R N. exact (variance_nonneg _ _ v (var_variance m e wt w s w' v H L R) N). Qed.
Lemma var_linear m e wt w s w1 w2 a b p q : history sizes w s -> (m < length (w_ms w))%nat -> ms_var m e wt w = (w1, Ok a) ->
  ms_var m (linear p q e) wt w = (w2, Ok b) -> b == p * p * a.
Proof.
  intros H L A B. apply (var_variance m _ wt w s w2 b H L) in B. rewrite linear_values in B.
  exact (variance_linear p q _ _ a b (var_variance m e wt w s w1 a H L A) B).
Qed.
Lemma var_meaning m e wt w s w1 w2 v a : history sizes w s -> (m < length (w_ms w))%nat -> ms_var m e wt w = (w1, Ok v) ->
  ms_mean m e (Some wt) w = (w2, Ok a) ->
  let d := all_values e (nth m s []) in let p := particle_weights (some_weight wt) (nth m s []) in
  v * total_weight d p == moment (map (fun x => (x - a) * (x - a)) d) p /\
  ((forall y, In y p -> 0 < y) -> (v == 0 <-> forall x, In x d -> x == a)).
Proof.
  intros H L V A d p. apply (var_variance m e wt w s w1 v H L) in V. apply (mean_average m e (Some wt) w s w2 a H L) in A. cbn [opt_weight] in A. fold d p in V, A.
  split; [|exact (variance_zero d p v a V A)]. destruct (variance_ok _ _ _ V) as (a' & A' & E). rewrite A in A'. injection A' as <-. exact E.
Qed.
Lemma var_defined m e wt w s : history sizes w s -> (m < length (w_ms w))%nat -> readable ("weight"%string :: e_keys wt ++ e_keys e) (nth m s []) ->
  ~ total_weight (all_values e (nth m s [])) (particle_weights (some_weight wt) (nth m s [])) == 0 -> exists v, snd (ms_var m e wt w) = Ok v.
Proof.
  intros H L R Z. rewrite (var_total m e wt w s H L R). apply variance_total; [apply weights_length|exact Z].
Qed.
(** ** quantile *)
Lemma mapM_forall {A B} (f : A -> res B) (P : A -> B -> Prop) l : (forall x, In x l -> exists y, f x = Ok y /\ P x y) -> exists r, mapM f l = Ok r /\ Forall2 P l r.
Proof.
  induction l as [|x l IH]; intro H; [exists []; split; [reflexivity|constructor]|]. destruct (H x (or_introl eq_refl)) as (y & E & K).
  destruct IH as (r & R & F); [intros; apply H; now right|]. exists (y :: r). cbn [mapM]. rewrite E. cbn [bind]. rewrite R. cbn [bind]. split; [reflexivity|constructor; assumption].
Qed.
Lemma quantile_refused f m e qs wt w : (exists q, In q qs /\ (q < 0 \/ 1 < q)) -> ms_quantile f m e qs wt w = (w, Err ValueError).
Proof.
  intros (q & I & K). unfold ms_quantile. replace (existsb (fun q => q <?q 0) qs || existsb (fun q => 1 <?q q) qs) with true; [reflexivity|].
  symmetry. apply Bool.orb_true_iff. destruct K as [K|K]; [left|right]; apply existsb_exists; exists q; (split; [exact I|]).
  - destruct (Qltb_spec q 0); [reflexivity|contradiction].
  - destruct (Qltb_spec 1 q); [reflexivity|contradiction].
Qed.
Lemma in_range qs : (forall q, In q qs -> 0 <= q <= 1) -> existsb (fun q => q <?q 0) qs || existsb (fun q => 1 <?q q) qs = false.
Proof.
  intro H. apply Bool.orb_false_iff. split; apply Bool.not_true_iff_false; intro K; apply existsb_exists in K; destruct K as (q & I & K); specialize (H q I).
  - destruct (Qltb_spec q 0); [lra|discriminate].
  - destruct (Qltb_spec 1 q); [lra|discriminate].
Qed.
Lemma quantile_ok f m e qs wt w s : history sizes w s -> (m < length (w_ms w))%nat -> sorting f ->
  readable ("weight"%string :: fst (opt_weight wt) ++ e_keys e) (nth m s []) -> nth m s [] <> [] ->
  (forall y, In y (particle_weights (opt_weight wt) (nth m s [])) -> 0 <= y) -> (forall q, In q qs -> 0 <= q <= 1) ->
  exists xs, snd (ms_quantile f m e qs wt w) = Ok xs /\
    Forall2 (is_quantile (all_values e (nth m s [])) (particle_weights (opt_weight wt) (nth m s []))) qs xs.
Proof.
  intros H L SO R NE N Q01. unfold ms_quantile. rewrite (in_range qs Q01).
  destruct (both_total e (weight_expr wt) m w s H L) as (w1 & w2 & v1 & v2 & C1 & C2 & E1 & E2); [destruct wt; exact R|].
  unfold mbind. rewrite C1, C2, E1, E2, opt_weights_values. cbn [mlift snd].
  destruct (SO (all_values e (nth m s []))) as [PE S0].
  apply mapM_forall. intros q I. apply pick_spec; auto.
  - apply weights_length.
  - intro K. assert (LV := all_values_length e (nth m s [])). rewrite K in LV. cbn in LV. destruct (nth m s []) as [|g gs]; [contradiction|].
    destruct (R g (or_introl eq_refl)) as [X _]. unfold total in LV. cbn [map fold_right] in LV. destruct (g_sel g); [contradiction|cbn in LV; lia].
Qed.
Lemma quantile_values f m e qs wt w s w' xs : history sizes w s -> (m < length (w_ms w))%nat -> sorting f ->
  ms_quantile f m e qs wt w = (w', Ok xs) -> qs <> [] ->
  (forall y, In y (particle_weights (opt_weight wt) (nth m s [])) -> 0 <= y) ->
  Forall2 (is_quantile (all_values e (nth m s [])) (particle_weights (opt_weight wt) (nth m s []))) qs xs.
Proof.
  intros H L SO R NQ N. unfold ms_quantile in R. destruct (existsb _ qs || existsb _ qs) eqn:G; [discriminate R|].
  assert (Q01 : forall q, In q qs -> 0 <= q <= 1).
  { apply Bool.orb_false_iff in G. destruct G as [G1 G2]. intros q I.
    assert (X1 : (q <?q 0) = false) by (apply Bool.not_true_iff_false; intro K; apply Bool.eq_true_false_abs with (existsb (fun q => q <?q 0) qs); [apply existsb_exists; eauto|exact G1]).
    assert (X2 : (1 <?q q) = false) by (apply Bool.not_true_iff_false; intro K; apply Bool.eq_true_false_abs with (existsb (fun q => 1 <?q q) qs); [apply existsb_exists; eauto|exact G2]).
    destruct (Qltb_spec q 0); [discriminate|]. destruct (Qltb_spec 1 q); [discriminate|]. lra. }
  apply mbind_ok in R. destruct R as (w1 & v1 & C1 & R). apply mbind_ok in R. destruct R as (w2 & v2 & C2 & R).
  destruct (both_values e (weight_expr wt) m w s w1 w2 v1 v2 H L C1 C2) as [E1 E2]. rewrite E1, E2, opt_weights_values in R.
  unfold mlift in R. injection R as _ R. destruct (SO (all_values e (nth m s []))) as [PE S0].
  destruct (all_values e (nth m s [])) as [|x0 d0] eqn:ED.
  - exfalso. destruct qs as [|q qs]; [contradiction|]. cbn [mapM] in R. apply bind_ok in R. destruct R as (x & X & _). unfold pick_quantile in X.
    apply Permutation_length in PE. cbn [length seq] in PE. destruct (f []); [|discriminate PE]. cbn in X. discriminate X.
  - rewrite <- ED in *.
    destruct (mapM_forall (pick_quantile (f (all_values e (nth m s []))) (all_values e (nth m s [])) (particle_weights (opt_weight wt) (nth m s [])))
      (is_quantile (all_values e (nth m s [])) (particle_weights (opt_weight wt) (nth m s []))) qs) as (r & R' & F).
    + intros q I. apply pick_spec; auto; [apply weights_length|rewrite ED; discriminate].
    + rewrite R' in R. injection R as <-. exact F.
Qed.
Lemma quantile_monotone f m e qs wt w s w' xs i j : history sizes w s -> (m < length (w_ms w))%nat -> sorting f ->
  ms_quantile f m e qs wt w = (w', Ok xs) -> (forall y, In y (particle_weights (opt_weight wt) (nth m s [])) -> 0 <= y) ->
  (i < length qs)%nat -> (j < length qs)%nat -> nth i qs 0 <= nth j qs 0 -> nth i xs 0 <= nth j xs 0.
Proof.
  intros H L SO R N I J K. assert (F := quantile_values f m e qs wt w s w' xs H L SO R ltac:(destruct qs; [cbn in I; lia|discriminate]) N).
  assert (G : forall k, (k < length qs)%nat -> is_quantile (all_values e (nth m s [])) (particle_weights (opt_weight wt) (nth m s [])) (nth k qs 0) (nth k xs 0)).
  { clear -F. induction F as [|q x qs xs Q F IH]; intros k K; [cbn in K; lia|]. destruct k as [|k]; [exact Q|]. apply IH. cbn in K. lia. }
  eapply quantile_mono; [apply G, I|apply G, J|exact K|apply weight_nonneg, N].
Qed.
Lemma quantile_ties f g m e q wt w s w1 w2 x y : history sizes w s -> (m < length (w_ms w))%nat -> sorting f -> sorting g ->
  ms_quantile f m e [q] wt w = (w1, Ok [x]) -> ms_quantile g m e [q] wt w = (w2, Ok [y]) ->
  (forall y, In y (particle_weights (opt_weight wt) (nth m s [])) -> 0 <= y) -> x == y.
Proof.
  intros H L F G A B N.
  assert (X := quantile_values f m e [q] wt w s w1 [x] H L F A ltac:(discriminate) N).
  assert (Y := quantile_values g m e [q] wt w s w2 [y] H L G B ltac:(discriminate) N).
  inversion X; subst. inversion Y; subst. eapply quantile_unique; eassumption.
Qed.
End Laws.
Lemma median_value sizes f m e wt w s w' xs : history sizes w s -> (m < length (w_ms w))%nat -> sorting f -> ms_median f m e wt w = (w', Ok xs) ->
  (forall y, In y (particle_weights (opt_weight wt) (nth m s [])) -> 0 <= y) ->
  exists x, xs = [x] /\ is_quantile (all_values e (nth m s [])) (particle_weights (opt_weight wt) (nth m s [])) (1 # 2) x.
Proof.
  intros H M S E P. pose proof (quantile_values sizes f m e [1 # 2] wt w s w' xs H M S E ltac:(discriminate) P) as Q.
  inversion Q as [|? x ? r X R]; subst. inversion R; subst. now exists x.
Qed.
