(** Weighted mean, variance and quantiles of lists. *)
From Coq Require Import Lia Lqa Permutation Sorting.Sorted.
From Verif Require Import PyBase PyBaseFacts NumpyModel NdModel NdFacts AxisModel AxisFacts FieldModel HelperModel ParticleModel ParticleSpec QSum StatModel StatSpec.

Lemma np_sum_from l : forall a, fold_left Qplus l a == a + qsum l.
Proof. induction l as [|x l IH]; intro a; cbn [fold_left]; [rewrite qsum_nil; ring|]. rewrite IH, qsum_cons. ring. Qed.
Lemma np_sum_qsum l : np_sum l == qsum l.
Proof. unfold np_sum. rewrite np_sum_from. ring. Qed.
Lemma weight_total d : forall w, length d = length w -> total_weight d w == qsum w.
Proof.
  unfold total_weight. induction d as [|x d IH]; intros [|y w] L; try discriminate L; [reflexivity|].
  cbn [weight_of]. rewrite qsum_cons, IH by (cbn in L; lia). reflexivity.
Qed.
Lemma moment_sum d : forall w, qsum (map2 Qmult d w) == moment d w.
Proof. induction d as [|x d IH]; intros [|y w]; try reflexivity. cbn [map2 moment]. rewrite qsum_cons, IH. reflexivity. Qed.

Lemma average_ok d w a : np_average d w = Ok a ->
  length d = length w /\ ~ total_weight d w == 0 /\ a * total_weight d w == moment d w.
Proof.
  unfold np_average. intro H. destruct (Nat.eqb_spec (length d) (length w)) as [L|L]; [|discriminate H]. cbn [negb] in H.
  destruct (Qeqb_spec (np_sum w) 0) as [Z|Z]; [discriminate H|]. injection H as <-.
  rewrite (np_sum_qsum w) in Z. split; [exact L|]. rewrite (weight_total d w L). split; [exact Z|].
  rewrite !np_sum_qsum, moment_sum. field. exact Z.
Qed.
Lemma average_total d w : length d = length w -> ~ total_weight d w == 0 -> exists a, np_average d w = Ok a.
Proof.
  intros L Z. unfold np_average. rewrite L, Nat.eqb_refl. cbn [negb]. rewrite (weight_total d w L), <- np_sum_qsum in Z.
  destruct (Qeqb_spec (np_sum w) 0); [contradiction|]. eauto.
Qed.
Lemma average_error d w x : length d = length w -> np_average d w = Err x -> x = ZeroDivisionError /\ total_weight d w == 0.
Proof.
  intro L. unfold np_average. rewrite L, Nat.eqb_refl. cbn [negb]. rewrite (weight_total d w L), <- np_sum_qsum.
  destruct (Qeqb_spec (np_sum w) 0); intro H; [|discriminate H]. injection H as <-. auto.
Qed.

(** ** Moments *)
Lemma weight_nonneg P d : forall w, (forall y, In y w -> 0 <= y) -> 0 <= weight_of P d w.
Proof.
  induction d as [|x d IH]; intros [|y w] H; cbn [weight_of]; try apply Qle_refl.
  assert (0 <= weight_of P d w) by (apply IH; intros; apply H; now right). assert (0 <= y) by (apply H; now left).
  destruct (P x); lra.
Qed.
Lemma total_pos d w : (forall y, In y w -> 0 <= y) -> ~ total_weight d w == 0 -> 0 < total_weight d w.
Proof.
  intros N Z. assert (0 <= total_weight d w) by (apply weight_nonneg, N). destruct (Qlt_le_dec 0 (total_weight d w)) as [|K]; [assumption|].
  exfalso. apply Z. lra.
Qed.
Lemma moment_lower lo d : forall w, length d = length w -> (forall y, In y w -> 0 <= y) -> (forall x, In x d -> lo <= x) -> lo * total_weight d w <= moment d w.
Proof.
  unfold total_weight. induction d as [|x d IH]; intros [|y w] L N B; try discriminate L; cbn [weight_of moment]; [lra|].
  assert (lo * weight_of (fun _ => true) d w <= moment d w) by (apply IH; [cbn in L; lia|intros; apply N; now right|intros; apply B; now right]).
  assert (Y : 0 <= y) by (apply N; now left). assert (X : lo <= x) by (apply B; now left).
  assert (lo * y <= x * y) by (apply Qmult_le_compat_r; assumption). lra.
Qed.
Lemma moment_upper hi d : forall w, length d = length w -> (forall y, In y w -> 0 <= y) -> (forall x, In x d -> x <= hi) -> moment d w <= hi * total_weight d w.
Proof.
  unfold total_weight. induction d as [|x d IH]; intros [|y w] L N B; try discriminate L; cbn [weight_of moment]; [lra|].
  assert (moment d w <= hi * weight_of (fun _ => true) d w) by (apply IH; [cbn in L; lia|intros; apply N; now right|intros; apply B; now right]).
  assert (Y : 0 <= y) by (apply N; now left). assert (X : x <= hi) by (apply B; now left).
  assert (x * y <= hi * y) by (apply Qmult_le_compat_r; assumption). lra.
Qed.
Lemma average_bounds lo hi d w a : np_average d w = Ok a -> (forall y, In y w -> 0 <= y) ->
  (forall x, In x d -> lo <= x /\ x <= hi) -> lo <= a /\ a <= hi.
Proof.
  intros H N B. destruct (average_ok _ _ _ H) as (L & Z & E). assert (P := total_pos _ _ N Z).
  assert (A := moment_lower lo d w L N (fun x I => proj1 (B x I))). assert (C := moment_upper hi d w L N (fun x I => proj2 (B x I))).
  rewrite <- E in A, C. split; eapply Qmult_lt_0_le_reg_r; eauto.
Qed.
Lemma moment_linear a b d : forall w, length d = length w -> moment (map (fun x => a * x + b) d) w == a * moment d w + b * total_weight d w.
Proof.
  unfold total_weight. induction d as [|x d IH]; intros [|y w] L; try discriminate L; cbn [map weight_of moment]; [ring|].
  rewrite IH by (cbn in L; lia). ring.
Qed.
Lemma total_map f d : forall w, total_weight (map f d) w = total_weight d w.
Proof. unfold total_weight. induction d as [|x d IH]; intros [|y w]; try reflexivity. cbn [map weight_of]. now rewrite IH. Qed.
Lemma average_linear p q d w a b : np_average d w = Ok a -> np_average (map (fun x => p * x + q) d) w = Ok b -> b == p * a + q.
Proof.
  intros A B. destruct (average_ok _ _ _ A) as (L & Z & E). destruct (average_ok _ _ _ B) as (_ & _ & F).
  rewrite total_map, moment_linear, <- E in F by exact L.
  assert (K : (b - (p * a + q)) * total_weight d w == 0) by lra.
  apply Qmult_integral in K. destruct K as [K|K]; [lra|contradiction].
Qed.
Lemma moment_squares c d : forall w, length d = length w ->
  moment (map (fun x => (x - c) * (x - c)) d) w == moment (map (fun x => x * x) d) w - 2 * c * moment d w + c * c * total_weight d w.
Proof.
  unfold total_weight. induction d as [|x d IH]; intros [|y w] L; try discriminate L; cbn [map weight_of moment]; [ring|].
  rewrite IH by (cbn in L; lia). ring.
Qed.
(** the variance of a list, as computed *)
Definition variance (d w : list Q) : res Q :=
  let! a := np_average d w in np_average (map (fun x => (x - a) * (x - a)) d) w.
Lemma variance_ok d w v : variance d w = Ok v -> exists a, np_average d w = Ok a /\ v * total_weight d w == moment (map (fun x => (x - a) * (x - a)) d) w.
Proof.
  unfold variance. intro H. apply bind_ok in H. destruct H as (a & A & H). exists a. split; [exact A|].
  destruct (average_ok _ _ _ H) as (_ & _ & E). now rewrite total_map in E.
Qed.
Lemma variance_total d w : length d = length w -> ~ total_weight d w == 0 -> exists v, variance d w = Ok v.
Proof.
  intros L Z. destruct (average_total d w L Z) as [a A]. unfold variance. rewrite A. cbn [bind]. apply average_total; [now rewrite map_length|].
  now rewrite total_map.
Qed.
Lemma square_nonneg (x : Q) : 0 <= x * x.
Proof.
  destruct (Qlt_le_dec x 0).
  - setoid_replace (x * x) with ((- x) * (- x)) by ring. apply Qmult_le_0_compat; lra.
  - apply Qmult_le_0_compat; assumption.
Qed.
Lemma moment_nonneg d : forall w, (forall x, In x d -> 0 <= x) -> (forall y, In y w -> 0 <= y) -> 0 <= moment d w.
Proof.
  induction d as [|x d IH]; intros [|y w] D N; cbn [moment]; try apply Qle_refl.
  assert (0 <= moment d w) by (apply IH; intros; [apply D|apply N]; now right).
  assert (0 <= x * y) by (apply Qmult_le_0_compat; [apply D|apply N]; now left). lra.
Qed.
Lemma variance_nonneg d w v : variance d w = Ok v -> (forall y, In y w -> 0 <= y) -> 0 <= v.
Proof.
  intros H N. destruct (variance_ok _ _ _ H) as (a & A & E). destruct (average_ok _ _ _ A) as (L & Z & _).
  assert (P := total_pos _ _ N Z). apply (Qmult_lt_0_le_reg_r _ _ _ P). rewrite E.
  setoid_replace (0 * total_weight d w) with 0 by ring. apply moment_nonneg; [|exact N].
  intros x I. apply in_map_iff in I. destruct I as (z & <- & _). apply square_nonneg.
Qed.
Lemma variance_linear p q d w u v : variance d w = Ok u -> variance (map (fun x => p * x + q) d) w = Ok v -> v == p * p * u.
Proof.
  intros U V. destruct (variance_ok _ _ _ U) as (a & A & E). destruct (variance_ok _ _ _ V) as (b & B & F).
  destruct (average_ok _ _ _ A) as (L & Z & _). assert (K := average_linear _ _ _ _ _ _ A B).
  rewrite total_map, map_map in F.
  assert (G : forall d w, moment (map (fun x => (p * x + q - b) * (p * x + q - b)) d) w == p * p * moment (map (fun x => (x - a) * (x - a)) d) w).
  { clear -K. induction d as [|x d IH]; intros [|y w]; cbn [map moment]; try ring. rewrite IH, K. ring. }
  rewrite G, <- E in F.
  assert (M : (v - p * p * u) * total_weight d w == 0) by lra.
  apply Qmult_integral in M. destruct M as [M|M]; [lra|contradiction].
Qed.
(** mean of the squares minus the square of the mean *)
Lemma variance_squares d w v a s : variance d w = Ok v -> np_average d w = Ok a -> np_average (map (fun x => x * x) d) w = Ok s -> v == s - a * a.
Proof.
  intros V A S. destruct (variance_ok _ _ _ V) as (a' & A' & E). rewrite A in A'. injection A' as <-.
  destruct (average_ok _ _ _ A) as (L & Z & F). destruct (average_ok _ _ _ S) as (_ & _ & G). rewrite total_map in G.
  rewrite (moment_squares a d w L), <- F, <- G in E.
  assert (M : (v - (s - a * a)) * total_weight d w == 0) by lra.
  apply Qmult_integral in M. destruct M as [M|M]; [lra|contradiction].
Qed.
Lemma moment_zero d : forall w, length d = length w -> (forall x, In x d -> 0 <= x) -> (forall y, In y w -> 0 < y) -> moment d w == 0 ->
  forall x, In x d -> x == 0.
Proof.
  induction d as [|x d IH]; intros [|y w] L D N M z I; try discriminate L; [destruct I|]. cbn [moment] in M.
  assert (0 <= moment d w) by (apply moment_nonneg; [intros; apply D; now right|intros; apply Qlt_le_weak, N; now right]).
  assert (X : 0 <= x) by (apply D; now left). assert (Y : 0 < y) by (apply N; now left).
  assert (0 <= x * y) by (apply Qmult_le_0_compat; [exact X|apply Qlt_le_weak, Y]).
  destruct I as [<-|I].
  - assert (K : x * y == 0) by lra. apply Qmult_integral in K. destruct K as [K|K]; [exact K|lra].
  - apply (IH w); [cbn in L; lia|intros; apply D; now right|intros; apply N; now right|lra|exact I].
Qed.
Lemma variance_zero d w v a : variance d w = Ok v -> np_average d w = Ok a -> (forall y, In y w -> 0 < y) ->
  (v == 0 <-> forall x, In x d -> x == a).
Proof.
  intros V A N. destruct (variance_ok _ _ _ V) as (a' & A' & E). rewrite A in A'. injection A' as <-.
  destruct (average_ok _ _ _ A) as (L & Z & F). split.
  - intros K x I. rewrite K in E.
    assert (M : (x - a) * (x - a) == 0).
    { apply (moment_zero (map (fun x => (x - a) * (x - a)) d) w); [now rewrite map_length| |exact N|rewrite <- E; ring|apply in_map_iff; eauto].
      intros z J. apply in_map_iff in J. destruct J as (t & <- & _). apply square_nonneg. }
    apply Qmult_integral in M. destruct M; lra.
  - intro K.
    assert (M : forall d w, (forall x, In x d -> x == a) -> moment (map (fun x => (x - a) * (x - a)) d) w == 0).
    { clear. induction d as [|x d IH]; intros [|y w] K; cbn [map moment]; try reflexivity.
      rewrite IH by (intros; apply K; now right). rewrite (K x) by now left. ring. }
    rewrite (M d w K) in E. apply Qmult_integral in E. destruct E as [E|E]; [exact E|contradiction].
Qed.

(** ** Quantiles *)
Definition pweight (P : Q -> bool) (l : list (Q * Q)) : Q := qsum (map (fun p => if P (fst p) then snd p else 0) l).
Lemma weight_pairs P d : forall w, weight_of P d w == pweight P (combine d w).
Proof.
  unfold pweight. induction d as [|x d IH]; intros [|y w]; try reflexivity. cbn [weight_of combine map]. rewrite qsum_cons, IH. reflexivity.
Qed.
Lemma pweight_perm P l m : Permutation l m -> pweight P l == pweight P m.
Proof. intro H. apply qsum_perm, Permutation_map, H. Qed.
Lemma pweight_app P l m : pweight P (l ++ m) == pweight P l + pweight P m.
Proof. unfold pweight. rewrite map_app. apply qsum_app. Qed.
Lemma pweight_split P k l : pweight P l == pweight P (firstn k l) + pweight P (skipn k l).
Proof. rewrite <- pweight_app, firstn_skipn. reflexivity. Qed.
Lemma pweight_nonneg P l : (forall p, In p l -> 0 <= snd p) -> 0 <= pweight P l.
Proof. intro H. apply qsum_nonneg. intros p I. destruct (P (fst p)); [apply H, I|lra]. Qed.
Lemma pweight_all P l : (forall p, In p l -> P (fst p) = true) -> pweight P l == qsum (map snd l).
Proof. intro H. apply qsum_map_ext. intros p I. rewrite (H p I). reflexivity. Qed.
Lemma pweight_none P l : (forall p, In p l -> P (fst p) = false) -> pweight P l == 0.
Proof. intro H. apply qsum_zero. intros p I. rewrite (H p I). reflexivity. Qed.

Lemma cumsum_length l : forall a, length (cumsum_from a l) = length l.
Proof. induction l as [|x l IH]; intro a; [reflexivity|]. cbn [cumsum_from length]. now rewrite IH. Qed.
Lemma cumsum_nth l : forall a i, (i < length l)%nat -> nth i (cumsum_from a l) 0 == a + qsum (firstn (S i) l).
Proof.
  induction l as [|x l IH]; intros a i H; [cbn in H; lia|]. destruct i as [|i]; cbn [cumsum_from nth firstn].
  - rewrite qsum_cons, qsum_nil. ring.
  - cbn in H. rewrite IH by lia. cbn [firstn]. rewrite !qsum_cons. ring.
Qed.
Lemma search_left_spec l v : forall i, (i < search_left l v)%nat -> nth i l 0 < v.
Proof.
  induction l as [|x l IH]; intros i H; cbn [search_left] in H; [lia|]. destruct (Qltb_spec x v); [|lia].
  destruct i as [|i]; [assumption|]. cbn [nth]. apply IH. lia.
Qed.
Lemma search_left_at l v : (search_left l v < length l)%nat -> v <= nth (search_left l v) l 0.
Proof.
  induction l as [|x l IH]; cbn [search_left length]; [lia|]. destruct (Qltb_spec x v) as [K|K]; intro H.
  - cbn [nth]. apply IH. lia.
  - cbn [nth]. now apply Qnot_lt_le.
Qed.
Lemma search_left_le l v : (search_left l v <= length l)%nat.
Proof. induction l as [|x l IH]; cbn [search_left length]; [lia|]. destruct (x <?q v); lia. Qed.
Lemma search_left_hit l v i : (i < length l)%nat -> v <= nth i l 0 -> (search_left l v <= i)%nat.
Proof.
  intros H K. destruct (le_lt_dec (search_left l v) i) as [|G]; [assumption|]. apply search_left_spec in G. lra.
Qed.

Lemma sorted_nth (l : list Q) : Sorted Qle l -> forall i j, (i <= j < length l)%nat -> nth i l 0 <= nth j l 0.
Proof.
  intro H. apply Sorted_StronglySorted in H; [|intros a b c; apply Qle_trans]. induction H as [|x l H IH F]; intros i j K; [cbn in K; lia|].
  cbn [length] in K. destruct i as [|i], j as [|j]; cbn [nth]; try lia.
  - apply Qle_refl.
  - rewrite Forall_forall in F. apply F, nth_In. lia.
  - apply IH. lia.
Qed.
Lemma firstn_S_nth {A} (d : A) l : forall i, (i < length l)%nat -> firstn (S i) l = firstn i l ++ [nth i l d].
Proof.
  induction l as [|x l IH]; intros i H; [cbn in H; lia|]. destruct i as [|i]; [reflexivity|].
  cbn [length] in H. change (firstn (S (S i)) (x :: l)) with (x :: firstn (S i) l). rewrite IH by lia. reflexivity.
Qed.
(** for sorted pairs *)
Lemma sorted_quantile (l : list (Q * Q)) (q : Q) : Sorted Qle (map fst l) -> (forall p, In p l -> 0 <= snd p) -> 0 <= q <= 1 -> l <> [] ->
  let i := search_left (np_cumsum (map snd l)) (qsum (map snd l) * q) in
  (i < length l)%nat /\ qsum (map snd l) * q <= pweight (fun y => y <=?q fst (nth i l (0, 0))) l /\
  forall y, In y (map fst l) -> y < fst (nth i l (0, 0)) -> pweight (fun z => z <=?q y) l < qsum (map snd l) * q.
Proof.
  intros SO N Q01 NE i. set (W := qsum (map snd l)).
  assert (LP : (0 < length l)%nat) by (destruct l; [contradiction|cbn; lia]).
  assert (WP : 0 <= W) by (apply qsum_nonneg, N).
  assert (CL : length (np_cumsum (map snd l)) = length l) by (unfold np_cumsum; now rewrite cumsum_length, map_length).
  assert (CN : forall k, (k < length l)%nat -> nth k (np_cumsum (map snd l)) 0 == qsum (map snd (firstn (S k) l))).
  { intros k K. unfold np_cumsum. rewrite cumsum_nth by now rewrite map_length. rewrite firstn_map. ring. }
  assert (I : (i < length l)%nat).
  { assert (i <= length l - 1)%nat; [|lia]. unfold i. apply search_left_hit; [lia|]. rewrite CN by lia.
    replace (S (length l - 1)) with (length l) by lia. rewrite firstn_all. fold W.
    assert (W * q <= W * 1) by (rewrite !(Qmult_comm W); apply Qmult_le_compat_r; [apply Q01|exact WP]). lra. }
  assert (SN : forall a b, (a <= b < length l)%nat -> fst (nth a l (0, 0)) <= fst (nth b l (0, 0))).
  { intros a b K. rewrite <- !(map_nth fst l (0, 0)). apply sorted_nth; [exact SO|]. now rewrite map_length. }
  assert (A1 : W * q <= qsum (map snd (firstn (S i) l))) by (rewrite <- CN by exact I; apply search_left_at; rewrite CL; exact I).
  assert (A2 : forall k, (k < i)%nat -> qsum (map snd (firstn (S k) l)) < W * q) by (intros k K; rewrite <- CN by lia; apply search_left_spec, K).
  fold W. clearbody i. split; [exact I|]. split.
  - eapply Qle_trans; [exact A1|]. rewrite (pweight_split _ (S i) l), (pweight_all _ (firstn (S i) l)).
    + assert (X : 0 <= pweight (fun y => y <=?q fst (nth i l (0, 0))) (skipn (S i) l)).
      { apply pweight_nonneg. intros p J. apply N. rewrite <- (firstn_skipn (S i) l). apply in_app_iff. now right. }
      revert X. generalize (pweight (fun y => y <=?q fst (nth i l (0, 0))) (skipn (S i) l)) (qsum (map snd (firstn (S i) l))). intros; lra.
    + intros p J. apply In_nth with (d := (0, 0)) in J. destruct J as (k & K & <-). rewrite firstn_length in K.
      rewrite AxisFacts.nth_firstn by lia. destruct (Qleb_spec (fst (nth k l (0, 0))) (fst (nth i l (0, 0)))) as [|X]; [reflexivity|].
      exfalso. apply X, SN. lia.
  - intros y J Y. destruct i as [|i'].
    { exfalso. apply in_map_iff in J. destruct J as (p & <- & J). apply In_nth with (d := (0, 0)) in J. destruct J as (k & K & <-).
      assert (fst (nth 0 l (0, 0)) <= fst (nth k l (0, 0))) by (apply SN; lia). lra. }
    eapply Qle_lt_trans with (y := qsum (map snd (firstn (S i') l))); [|apply A2; lia].
    rewrite (pweight_split _ (S i') l), (pweight_none _ (skipn (S i') l)).
    + unfold pweight. rewrite Qplus_0_r.
      apply qsum_le. intros p K. assert (0 <= snd p). { apply N. rewrite <- (firstn_skipn (S i') l). apply in_app_iff. now left. }
      destruct (fst p <=?q y); lra.
    + intros p K. apply In_nth with (d := (0, 0)) in K. destruct K as (k & K & <-). rewrite skipn_length in K.
      rewrite AxisFacts.nth_skipn. destruct (Qleb_spec (fst (nth (S i' + k) l (0, 0))) y) as [X|]; [exfalso|reflexivity].
      assert (fst (nth (S i') l (0, 0)) <= fst (nth (S i' + k) l (0, 0))) by (apply SN; lia). lra.
Qed.

Lemma search_left_eq l : forall u v, u == v -> search_left l u = search_left l v.
Proof.
  induction l as [|x l IH]; intros u v H; [reflexivity|]. cbn [search_left]. rewrite (IH u v H).
  destruct (Qltb_spec x u), (Qltb_spec x v); try reflexivity; exfalso; [|]; lra.
Qed.
Lemma combine_nth_seq (d w : list Q) : length d = length w ->
  combine d w = map (fun i => (nth i d 0, nth i w 0)) (seq 0 (length d)).
Proof.
  revert w. induction d as [|x d IH]; intros [|y w] L; try discriminate L; [reflexivity|]. cbn [combine length seq map nth].
  f_equal. rewrite <- seq_shift, map_map. apply IH. cbn in L. lia.
Qed.
Lemma pick_spec p d w q : Permutation p (seq 0 (length d)) -> Sorted Qle (map (fun i => nth i d 0) p) -> length d = length w ->
  (forall y, In y w -> 0 <= y) -> 0 <= q <= 1 -> d <> [] -> exists x, pick_quantile p d w q = Ok x /\ is_quantile d w q x.
Proof.
  intros PE SO L N Q01 NE. set (l := map (fun i => (nth i d 0, nth i w 0)) p).
  assert (LD : (0 < length d)%nat) by (destruct d; [contradiction|cbn; lia]).
  assert (LP : length p = length d) by (rewrite (Permutation_length PE); apply seq_length).
  assert (PI : forall i, In i p -> (i < length d)%nat) by (intros i I; apply (Permutation_in _ PE), in_seq in I; lia).
  assert (PL : Permutation l (combine d w)) by (rewrite (combine_nth_seq d w L); apply Permutation_map, PE).
  assert (F : map fst l = map (fun i => nth i d 0) p) by (unfold l; now rewrite map_map).
  assert (G : map snd l = map (fun i => nth i w 0) p) by (unfold l; now rewrite map_map).
  assert (NL : forall x, In x l -> 0 <= snd x).
  { intros x I. apply (Permutation_in _ PL) in I. destruct x as [a b]. apply in_combine_r in I. apply N, I. }
  assert (LL : length l = length d) by (unfold l; now rewrite map_length).
  assert (NEL : l <> []) by (intro K; rewrite K in LL; cbn in LL; lia).
  destruct (sorted_quantile l q (eq_ind_r (Sorted Qle) SO F) NL Q01 NEL) as (I & A & B).
  set (i := search_left (np_cumsum (map snd l)) (qsum (map snd l) * q)) in *. cbv zeta in A, B.
  assert (MW : mapM (fun i => getidx w (Z.of_nat i)) p = Ok (map snd l)).
  { rewrite G. clear -PI L. induction p as [|i p IH]; [reflexivity|]. cbn [mapM map]. rewrite (NdFacts.getidx_at w i 0) by (rewrite <- L; apply PI; now left).
    cbn [bind]. rewrite IH by (intros; apply PI; now right). reflexivity. }
  assert (TW : total_weight d w == qsum (map snd l)).
  { unfold total_weight. rewrite weight_pairs, <- (pweight_perm _ _ _ PL). apply pweight_all. reflexivity. }
  exists (nth (nth i p 0%nat) d 0). split.
  - unfold pick_quantile. rewrite MW. cbn [bind].
    assert (CL : length (np_cumsum (map snd l)) = S (length d - 1)) by (unfold np_cumsum; rewrite cumsum_length, map_length; lia).
    rewrite (AxisFacts.getidx_last _ _ CL). cbn [bind].
    assert (E : nth (length d - 1) (np_cumsum (map snd l)) 0 == qsum (map snd l)).
    { unfold np_cumsum. rewrite cumsum_nth by (rewrite map_length; lia). replace (S (length d - 1)) with (length (map snd l)) by (rewrite map_length; lia).
      rewrite firstn_all. ring. }
    rewrite (search_left_eq _ _ (qsum (map snd l) * q)) by (rewrite E; reflexivity). fold i.
    rewrite (NdFacts.getidx_at p i 0%nat) by lia. cbn [bind].
    apply NdFacts.getidx_at. apply PI, nth_In. lia.
  - assert (X : fst (nth i l (0, 0)) = nth (nth i p 0%nat) d 0).
    { unfold l. rewrite (nth_indep _ (0, 0) ((fun i => (nth i d 0, nth i w 0)) 0%nat)) by (rewrite map_length; lia).
      rewrite (map_nth (fun i => (nth i d 0, nth i w 0)) p 0%nat). reflexivity. }
    rewrite X in A, B. split; [apply nth_In, PI, nth_In; lia|]. split.
    + rewrite weight_pairs, <- (pweight_perm _ _ _ PL), TW. lra.
    + intros y Y K. rewrite weight_pairs, <- (pweight_perm _ _ _ PL), TW.
      assert (Y' : In y (map fst l)).
      { rewrite F. apply In_nth with (d := 0) in Y. destruct Y as (k & K1 & <-). apply in_map_iff. exists k. split; [reflexivity|].
        apply (Permutation_in _ (Permutation_sym PE)), in_seq. lia. }
      specialize (B y Y' K). lra.
Qed.
Lemma quantile_mono d w q r x y : is_quantile d w q x -> is_quantile d w r y -> q <= r -> 0 <= total_weight d w -> x <= y.
Proof.
  intros (I & A & B) (J & C & D) K N. destruct (Qlt_le_dec y x) as [G|G]; [exfalso|exact G].
  assert (X := B y J G). assert (q * total_weight d w <= r * total_weight d w) by (apply Qmult_le_compat_r; assumption). lra.
Qed.
Lemma quantile_unique d w q x y : is_quantile d w q x -> is_quantile d w q y -> x == y.
Proof.
  intros (I & A & B) (J & C & D). destruct (Qlt_le_dec y x) as [G|G]; [exfalso; specialize (B y J G); lra|].
  destruct (Qlt_le_dec x y) as [H|H]; [exfalso; specialize (D x I H); lra|]. lra.
Qed.
