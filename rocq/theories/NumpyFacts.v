(** Lemmas about the numpy primitives. *)
From Coq Require Import Lia Lqa ZifyBool ZifyNat.
From Verif Require Import PyBase PyBaseFacts NumpyModel.

(** * Strictly increasing / decreasing lists, by index *)
Definition sincr (l : list Q) : Prop :=
  forall i j, (i < j)%nat -> (j < length l)%nat -> nth i l 0 < nth j l 0.
Definition sdecr (l : list Q) : Prop :=
  forall i j, (i < j)%nat -> (j < length l)%nat -> nth j l 0 < nth i l 0.

Lemma sincr_tl x l : sincr (x :: l) -> sincr l.
Proof.
  intros H i j Hij Hj. apply (H (S i) (S j)); simpl; lia.
Qed.
Lemma sincr_step l :
  (forall i, (S i < length l)%nat -> nth i l 0 < nth (S i) l 0) -> sincr l.
Proof.
  intros H i j Hij. induction Hij as [|j Hij IH]; intros Hj.
  - apply H. lia.
  - eapply Qlt_trans; [apply IH; lia|]. apply H. lia.
Qed.
Lemma sdecr_step l :
  (forall i, (S i < length l)%nat -> nth (S i) l 0 < nth i l 0) -> sdecr l.
Proof.
  intros H i j Hij. induction Hij as [|j Hij IH]; intros Hj.
  - apply H. lia.
  - eapply Qlt_trans; [|apply IH; lia]. apply H. lia.
Qed.
Lemma sdecr_tl x l : sdecr (x :: l) -> sdecr l.
Proof.
  intros H i j Hij Hj. apply (H (S i) (S j)); simpl; lia.
Qed.

Lemma sincr_rev l : sincr l -> sdecr (rev l).
Proof.
  intros H i j Hij Hj. rewrite rev_length in Hj.
  rewrite !rev_nth by lia. apply H; lia.
Qed.
Lemma sdecr_rev l : sdecr l -> sincr (rev l).
Proof.
  intros H i j Hij Hj. rewrite rev_length in Hj.
  rewrite !rev_nth by lia. apply H; lia.
Qed.

(** * np.diff and monotonicity *)
Lemma np_diff_length l : length (np_diff l) = (length l - 1)%nat.
Proof.
  induction l as [|x [|y l] IH]; simpl; [reflexivity..|].
  simpl in IH. rewrite IH. lia.
Qed.
Lemma nth_np_diff l i : (S i < length l)%nat -> nth i (np_diff l) 0 = nth (S i) l 0 - nth i l 0.
Proof.
  revert i; induction l as [|x [|y l] IH]; intros i Hi; simpl in Hi; [lia..|].
  destruct i; [reflexivity|]. simpl np_diff. simpl nth at 1. rewrite IH by (simpl; lia). reflexivity.
Qed.

Lemma np_all_map_iff (f : Q -> bool) l :
  np_all (map f l) = true <-> (forall i, (i < length l)%nat -> f (nth i l 0) = true).
Proof.
  unfold np_all. rewrite forallb_forall. split.
  - intros H i Hi. apply H. apply in_map. now apply nth_In.
  - intros H b Hb. apply in_map_iff in Hb as (x & <- & Hx).
    apply (In_nth _ _ 0) in Hx as (i & Hi & <-). now apply H.
Qed.

Lemma monotonicity_1 l : monotonicity l = 1%Z <-> sincr l.
Proof.
  unfold monotonicity. split.
  - destruct (np_all (map (fun d => 0 <?q d) (np_diff l))) eqn:E.
    + intros _. apply sincr_step. intros i Hi.
      rewrite np_all_map_iff in E. specialize (E i). rewrite np_diff_length in E.
      specialize (E ltac:(lia)). rewrite nth_np_diff in E by exact Hi.
      apply Qltb_lt in E. lra.
    + intro H. exfalso. destruct (np_all (map (fun d => d <?q 0) (np_diff l))); discriminate H.
  - intros H. rewrite (proj2 (np_all_map_iff _ _)); [reflexivity|].
    intros i Hi. rewrite np_diff_length in Hi. rewrite nth_np_diff by lia.
    apply Qltb_lt. specialize (H i (S i) ltac:(lia) ltac:(lia)). lra.
Qed.
Lemma monotonicity_m1 l : monotonicity l = (-1)%Z <-> (2 <= length l)%nat /\ sdecr l.
Proof.
  unfold monotonicity. split.
  - destruct (np_all (map (fun d => 0 <?q d) (np_diff l))) eqn:E1; [discriminate|].
    destruct (np_all (map (fun d => d <?q 0) (np_diff l))) eqn:E; [|discriminate].
    intros _. split.
    + destruct l as [|x [|y l]]; [discriminate E1|discriminate E1|]. simpl; lia.
    + apply sdecr_step. intros i Hi.
      rewrite np_all_map_iff in E. specialize (E i). rewrite np_diff_length in E.
      specialize (E ltac:(lia)). rewrite nth_np_diff in E by exact Hi.
      apply Qltb_lt in E. lra.
  - intros [Hl H].
    destruct (np_all (map (fun d => 0 <?q d) (np_diff l))) eqn:E1.
    + exfalso. rewrite np_all_map_iff in E1. specialize (E1 0%nat).
      rewrite np_diff_length in E1. specialize (E1 ltac:(lia)).
      rewrite nth_np_diff in E1 by lia. apply Qltb_lt in E1.
      specialize (H 0%nat 1%nat ltac:(lia) ltac:(lia)). lra.
    + rewrite (proj2 (np_all_map_iff _ _)); [reflexivity|].
      intros i Hi. rewrite np_diff_length in Hi. rewrite nth_np_diff by lia.
      apply Qltb_lt. specialize (H i (S i) ltac:(lia) ltac:(lia)). lra.
Qed.
Lemma monotonicity_range l :
  monotonicity l = 1%Z \/ monotonicity l = (-1)%Z \/ monotonicity l = 0%Z.
Proof. unfold monotonicity. destruct (np_all _); [auto|]. destruct (np_all _); auto. Qed.

Lemma sincr_monotone l : sincr l -> negb (monotonicity l =? 0)%Z = true.
Proof. intro H. apply monotonicity_1 in H. rewrite H. reflexivity. Qed.
Lemma sdecr_monotone l : sdecr l -> negb (monotonicity l =? 0)%Z = true.
Proof.
  intro H. destruct (le_lt_dec 2 (length l)) as [Hl|Hl].
  - rewrite (proj2 (monotonicity_m1 l)); [reflexivity|auto].
  - destruct l as [|x [|y l]]; [reflexivity..|]. simpl in Hl; lia.
Qed.

(** * map2 and broadcasting *)
Lemma map2_length {A B C} (f : A -> B -> C) l m :
  length (map2 f l m) = Nat.min (length l) (length m).
Proof. revert m; induction l as [|x l IH]; intros [|y m]; simpl; auto. Qed.
Lemma nth_map2 {A B C} (f : A -> B -> C) l m i da db dc :
  (i < length l)%nat -> (i < length m)%nat ->
  nth i (map2 f l m) dc = f (nth i l da) (nth i m db).
Proof.
  revert m i; induction l as [|x l IH]; intros [|y m] i Hl Hm; simpl in *; try lia.
  destruct i; [reflexivity|]. apply IH; lia.
Qed.
Lemma np_broadcast2_same {A B C} (f : A -> B -> C) l m :
  length l = length m -> np_broadcast2 f l m = Ok (map2 f l m).
Proof. intro H. unfold np_broadcast2. rewrite H, Nat.eqb_refl. reflexivity. Qed.

Lemma np_all_map2_iff (f : Q -> Q -> bool) l m :
  length l = length m ->
  (np_all (map2 f l m) = true <->
   forall i, (i < length l)%nat -> f (nth i l 0) (nth i m 0) = true).
Proof.
  intros Hlen. unfold np_all. rewrite forallb_forall. split.
  - intros H i Hi. rewrite <- (nth_map2 f l m i 0 0 false) by lia.
    apply H. apply nth_In. rewrite map2_length. lia.
  - intros H b Hb. apply (In_nth _ _ false) in Hb as (i & Hi & <-).
    rewrite map2_length in Hi. rewrite (nth_map2 f l m i 0 0 false) by lia. apply H. lia.
Qed.

(** * removelast, tl, last by index *)
Lemma nth_tl {A} (l : list A) i d : nth i (tl l) d = nth (S i) l d.
Proof. destruct l; [now destruct i|reflexivity]. Qed.
Lemma length_tl {A} (l : list A) : length (tl l) = (length l - 1)%nat.
Proof. destruct l; simpl; lia. Qed.
Lemma length_removelast {A} (l : list A) : length (removelast l) = (length l - 1)%nat.
Proof.
  destruct l as [|x l] using rev_ind; [reflexivity|].
  rewrite removelast_last, app_length. simpl. lia.
Qed.
Lemma nth_removelast {A} (l : list A) i d :
  (S i < length l)%nat -> nth i (removelast l) d = nth i l d.
Proof.
  destruct l as [|x l _] using rev_ind; [simpl; lia|].
  rewrite removelast_last, app_length. simpl. intro H.
  rewrite app_nth1 by lia. reflexivity.
Qed.
Lemma last_nth {A} (l : list A) d : last l d = nth (length l - 1) l d.
Proof.
  destruct l as [|x l _] using rev_ind; [reflexivity|].
  rewrite last_last, app_length. simpl. rewrite app_nth2 by lia.
  replace (length l + 1 - 1 - length l)%nat with 0%nat by lia. reflexivity.
Qed.
Lemma nth_indep_lt {A} (l : list A) i d d' : (i < length l)%nat -> nth i l d = nth i l d'.
Proof. apply nth_indep. Qed.

(** * linspace *)
Lemma np_linspace_ok a b num l :
  np_linspace a b num = Ok l -> length l = Z.to_nat num /\
  (forall i, (2 <= num)%Z -> (i < Z.to_nat num)%nat ->
     nth i l 0 == a + inject_Z (Z.of_nat i) * ((b - a) / inject_Z (num - 1))).
Proof.
  unfold np_linspace.
  destruct (Z.ltb_spec num 0); [discriminate|].
  destruct (Z.eqb_spec num 0) as [->|]; [intro E; injection E as <-; split; [reflexivity|lia]|].
  destruct (Z.eqb_spec num 1) as [->|]; [intro E; injection E as <-; split; [reflexivity|lia]|].
  intro E. injection E as <-. split.
  - rewrite app_length, map_length, seq_length. simpl. lia.
  - intros i _ Hi.
    destruct (Nat.eq_dec i (Z.to_nat (num - 1))) as [->|Hne].
    + rewrite app_nth2; rewrite map_length, seq_length; [|lia].
      rewrite Nat.sub_diag. cbn [nth]. rewrite Z2Nat.id by lia.
      assert (Hnz : ~ inject_Z (num - 1) == 0).
      { apply inject_Z_nz. lia. }
      field. exact Hnz.
    + rewrite app_nth1; [|rewrite map_length, seq_length; lia].
      rewrite (nth_indep _ 0 (inject_Z (Z.of_nat 0) * ((b - a) / inject_Z (num - 1)) + a))
        by (rewrite map_length, seq_length; lia).
      rewrite (map_nth (fun i => inject_Z (Z.of_nat i) * ((b - a) / inject_Z (num - 1)) + a)).
      rewrite seq_nth by lia. simpl. ring.
Qed.
Lemma np_linspace_total a b num : (0 <= num)%Z -> exists l, np_linspace a b num = Ok l.
Proof.
  intro H. unfold np_linspace. destruct (Z.ltb_spec num 0); [lia|].
  destruct (num =? 0)%Z; [eauto|]. destruct (num =? 1)%Z; eauto.
Qed.
(** The last entry of a linspace with at least two points is the stop value itself. *)
Lemma np_linspace_last a b num l d :
  (2 <= num)%Z -> np_linspace a b num = Ok l -> last l d = b.
Proof.
  intros Hn. unfold np_linspace.
  destruct (Z.ltb_spec num 0); [lia|]. destruct (Z.eqb_spec num 0); [lia|].
  destruct (Z.eqb_spec num 1); [lia|]. intro E; injection E as <-. apply last_last.
Qed.

(** * pair means *)
Lemma pair_means_length l : length (pair_means l) = (length l - 1)%nat.
Proof.
  induction l as [|x [|y l] IH]; simpl; [reflexivity..|]. simpl in IH. rewrite IH. lia.
Qed.
Lemma nth_pair_means l i :
  (S i < length l)%nat -> nth i (pair_means l) 0 = qhalf * nth i l 0 + qhalf * nth (S i) l 0.
Proof.
  revert i; induction l as [|x [|y l] IH]; intros i Hi; simpl in Hi; [lia..|].
  destruct i; [reflexivity|]. simpl pair_means. simpl nth at 1. rewrite IH by (simpl; lia).
  reflexivity.
Qed.

(** * searchsorted on strictly increasing lists *)
Lemma count_split (p : Q -> bool) l k :
  (k <= length l)%nat ->
  (forall i, (i < k)%nat -> p (nth i l 0) = true) ->
  (forall i, (k <= i < length l)%nat -> p (nth i l 0) = false) ->
  length (filter p l) = k.
Proof.
  revert k; induction l as [|x l IH]; intros k Hk Ht Hf; simpl in *.
  - lia.
  - destruct k as [|k].
    + rewrite (Hf 0%nat ltac:(lia)). apply IH; [lia| intros; lia |].
      intros i Hi. apply (Hf (S i)). lia.
    + rewrite (Ht 0%nat ltac:(lia)). simpl. f_equal. apply IH; [lia| |].
      * intros i Hi. apply (Ht (S i)). lia.
      * intros i Hi. apply (Hf (S i)). lia.
Qed.
Lemma mono_split (p : Q -> bool) l :
  (forall i j, (i < j)%nat -> (j < length l)%nat -> p (nth j l 0) = true -> p (nth i l 0) = true) ->
  exists k, (k <= length l)%nat /\
    (forall i, (i < k)%nat -> p (nth i l 0) = true) /\
    (forall i, (k <= i < length l)%nat -> p (nth i l 0) = false).
Proof.
  induction l as [|x l IH]; intros Hm.
  - exists 0%nat. simpl. repeat split; intros; lia.
  - destruct IH as (k & Hk & Ht & Hf).
    { intros i j Hij Hj. apply (Hm (S i) (S j)); simpl; lia. }
    destruct (p x) eqn:Ex.
    + exists (S k). simpl. split; [lia|]. split.
      * intros [|i] Hi; [exact Ex|]. apply Ht. lia.
      * intros [|i] Hi; [lia|]. apply Hf. lia.
    + exists 0%nat. split; [lia|]. split; [intros; lia|].
      intros [|i] Hi; [exact Ex|]. simpl in *.
      destruct (p (nth i l 0)) eqn:E; [|reflexivity].
      rewrite <- Ex. symmetry. apply (Hm 0%nat (S i)); simpl; [lia|lia|exact E].
Qed.

Lemma searchsorted_left_spec l v :
  sincr l ->
  (searchsorted_left l v <= length l)%nat /\
  (forall i, (i < length l)%nat -> (nth i l 0 < v <-> (i < searchsorted_left l v)%nat)).
Proof.
  intros Hs.
  destruct (mono_split (fun g => g <?q v) l) as (k & Hk & Ht & Hf).
  { intros i j Hij Hj H. apply Qltb_lt in H. apply Qltb_lt.
    specialize (Hs i j Hij Hj). lra. }
  assert (E : searchsorted_left l v = k) by (apply count_split; assumption).
  rewrite E. split; [exact Hk|]. intros i Hi. split.
  - intro H. destruct (le_lt_dec k i) as [Hki|]; [|assumption].
    specialize (Hf i ltac:(lia)). simpl in Hf. apply Qltb_nlt in Hf. lra.
  - intro H. specialize (Ht i H). simpl in Ht. now apply Qltb_lt.
Qed.
Lemma searchsorted_right_spec l v :
  sincr l ->
  (searchsorted_right l v <= length l)%nat /\
  (forall i, (i < length l)%nat -> (nth i l 0 <= v <-> (i < searchsorted_right l v)%nat)).
Proof.
  intros Hs.
  destruct (mono_split (fun g => g <=?q v) l) as (k & Hk & Ht & Hf).
  { intros i j Hij Hj H. apply Qle_bool_iff in H. apply Qle_bool_iff.
    specialize (Hs i j Hij Hj). lra. }
  assert (E : searchsorted_right l v = k) by (apply count_split; assumption).
  rewrite E. split; [exact Hk|]. intros i Hi. split.
  - intro H. destruct (le_lt_dec k i) as [Hki|]; [|assumption].
    specialize (Hf i ltac:(lia)). simpl in Hf. apply Qleb_nle in Hf. lra.
  - intro H. specialize (Ht i H). simpl in Ht. now apply Qle_bool_iff.
Qed.

Lemma sincr_sortedb l : sincr l -> sortedb l = true.
Proof.
  induction l as [|x [|y l] IH]; intros H; [reflexivity..|].
  simpl. apply andb_true_iff. split.
  - apply Qle_bool_iff. apply Qlt_le_weak. apply (H 0%nat 1%nat); simpl; lia.
  - apply IH. eapply sincr_tl; exact H.
Qed.

(** * isclose *)
Lemma isclose_refl a b : a == b -> isclose a b = true.
Proof.
  intro H. unfold isclose. apply Qle_bool_iff.
  setoid_replace (a - b) with 0 by lra.
  rewrite qabs_pos by lra. pose proof (qabs_nonneg b). lra.
Qed.
