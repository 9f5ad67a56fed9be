(** monotonicity (C50) and moveaxis (C64). *)
From Coq Require Import Lia Lqa Permutation Qround Sorted.
From Verif Require Import PyBase PyBaseFacts NumpyModel NumpyFacts QSum AxisModel AxisSpec AxisFacts NdModel NdFacts FieldModel FieldSpec FieldInvFacts FieldRearrFacts FieldReduceFacts FieldCutFacts HelperModel HelperSpec HelperFacts.

(** ** monotonicity *)
Lemma diffs_pos l : forallb (fun d => 0 <?q d) (np_diff l) = true <-> increasing l.
Proof.
  rewrite forallb_forall. split.
  - intros H i j [Hij Hj]. revert j Hij Hj.
    assert (S1 : forall i, (S i < length l)%nat -> nth i l 0 < nth (S i) l 0).
    { intros k Hk. specialize (H (nth k (np_diff l) 0)). rewrite nth_np_diff in H by exact Hk.
      destruct (Qltb_spec 0 (nth (S k) l 0 - nth k l 0)) as [L|L]; [lra|]. exfalso. discriminate H.
      rewrite <- nth_np_diff by exact Hk. apply nth_In. rewrite np_diff_length. lia. }
    induction j as [|j IH]; intros Hij Hj; [lia|]. specialize (S1 j Hj). destruct (Nat.eq_dec i j) as [->|N]; [exact S1|].
    apply Qlt_trans with (nth j l 0); [apply IH; lia|exact S1].
  - intros H d Hd. apply In_nth with (d := 0) in Hd as (k & Hk & <-). rewrite np_diff_length in Hk. rewrite nth_np_diff by lia.
    specialize (H k (S k) ltac:(lia)). destruct (Qltb_spec 0 (nth (S k) l 0 - nth k l 0)) as [L|L]; [reflexivity|]. exfalso. apply L. lra.
Qed.
Lemma diffs_neg l : forallb (fun d => d <?q 0) (np_diff l) = true <-> decreasing l.
Proof.
  rewrite forallb_forall. split.
  - intros H i j [Hij Hj]. revert j Hij Hj.
    assert (S1 : forall i, (S i < length l)%nat -> nth (S i) l 0 < nth i l 0).
    { intros k Hk. specialize (H (nth k (np_diff l) 0)). rewrite nth_np_diff in H by exact Hk.
      destruct (Qltb_spec (nth (S k) l 0 - nth k l 0) 0) as [L|L]; [lra|]. exfalso. discriminate H.
      rewrite <- nth_np_diff by exact Hk. apply nth_In. rewrite np_diff_length. lia. }
    induction j as [|j IH]; intros Hij Hj; [lia|]. specialize (S1 j Hj). destruct (Nat.eq_dec i j) as [->|N]; [exact S1|].
    apply Qlt_trans with (nth j l 0); [exact S1|apply IH; lia].
  - intros H d Hd. apply In_nth with (d := 0) in Hd as (k & Hk & <-). rewrite np_diff_length in Hk. rewrite nth_np_diff by lia.
    specialize (H k (S k) ltac:(lia)). destruct (Qltb_spec (nth (S k) l 0 - nth k l 0) 0) as [L|L]; [reflexivity|]. exfalso. apply L. lra.
Qed.
Lemma monotonicity_spec l :
  (monotonicity l = 1%Z <-> increasing l) /\
  ((2 <= length l)%nat -> (monotonicity l = (-1)%Z <-> decreasing l)) /\
  (monotonicity l = 0%Z <-> ~ increasing l /\ ~ decreasing l).
Proof.
  unfold monotonicity. pose proof (diffs_pos l) as P. pose proof (diffs_neg l) as N.
  destruct (forallb (fun d => 0 <?q d) (np_diff l)); destruct (forallb (fun d => d <?q 0) (np_diff l)).
  - assert (I : increasing l) by (now apply P). assert (D : decreasing l) by (now apply N). split; [intuition|]. split; [|intuition; discriminate].
    intro H2. specialize (I 0%nat 1%nat ltac:(lia)). specialize (D 0%nat 1%nat ltac:(lia)). lra.
  - assert (I : increasing l) by (now apply P). split; [intuition|]. split; [|intuition; discriminate].
    intros _. split; [discriminate|]. intro D. apply N in D. discriminate.
  - assert (D : decreasing l) by (now apply N). split; [split; [discriminate|]; intro I; apply P in I; discriminate|]. split; [intuition|]. intuition; discriminate.
  - split; [split; [discriminate|]; intro I; apply P in I; discriminate|]. split; [intros _; split; [discriminate|]; intro D; apply N in D; discriminate|].
    split; [|reflexivity]. intros _. split; intro X; [apply P in X|apply N in X]; discriminate.
Qed.

(** ** moveaxis *)
Lemma insert_pair_perm x l : Permutation (insert_pair x l) (x :: l).
Proof.
  induction l as [|y l IH]; [reflexivity|]. cbn [insert_pair]. destruct (pair_leb x y); [reflexivity|]. rewrite IH. apply perm_swap.
Qed.
Lemma sort_pairs_perm l : Permutation (sort_pairs l) l.
Proof. induction l as [|x l IH]; [reflexivity|]. cbn [sort_pairs fold_right]. rewrite insert_pair_perm. now constructor. Qed.
Lemma pair_leb_fst x y : pair_leb x y = true -> (fst x <= fst y)%Z.
Proof. unfold pair_leb. rewrite orb_true_iff, andb_true_iff, Z.ltb_lt, Z.eqb_eq. lia. Qed.
Lemma pair_leb_false x y : pair_leb x y = false -> (fst y <= fst x)%Z.
Proof. unfold pair_leb. rewrite orb_false_iff, Z.ltb_ge. lia. Qed.
Lemma insert_pair_sorted x l : StronglySorted (fun p q => (fst p <= fst q)%Z) l -> StronglySorted (fun p q => (fst p <= fst q)%Z) (insert_pair x l).
Proof.
  induction 1 as [|y l S IH H]; cbn [insert_pair]; [repeat constructor|]. destruct (pair_leb x y) eqn:E.
  - apply pair_leb_fst in E. constructor; [now constructor|]. constructor; [exact E|]. eapply Forall_impl; [|exact H]. intros; cbn in *; lia.
  - apply pair_leb_false in E. constructor; [exact IH|]. apply Forall_forall. intros z Hz. apply (Permutation_in _ (insert_pair_perm x l)) in Hz as [<-|Hz]; [exact E|].
    rewrite Forall_forall in H. now apply H.
Qed.
Lemma sort_pairs_sorted l : StronglySorted (fun p q => (fst p <= fst q)%Z) (sort_pairs l).
Proof. induction l as [|x l IH]; [constructor|]. cbn [sort_pairs fold_right]. now apply insert_pair_sorted. Qed.

Definition put (order : list Z) (ps : list (Z * Z)) : list Z :=
  fold_left (fun order p => insert_at (Z.to_nat (fst p)) (snd p) order) ps order.
Lemma insert_at_length {A} i (x : A) l : (i <= length l)%nat -> length (insert_at i x l) = S (length l).
Proof. intro H. unfold insert_at. rewrite app_length. cbn [length]. rewrite firstn_length, skipn_length. lia. Qed.
Lemma insert_at_nth {A} (d : A) i x l : (i <= length l)%nat -> nth i (insert_at i x l) d = x.
Proof. intro H. unfold insert_at. rewrite app_nth2; rewrite firstn_length_le by exact H; [|lia]. now rewrite Nat.sub_diag. Qed.
Lemma insert_at_before {A} (d : A) i x l k : (k < i)%nat -> (i <= length l)%nat -> nth k (insert_at i x l) d = nth k l d.
Proof. intros Hk H. unfold insert_at. rewrite app_nth1 by (rewrite firstn_length_le; lia). apply nth_firstn. exact Hk. Qed.
Lemma insert_at_perm {A} i (x : A) l : Permutation (insert_at i x l) (x :: l).
Proof. unfold insert_at. rewrite <- Permutation_middle. now rewrite firstn_skipn. Qed.
Lemma insert_at_filter {A} (f : A -> bool) i x l : f x = false -> filter f (insert_at i x l) = filter f l.
Proof. intro H. unfold insert_at. rewrite filter_app. cbn [filter]. rewrite H, <- filter_app. now rewrite firstn_skipn. Qed.
(** ascending distinct destinations below n, n the final length *)
Lemma put_spec n ps : forall order, StronglySorted (fun p q => (fst p < fst q)%Z) ps -> Forall (fun p => (0 <= fst p < Z.of_nat n)%Z) ps ->
  (length order + length ps = n)%nat ->
  length (put order ps) = n /\ Permutation (put order ps) (map snd ps ++ order) /\
  (forall p, In p ps -> nth (Z.to_nat (fst p)) (put order ps) 0%Z = snd p) /\
  (forall k, Forall (fun p => (Z.of_nat k < fst p)%Z) ps -> nth k (put order ps) 0%Z = nth k order 0%Z) /\
  (forall f, Forall (fun p => f (snd p) = false) ps -> filter f (put order ps) = filter f order).
Proof.
  induction ps as [|p ps IH]; intros order S B L.
  - cbn [length] in L. cbn [put fold_left map app]. split; [lia|]. split; [reflexivity|]. split; [intros p []|]. split; reflexivity.
  - cbn [length] in L. inversion S as [|? ? S' H]; subst. inversion B as [|? ? Bp B']; subst.
    assert (D : (Z.to_nat (fst p) <= length order)%nat).
    { (* the remaining destinations are distinct and below n *)
      assert (G : forall (qs : list (Z * Z)) a m, StronglySorted (fun p q => (fst p < fst q)%Z) qs -> Forall (fun q => (a < fst q < m)%Z) qs -> (a < m)%Z -> (Z.of_nat (length qs) + a < m)%Z).
      { clear. induction qs as [|q qs IH]; intros a m S B Ham; [cbn; lia|]. inversion S as [|? ? S' H]; subst. inversion B as [|? ? Bq B']; subst.
        cbn [length]. specialize (IH (fst q) m S'). assert ((Z.of_nat (length qs) + fst q < m)%Z); [|lia]. apply IH; [|lia].
        rewrite Forall_forall in *. intros x Hx. specialize (H x Hx). specialize (B' x Hx). lia. }
      specialize (G ps (fst p) (Z.of_nat (length order + Datatypes.S (length ps))) S').
      assert ((Z.of_nat (length ps) + fst p < Z.of_nat (length order + Datatypes.S (length ps)))%Z); [|lia]. apply G; [|lia].
      rewrite Forall_forall in *. intros x Hx. specialize (H x Hx). specialize (B' x Hx). lia. }
    cbn [put fold_left]. fold (put (insert_at (Z.to_nat (fst p)) (snd p) order) ps).
    destruct (IH (insert_at (Z.to_nat (fst p)) (snd p) order) S' B') as (L1 & P1 & N1 & K1 & F1); [rewrite insert_at_length by exact D; lia|].
    split; [exact L1|]. split; [|split; [|split]].
    + rewrite P1, insert_at_perm. cbn [map app]. symmetry. apply Permutation_middle.
    + intros q [<-|Hq]; [|now apply N1]. rewrite K1.
      * now apply insert_at_nth.
      * rewrite Forall_forall in *. intros x Hx. specialize (H x Hx). lia.
    + intros k Hk. inversion Hk as [|? ? Hp Hk']; subst. rewrite K1 by exact Hk'. apply insert_at_before; [lia|exact D].
    + intros f Hf. inversion Hf as [|? ? Hp Hf']; subst. rewrite F1 by exact Hf'. now apply insert_at_filter.
Qed.
Lemma mem_Z_In x l : mem_Z x l = true <-> In x l.
Proof. induction l as [|y l IH]; cbn [mem_Z In]; [split; [discriminate|tauto]|]. rewrite orb_true_iff, Z.eqb_eq, IH. split; intros [H|H]; auto. Qed.

Lemma combine_parts (d s : list Z) : length s = length d -> map fst (combine d s) = d /\ map snd (combine d s) = s.
Proof.
  revert s. induction d as [|x d IH]; intros [|y s] L; try discriminate; [now split|]. cbn [combine map fst snd].
  destruct (IH s) as [-> ->]; [now injection L|]. now split.
Qed.
Lemma moveaxis_order_spec n src dst : (0 < n)%nat -> length src = length dst ->
  let s := map (fun s => (s mod Z.of_nat n)%Z) src in let d := map (fun d => (d mod Z.of_nat n)%Z) dst in
  NoDup s -> NoDup d ->
  let order := moveaxis_order n src dst in
  Permutation order (zlist n) /\
  (forall i, (i < length src)%nat -> nth (Z.to_nat (nth i d 0%Z)) order 0%Z = nth i s 0%Z) /\
  filter (fun k => negb (mem_Z k s)) order = filter (fun k => negb (mem_Z k s)) (zlist n).
Proof.
  intros Hn L s d Ns Nd order.
  assert (Ls : length s = length d) by (unfold s, d; rewrite !map_length; exact L).
  set (ps := sort_pairs (combine d s)).
  assert (Pp : Permutation ps (combine d s)) by apply sort_pairs_perm.
  destruct (combine_parts d s Ls) as [Fst Snd].
  assert (Sp : StronglySorted (fun p q => (fst p < fst q)%Z) ps).
  { assert (N : NoDup (map fst ps)) by (eapply Permutation_NoDup; [symmetry; apply Permutation_map; exact Pp|]; now rewrite Fst).
    pose proof (sort_pairs_sorted (combine d s)) as S. fold ps in S. clearbody ps. clear - N S. induction S as [|p ps S IH H]; [constructor|].
    cbn [map] in N. inversion N as [|? ? Hn N']; subst. constructor; [now apply IH|]. rewrite Forall_forall in *. intros q Hq. specialize (H q Hq).
    assert (fst p <> fst q); [|lia]. intro E. apply Hn. rewrite E. now apply in_map. }
  assert (Bp : Forall (fun p => (0 <= fst p < Z.of_nat n)%Z) ps).
  { apply Forall_forall. intros p Hp. apply (Permutation_in _ Pp) in Hp. apply (in_map fst) in Hp. rewrite Fst in Hp. unfold d in Hp.
    apply in_map_iff in Hp as (x & <- & _). apply Z.mod_pos_bound. lia. }
  assert (Bs : forall x, In x s -> In x (zlist n)).
  { intros x Hx. unfold s in Hx. apply in_map_iff in Hx as (y & <- & _). pose proof (Z.mod_pos_bound y (Z.of_nat n) ltac:(lia)).
    unfold zlist. apply in_map_iff. exists (Z.to_nat (y mod Z.of_nat n)). split; [lia|]. apply in_seq. lia. }
  assert (Nz : NoDup (zlist n)) by (apply FinFun.Injective_map_NoDup; [exact Nat2Z.inj|apply seq_NoDup]).
  set (rest := filter (fun k => negb (mem_Z k s)) (zlist n)).
  assert (Pz : Permutation (s ++ rest) (zlist n)).
  { apply NoDup_Permutation; [|exact Nz|].
    - apply NoDup_app_intro; [exact Ns|unfold rest; now apply NoDup_filter|]. intros x Hx Hr. unfold rest in Hr. apply filter_In in Hr as [_ Hr].
      apply negb_true_iff in Hr. apply mem_Z_In in Hx. congruence.
    - intro x. rewrite in_app_iff. unfold rest. rewrite filter_In, negb_true_iff. split.
      + intros [Hx|[Hx _]]; [now apply Bs|exact Hx].
      + intro Hx. destruct (mem_Z x s) eqn:E; [left; now apply mem_Z_In|now right]. }
  assert (Lp : length ps = length s) by (rewrite (Permutation_length Pp), combine_length; lia).
  assert (Lr : (length rest + length ps = n)%nat).
  { apply Permutation_length in Pz. rewrite app_length in Pz. unfold zlist in Pz. rewrite map_length, seq_length in Pz. lia. }
  destruct (put_spec n ps rest Sp Bp Lr) as (L1 & P1 & N1 & _ & F1).
  change order with (put rest ps). split; [|split].
  - rewrite P1. rewrite <- Pz. apply Permutation_app_tail. rewrite (Permutation_map snd Pp), Snd. reflexivity.
  - intros i Hi. assert (Hi' : (i < length (combine d s))%nat) by (rewrite combine_length; unfold s, d; rewrite !map_length; lia).
    specialize (N1 (nth i (combine d s) (0, 0)%Z)). rewrite combine_nth in N1 by congruence. cbn [fst snd] in N1. apply N1.
    eapply Permutation_in; [symmetry; exact Pp|]. rewrite <- combine_nth by congruence. now apply nth_In.
  - rewrite F1.
    + unfold rest. rewrite filter_every; [reflexivity|]. intros x Hx. now apply filter_In in Hx as [_ Hx].
    + apply Forall_forall. intros p Hp. apply (Permutation_in _ Pp) in Hp. apply (in_map snd) in Hp. rewrite Snd in Hp. apply negb_false_iff. now apply mem_Z_In.
Qed.
Lemma np_moveaxis_spec {V} (a : nda V) src dst : let n := length (a_shape a) in (0 < n)%nat -> length src = length dst ->
  let s := map (fun s => (s mod Z.of_nat n)%Z) src in let d := map (fun d => (d mod Z.of_nat n)%Z) dst in
  NoDup s -> NoDup d ->
  exists p b, np_moveaxis a src dst = Ok b /\ Permutation p (seq 0 n) /\
    (forall i, (i < length src)%nat -> nth (Z.to_nat (nth i d 0%Z)) p 0%nat = Z.to_nat (nth i s 0%Z)) /\
    (forall i j, (i < j < n)%nat -> ~ In (Z.of_nat (nth i p 0%nat)) s -> ~ In (Z.of_nat (nth j p 0%nat)) s -> (nth i p 0%nat < nth j p 0%nat)%nat) /\
    a_shape b = map (fun k => nth k (a_shape a) 0%Z) p /\
    forall idx, length idx = n -> a_at b (map (fun k => nth k idx 0%Z) p) = a_at a idx.
Proof.
  intros n Hn L s d Ns Nd. destruct (moveaxis_order_spec n src dst Hn L Ns Nd) as (P & N & F). fold s d in N, F.
  set (order := moveaxis_order n src dst) in *. set (p := map Z.to_nat order).
  assert (Eo : map Z.of_nat p = order).
  { unfold p. rewrite map_map. rewrite <- (map_id order) at 2. apply map_ext_in. intros x Hx. apply (Permutation_in _ P) in Hx.
    unfold zlist in Hx. apply in_map_iff in Hx as (k & <- & _). lia. }
  assert (Pp : Permutation p (seq 0 n)).
  { unfold p. rewrite P. unfold zlist. rewrite map_map. rewrite (map_ext _ (fun x => x)) by (intro; lia). now rewrite map_id. }
  assert (Po : perm_of n p).
  { split; [rewrite (Permutation_length Pp); apply seq_length|]. split; [eapply Permutation_NoDup; [symmetry; exact Pp|apply seq_NoDup]|].
    intros k Hk. apply (Permutation_in _ Pp) in Hk. apply in_seq in Hk. lia. }
  assert (Em : np_moveaxis a src dst = np_transpose a order).
  { unfold np_moveaxis. fold n. destruct n as [|n'] eqn:En; [lia|]. fold order. unfold order. rewrite <- En. reflexivity. }
  assert (X : forall k, nth k order 0%Z = Z.of_nat (nth k p 0%nat)) by (intro k; rewrite <- Eo; change 0%Z with (Z.of_nat 0); apply map_nth).
  exists p, (nd_transpose p a). split; [|split; [exact Pp|split; [|split; [|split]]]].
  - rewrite Em. apply np_transpose_ok. exists p. split; [|split; [exact Po|reflexivity]]. rewrite <- Eo. apply mapM_py_pos_nat.
    intros k Hk. apply (Permutation_in _ Pp) in Hk. apply in_seq in Hk. fold n. lia.
  - intros i Hi. rewrite <- (N i Hi), X. lia.
  - intros i j [Hij Hj] Hi' Hj'.
    assert (Lp : length p = n) by apply Po.
    assert (G : forall (l : list Z) (f : Z -> bool) i j, StronglySorted Z.lt (filter f l) -> (i < j < length l)%nat -> f (nth i l 0%Z) = true -> f (nth j l 0%Z) = true -> (nth i l 0 < nth j l 0)%Z).
    { clear. induction l as [|x l IH]; intros f i j S [Hij Hj] Fi Fj; [cbn in Hj; lia|]. destruct j as [|j]; [lia|]. cbn [length] in Hj. destruct i as [|i].
      - cbn [nth] in *. cbn [filter] in S. rewrite Fi in S. inversion S as [|? ? _ H]; subst. rewrite Forall_forall in H. apply H. apply filter_In. split; [apply nth_In; lia|exact Fj].
      - cbn [nth] in *. apply (IH f); [|lia|exact Fi|exact Fj]. cbn [filter] in S. destruct (f x); [now inversion S|exact S]. }
    specialize (G order (fun k => negb (mem_Z k s)) i j). rewrite <- Eo in G. rewrite !map_length in G. rewrite Eo in G.
    rewrite !X in G. assert (Z.of_nat (nth i p 0%nat) < Z.of_nat (nth j p 0%nat))%Z; [|lia]. apply G; [|lia| |].
    + rewrite F. assert (S : forall m k f, StronglySorted Z.lt (filter f (map Z.of_nat (seq m k)))).
      { clear. intros m k f. revert m. induction k as [|k IH]; intro m; cbn [seq map filter]; [constructor|]. destruct (f (Z.of_nat m)); [|apply IH].
        constructor; [apply IH|]. apply Forall_forall. intros x Hx. apply filter_In in Hx as [Hx _]. apply in_map_iff in Hx as (y & <- & Hy). apply in_seq in Hy. lia. }
      apply S.
    + apply negb_true_iff. apply not_true_iff_false. intro M. apply Hi'. now apply mem_Z_In.
    + apply negb_true_iff. apply not_true_iff_false. intro M. apply Hj'. now apply mem_Z_In.
  - reflexivity.
  - intros idx Li. cbn [nd_transpose a_at]. f_equal. apply unpermute_permute. now rewrite Li.
Qed.
Lemma monotonicity_one x : decreasing [x] /\ monotonicity [x] = 1%Z.
Proof. split; [|reflexivity]. intros i j H. cbn in H. lia. Qed.
