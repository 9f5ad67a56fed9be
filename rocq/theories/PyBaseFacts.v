(** Lemmas about the primitives of PyBase. *)
From Coq Require Import Lia Lqa ZifyBool ZifyNat Qabs.
From Verif Require Import PyBase.
Ltac Zify.zify_post_hook ::= Z.div_mod_to_equations.

(** * Rationals *)
Lemma Qltb_lt a b : (a <?q b) = true <-> a < b.
Proof.
  unfold Qltb. rewrite negb_true_iff. split.
  - intro H. apply Qnot_le_lt. intro Hle. apply Qle_bool_iff in Hle. congruence.
  - intro H. destruct (Qle_bool b a) eqn:E; [|reflexivity].
    apply Qle_bool_iff in E. exfalso. apply (Qlt_not_le _ _ H E).
Qed.
Lemma Qltb_nlt a b : (a <?q b) = false <-> b <= a.
Proof.
  unfold Qltb. rewrite negb_false_iff. apply Qle_bool_iff.
Qed.
Lemma Qleb_nle a b : (a <=?q b) = false <-> b < a.
Proof.
  rewrite <- Qltb_lt. unfold Qltb. now rewrite negb_true_iff.
Qed.
Lemma Qltb_spec a b : reflect (a < b) (a <?q b).
Proof. apply iff_reflect. symmetry. apply Qltb_lt. Qed.
Lemma Qleb_spec a b : reflect (a <= b) (a <=?q b).
Proof. apply iff_reflect. symmetry. apply Qle_bool_iff. Qed.
Lemma Qeqb_spec a b : reflect (a == b) (a ==?q b).
Proof. apply iff_reflect. symmetry. apply Qeq_bool_iff. Qed.

Global Instance Qltb_comp : Proper (Qeq ==> Qeq ==> eq) Qltb.
Proof.
  intros a a' Ha b b' Hb. destruct (Qltb_spec a b) as [H|H], (Qltb_spec a' b') as [H'|H'];
    try reflexivity; exfalso; rewrite Ha, Hb in H; auto.
Qed.

Lemma qabs_Qabs a : qabs a == Qabs.Qabs a.
Proof.
  unfold qabs. destruct (Qleb_spec 0 a) as [H|H].
  - now rewrite Qabs.Qabs_pos.
  - rewrite Qabs.Qabs_neg; [reflexivity|]. lra.
Qed.
Global Instance qabs_comp : Proper (Qeq ==> Qeq) qabs.
Proof. intros a b H. rewrite !qabs_Qabs. now rewrite H. Qed.
Lemma qabs_nonneg a : 0 <= qabs a.
Proof. unfold qabs. destruct (Qleb_spec 0 a); lra. Qed.
Lemma qabs_pos a : 0 <= a -> qabs a = a.
Proof. unfold qabs. destruct (Qleb_spec 0 a); [reflexivity|contradiction]. Qed.
Lemma qabs_neg a : a < 0 -> qabs a = - a.
Proof. unfold qabs. destruct (Qleb_spec 0 a); [lra|reflexivity]. Qed.

(** * Results *)
Lemma bind_ok {A B} (r : res A) (f : A -> res B) b :
  bind r f = Ok b -> exists a, r = Ok a /\ f a = Ok b.
Proof. destruct r; simpl; [eauto|discriminate]. Qed.
Lemma guard_ok b e u : guard b e = Ok u -> b = true.
Proof. destruct b; [reflexivity|discriminate]. Qed.

(** * Ranges and slices *)
Lemma take_idx_app {A} (l : list A) i j : take_idx l (i ++ j) = take_idx l i ++ take_idx l j.
Proof.
  induction i as [|x i IH]; simpl; [reflexivity|].
  destruct (nth_error l (Z.to_nat x)); simpl; now rewrite IH.
Qed.

Lemma length_take_idx {A} (l : list A) idx :
  Forall (fun i => (0 <= i < Z.of_nat (length l))%Z) idx -> length (take_idx l idx) = length idx.
Proof.
  induction 1 as [|i idx Hi _ IH]; simpl; [reflexivity|].
  destruct (nth_error l (Z.to_nat i)) eqn:E; simpl; [now rewrite IH|].
  apply nth_error_None in E. lia.
Qed.

Lemma nth_error_take_idx {A} (l : list A) idx k :
  Forall (fun i => (0 <= i < Z.of_nat (length l))%Z) idx ->
  nth_error (take_idx l idx) k =
  match nth_error idx k with Some i => nth_error l (Z.to_nat i) | None => None end.
Proof.
  intros H. revert k. induction H as [|i idx Hi _ IH]; intros k; simpl.
  - now destruct k.
  - destruct (nth_error l (Z.to_nat i)) eqn:E.
    + destruct k; simpl; [now rewrite E|apply IH].
    + apply nth_error_None in E. lia.
Qed.

Lemma take_idx_map {A B} (f : A -> B) l idx :
  take_idx (map f l) idx = map f (take_idx l idx).
Proof.
  induction idx as [|i idx IH]; simpl; [reflexivity|].
  rewrite nth_error_map. destruct (nth_error l (Z.to_nat i)); simpl; now rewrite IH.
Qed.

Lemma nth_error_skipn {A} (l : list A) a k : nth_error (skipn a l) k = nth_error l (a + k).
Proof.
  revert l; induction a as [|a IH]; intros l; simpl; [reflexivity|].
  destruct l; simpl; [now destruct k|apply IH].
Qed.
Lemma nth_error_firstn {A} (l : list A) n k :
  nth_error (firstn n l) k = if (k <? n)%nat then nth_error l k else None.
Proof.
  revert l k; induction n as [|n IH]; intros l k; simpl.
  - now destruct k.
  - destruct l; simpl; [destruct k; simpl; [reflexivity|]; now destruct (S k <? S n)%nat|].
    destruct k; simpl; [reflexivity|]. rewrite IH. reflexivity.
Qed.
Lemma nth_error_ext {A} (l l' : list A) :
  (forall k, nth_error l k = nth_error l' k) -> l = l'.
Proof.
  revert l'; induction l as [|x l IH]; intros [|y l'] H.
  - reflexivity.
  - specialize (H 0%nat); discriminate.
  - specialize (H 0%nat); discriminate.
  - pose proof (H 0%nat) as H0; simpl in H0. injection H0 as ->.
    f_equal. apply IH. intro k. apply (H (S k)).
Qed.

Lemma nth_error_seq_lt a n k : (k < n)%nat -> nth_error (seq a n) k = Some (a + k)%nat.
Proof.
  revert a k; induction n as [|n IH]; intros a k H; [lia|].
  destruct k; simpl; [f_equal; lia|]. rewrite IH by lia. f_equal; lia.
Qed.
Lemma nth_error_py_range a b s k :
  nth_error (py_range a b s) k =
  if (k <? range_len a b s)%nat then Some (a + Z.of_nat k * s)%Z else None.
Proof.
  unfold py_range. rewrite nth_error_map.
  destruct (Nat.ltb_spec k (range_len a b s)).
  - now rewrite nth_error_seq_lt.
  - rewrite (proj2 (nth_error_None _ _)); [reflexivity|]. rewrite seq_length. lia.
Qed.
Lemma length_py_range a b s : length (py_range a b s) = range_len a b s.
Proof. unfold py_range. now rewrite map_length, seq_length. Qed.

Lemma range_len_step1 a b : range_len a b 1 = Z.to_nat (b - a).
Proof.
  unfold range_len. change (1 <? 0)%Z with false. cbv iota.
  destruct (Z.ltb_spec a b); rewrite ?Z.div_1_r; lia.
Qed.
Lemma range_len_stepm1 a b : range_len a b (-1) = Z.to_nat (a - b).
Proof.
  unfold range_len. change (-1 <? 0)%Z with true. cbv iota.
  change (- -1)%Z with 1%Z. rewrite Z.div_1_r. destruct (Z.ltb_spec b a); lia.
Qed.

Lemma py_range_bounds_pos a b s len :
  (0 < s)%Z -> (0 <= a)%Z -> (b <= len)%Z ->
  Forall (fun i => (0 <= i < len)%Z) (py_range a b s).
Proof.
  intros Hs Ha Hb. apply Forall_forall. intros i Hi.
  unfold py_range in Hi. apply in_map_iff in Hi as (k & <- & Hk).
  apply in_seq in Hk. unfold range_len in Hk.
  destruct (Z.ltb_spec s 0); [lia|]. destruct (Z.ltb_spec a b); [|lia]. nia.
Qed.
Lemma py_range_bounds_neg a b s len :
  (s < 0)%Z -> (a < len)%Z -> (-1 <= b)%Z ->
  Forall (fun i => (0 <= i < len)%Z) (py_range a b s).
Proof.
  intros Hs Ha Hb. apply Forall_forall. intros i Hi.
  unfold py_range in Hi. apply in_map_iff in Hi as (k & <- & Hk).
  apply in_seq in Hk. unfold range_len in Hk.
  destruct (Z.ltb_spec s 0); [|lia]. destruct (Z.ltb_spec b a); [|lia].
  assert (Z.of_nat k <= (a - b - 1) / (- s))%Z by lia.
  assert ((- s) * ((a - b - 1) / (- s)) <= a - b - 1)%Z by (apply Z.mul_div_le; lia).
  nia.
Qed.

Lemma adjust_bound_pos len s v : (0 <= len)%Z -> (0 < s)%Z -> (0 <= adjust_bound len s v <= len)%Z.
Proof.
  intros Hl Hs. unfold adjust_bound.
  destruct (Z.ltb_spec s 0); [lia|].
  destruct (Z.ltb_spec v 0), (Z.leb_spec len v); try destruct (Z.ltb_spec (v + len) 0); lia.
Qed.
Lemma adjust_bound_neg len s v : (0 <= len)%Z -> (s < 0)%Z -> (-1 <= adjust_bound len s v < len)%Z.
Proof.
  intros Hl Hs. unfold adjust_bound.
  destruct (Z.ltb_spec s 0); [|lia].
  destruct (Z.ltb_spec v 0), (Z.leb_spec len v); try destruct (Z.ltb_spec (v + len) 0); lia.
Qed.

(** All indices produced by a slice are valid positions. *)
Lemma slice_indices_valid sl len a b s :
  (0 <= len)%Z -> slice_indices sl len = Ok (a, b, s) ->
  Forall (fun i => (0 <= i < len)%Z) (py_range a b s).
Proof.
  intros Hlen. unfold slice_indices.
  set (st := match s_step sl with None => 1%Z | Some x => x end).
  destruct (Z.eqb_spec st 0) as [|Hst]; [discriminate|]. intros H.
  injection H as Ha Hb Hs. subst s.
  destruct (Z.ltb_spec st 0) as [Hneg|Hpos].
  - apply py_range_bounds_neg; [lia| |].
    + subst a. destruct (s_start sl) as [v|]; [apply adjust_bound_neg; lia|]. lia.
    + subst b. destruct (s_stop sl) as [v|]; [apply adjust_bound_neg; lia|]. lia.
  - apply py_range_bounds_pos; [lia| |].
    + subst a. destruct (s_start sl) as [v|]; [apply adjust_bound_pos; lia|]. lia.
    + subst b. destruct (s_stop sl) as [v|]; [apply adjust_bound_pos; lia|]. lia.
Qed.

Lemma getslice_length {A} (l : list A) sl r a b s :
  slice_indices sl (Z.of_nat (length l)) = Ok (a, b, s) ->
  getslice l sl = Ok r -> length r = range_len a b s.
Proof.
  intros Hi. unfold getslice. rewrite Hi. simpl. intro H. injection H as <-.
  rewrite length_take_idx; [apply length_py_range|].
  eapply slice_indices_valid; [lia|exact Hi].
Qed.

(** The k-th element of a slice. *)
Lemma getslice_nth {A} (l : list A) sl r a b s k :
  slice_indices sl (Z.of_nat (length l)) = Ok (a, b, s) ->
  getslice l sl = Ok r ->
  nth_error r k = if (k <? range_len a b s)%nat
                  then nth_error l (Z.to_nat (a + Z.of_nat k * s)) else None.
Proof.
  intros Hi. unfold getslice. rewrite Hi. simpl. intro H. injection H as <-.
  rewrite nth_error_take_idx by (eapply slice_indices_valid; [lia|exact Hi]).
  rewrite nth_error_py_range. now destruct (k <? range_len a b s)%nat.
Qed.

Lemma slice_indices_same_len {A B} (l : list A) (l' : list B) sl :
  length l = length l' ->
  slice_indices sl (Z.of_nat (length l)) = slice_indices sl (Z.of_nat (length l')).
Proof. now intros ->. Qed.

Lemma take_idx_range1 {A} (l : list A) a b :
  (0 <= a)%Z -> (b <= Z.of_nat (length l))%Z ->
  take_idx l (py_range a b 1) = firstn (Z.to_nat (b - a)) (skipn (Z.to_nat a) l).
Proof.
  intros Ha Hb. apply nth_error_ext. intro k.
  rewrite nth_error_take_idx by (apply py_range_bounds_pos; lia).
  rewrite nth_error_py_range, nth_error_firstn, nth_error_skipn, range_len_step1.
  destruct (Nat.ltb_spec k (Z.to_nat (b - a))); [|reflexivity].
  f_equal. lia.
Qed.

(** Step 1 slices with in-range bounds are contiguous sublists. *)
Lemma getslice_simple {A} (l : list A) i j :
  (0 <= i)%Z -> (0 <= j <= Z.of_nat (length l))%Z ->
  getslice l (mkslice (Some i) (Some j) None) =
  Ok (firstn (Z.to_nat (j - i)) (skipn (Z.to_nat i) l)).
Proof.
  intros Hi Hj. unfold getslice, slice_indices. simpl.
  rewrite take_idx_range1.
  - f_equal. unfold adjust_bound. change (1 <? 0)%Z with false. cbv iota.
    destruct (Z.ltb_spec i 0); [lia|]. destruct (Z.ltb_spec j 0); [lia|].
    destruct (Z.leb_spec (Z.of_nat (length l)) i), (Z.leb_spec (Z.of_nat (length l)) j);
      try reflexivity.
    + replace (Z.to_nat (Z.of_nat (length l) - Z.of_nat (length l))) with 0%nat by lia.
      simpl. rewrite skipn_all2 by lia. now rewrite firstn_nil.
    + replace (Z.to_nat (j - Z.of_nat (length l))) with 0%nat by lia. simpl.
      rewrite skipn_all2 by lia. now rewrite firstn_nil.
    + replace j with (Z.of_nat (length l)) by lia. reflexivity.
  - pose proof (adjust_bound_pos (Z.of_nat (length l)) 1 i). lia.
  - pose proof (adjust_bound_pos (Z.of_nat (length l)) 1 j). lia.
Qed.

Lemma firstn_skipn_all {A} (l : list A) : firstn (length l) (skipn 0 l) = l.
Proof. simpl. apply firstn_all. Qed.

Lemma getslice_all {A} (l : list A) : getslice l (mkslice None None None) = Ok l.
Proof.
  unfold getslice, slice_indices. simpl. rewrite take_idx_range1 by lia.
  rewrite Z.sub_0_r, Nat2Z.id. simpl. now rewrite firstn_all.
Qed.

(** [l[::-1]] is reversal. *)
Lemma getslice_rev {A} (l : list A) : getslice l (mkslice None None (Some (-1)%Z)) = Ok (rev l).
Proof.
  unfold getslice, slice_indices. simpl. f_equal. apply nth_error_ext. intro k.
  rewrite nth_error_take_idx by (apply py_range_bounds_neg; lia).
  rewrite nth_error_py_range, range_len_stepm1.
  destruct (Nat.ltb_spec k (Z.to_nat (Z.of_nat (length l) - 1 - -1))).
  - assert (Hk : (k < length l)%nat) by lia.
    destruct (nth_error (rev l) k) eqn:E.
    + apply nth_error_nth with (d := a) in E. rewrite rev_nth in E by exact Hk.
      rewrite <- E. erewrite <- nth_error_nth'.
      * f_equal. lia.
      * lia.
    + apply nth_error_None in E. rewrite rev_length in E. lia.
  - symmetry. apply nth_error_None. rewrite rev_length. lia.
Qed.

Lemma getidx_ok {A} (l : list A) i x :
  getidx l i = Ok x ->
  exists k, (k < length l)%nat /\ nth_error l k = Some x /\
            (i = Z.of_nat k \/ i = Z.of_nat k - Z.of_nat (length l))%Z.
Proof.
  unfold getidx. intros H.
  set (i' := if (i <? 0)%Z then (i + Z.of_nat (length l))%Z else i) in *.
  destruct ((0 <=? i') && (i' <? Z.of_nat (length l)))%Z eqn:E; [|discriminate].
  apply andb_true_iff in E as [E1 E2].
  destruct (nth_error l (Z.to_nat i')) eqn:En; [|discriminate]. injection H as ->.
  exists (Z.to_nat i'). split; [lia|]. split; [exact En|]. unfold i' in *.
  destruct (Z.ltb_spec i 0); lia.
Qed.

(** * Integers as rationals *)
Lemma inject_Z_nz z : z <> 0%Z -> ~ inject_Z z == 0.
Proof. intros H E. unfold Qeq in E. simpl in E. lia. Qed.
Lemma inject_Z_pos z : (0 < z)%Z -> 0 < inject_Z z.
Proof. intros H. unfold Qlt. simpl. lia. Qed.
Lemma inject_Z_le x y : (x <= y)%Z -> inject_Z x <= inject_Z y.
Proof. intros H. rewrite <- Zle_Qle. exact H. Qed.
Lemma inject_Z_lt x y : (x < y)%Z -> inject_Z x < inject_Z y.
Proof. intros H. rewrite <- Zlt_Qlt. exact H. Qed.
Lemma inject_Z_S n : inject_Z (Z.of_nat (S n)) == inject_Z (Z.of_nat n) + 1.
Proof. rewrite Nat2Z.inj_succ, <- Z.add_1_r, inject_Z_plus. reflexivity. Qed.

(** Computing with a successful result without unfolding it. *)
Lemma ok_such {A} (r : res A) (P : A -> bool) :
  match r with Ok a => P a | Err _ => false end = true -> exists a, r = Ok a /\ P a = true.
Proof. destruct r as [a|e]; [intros H; exists a; auto|discriminate]. Qed.
