(** Facts about lists, indices and n-dimensional arrays. *)
From Coq Require Import Lia Permutation.
From Verif Require Import PyBase PyBaseFacts NumpyModel NdModel.

Lemma Forall2_len {A B} (P : A -> B -> Prop) l m : Forall2 P l m -> length l = length m.
Proof. intro H. induction H; simpl; congruence. Qed.

(** * python indices *)
Lemma py_pos_ok n i k : py_pos n i = Ok k <->
  (k < n)%nat /\ (i = Z.of_nat k \/ i = Z.of_nat k - Z.of_nat n)%Z.
Proof.
  unfold py_pos. destruct (Z.ltb_spec i 0) as [H|H].
  - destruct (Z.leb_spec 0 (i + Z.of_nat n)), (Z.ltb_spec (i + Z.of_nat n) (Z.of_nat n)); cbn [andb].
    all: split; [intros [= <-]; lia | intros [H2 H3]; try (f_equal; lia); try lia].
    all: discriminate || lia.
  - destruct (Z.leb_spec 0 i), (Z.ltb_spec i (Z.of_nat n)); cbn [andb].
    all: split; [try (intros [= <-]; lia); try discriminate | intros [H2 H3]; try (f_equal; lia); try lia].
Qed.
Lemma py_pos_nat n k : (k < n)%nat -> py_pos n (Z.of_nat k) = Ok k.
Proof. intro H. apply py_pos_ok. lia. Qed.
Lemma py_pos_range n i : (- Z.of_nat n <= i < Z.of_nat n)%Z -> exists k, py_pos n i = Ok k /\ (k < n)%nat.
Proof.
  intro H. exists (Z.to_nat (if i <? 0 then i + Z.of_nat n else i)%Z).
  assert (E : forall k, (k < n)%nat -> (i = Z.of_nat k \/ i = Z.of_nat k - Z.of_nat n)%Z ->
              py_pos n i = Ok k) by (intros; now apply py_pos_ok).
  destruct (Z.ltb_spec i 0); split; try apply E; lia.
Qed.
Lemma getidx_py_pos {A} (l : list A) i :
  getidx l i = match py_pos (length l) i with
               | Ok k => match nth_error l k with Some x => Ok x | None => Err IndexError end
               | Err e => Err e
               end.
Proof.
  unfold getidx, py_pos.
  destruct ((0 <=? _) && _)%Z; reflexivity.
Qed.
Lemma getidx_some {A} (l : list A) i x : getidx l i = Ok x <->
  exists k, py_pos (length l) i = Ok k /\ nth_error l k = Some x.
Proof.
  rewrite getidx_py_pos. destruct (py_pos (length l) i) as [k|e] eqn:E.
  - split.
    + destruct (nth_error l k) eqn:E2; [intros [= <-]; eauto|discriminate].
    + intros (k' & [= <-] & H). now rewrite H.
  - split; [discriminate|]. intros (k' & H & _). discriminate.
Qed.
Lemma getidx_at {A} (l : list A) k d : (k < length l)%nat -> getidx l (Z.of_nat k) = Ok (nth k l d).
Proof.
  intro H. apply getidx_some. exists k. split; [now apply py_pos_nat|]. now apply nth_error_nth'.
Qed.

(** * updating and deleting *)
Lemma upd_length {A} (l : list A) k x : length (upd l k x) = length l.
Proof. revert k; induction l as [|a l IH]; intros [|k]; simpl; auto. Qed.
Lemma nth_error_upd {A} (l : list A) k x j :
  nth_error (upd l k x) j =
  if Nat.eqb j k then (if (k <? length l)%nat then Some x else None) else nth_error l j.
Proof.
  revert k j; induction l as [|a l IH]; intros k j.
  - simpl. destruct j, k; simpl; try reflexivity. destruct (Nat.eqb j k); reflexivity.
  - destruct k as [|k], j as [|j]; cbn [upd nth_error Nat.eqb length]; try reflexivity.
    rewrite IH. destruct (Nat.eqb j k); [|reflexivity].
    change (S k <? S (length l))%nat with (k <? length l)%nat. reflexivity.
Qed.
Lemma nth_upd_same {A} (l : list A) k x d : (k < length l)%nat -> nth k (upd l k x) d = x.
Proof.
  intro H. apply nth_error_nth. rewrite nth_error_upd, Nat.eqb_refl.
  destruct (Nat.ltb_spec k (length l)); [reflexivity|lia].
Qed.
Lemma nth_upd_other {A} (l : list A) k x j d : j <> k -> nth j (upd l k x) d = nth j l d.
Proof.
  intro H. destruct (nth_error l j) as [y|] eqn:E.
  - rewrite (nth_error_nth l j d E). apply nth_error_nth. rewrite nth_error_upd.
    destruct (Nat.eqb_spec j k); [contradiction|exact E].
  - assert (length l <= j)%nat by now apply nth_error_None.
    rewrite !nth_overflow; [reflexivity|lia|rewrite upd_length; lia].
Qed.
Lemma upd_upd {A} (l : list A) k x y : upd (upd l k x) k y = upd l k y.
Proof. revert k; induction l as [|a l IH]; intros [|k]; simpl; f_equal; auto. Qed.
Lemma upd_comm {A} (l : list A) j k x y : j <> k -> upd (upd l j x) k y = upd (upd l k y) j x.
Proof.
  revert j k; induction l as [|a l IH]; intros [|j] [|k] H; simpl; try reflexivity; try congruence.
  f_equal. apply IH. congruence.
Qed.
Lemma upd_nth {A} (l : list A) k d : (k < length l)%nat -> upd l k (nth k l d) = l.
Proof.
  revert k; induction l as [|a l IH]; intros [|k] H; simpl in *; try reflexivity; try lia.
  f_equal. apply IH. lia.
Qed.
Lemma map_upd {A B} (f : A -> B) l k x : map f (upd l k x) = upd (map f l) k (f x).
Proof. revert k; induction l as [|a l IH]; intros [|k]; simpl; f_equal; auto. Qed.
Lemma upd_out {A} (l : list A) k x : (length l <= k)%nat -> upd l k x = l.
Proof.
  revert k; induction l as [|a l IH]; intros [|k] H; simpl in *; try reflexivity; try lia.
  f_equal. apply IH. lia.
Qed.
Lemma del_length {A} (l : list A) k : (k < length l)%nat -> length (del l k) = (length l - 1)%nat.
Proof.
  revert k; induction l as [|a l IH]; intros [|k] H; simpl in *; try lia.
  rewrite IH by lia. lia.
Qed.
Lemma del_split {A} (l : list A) k : (k < length l)%nat -> del l k = firstn k l ++ skipn (S k) l.
Proof.
  revert k; induction l as [|a l IH]; intros [|k] H; simpl in *; try lia; try reflexivity.
  f_equal. apply IH. lia.
Qed.
Lemma map_del {A B} (f : A -> B) l k : map f (del l k) = del (map f l) k.
Proof. revert k; induction l as [|a l IH]; intros [|k]; simpl; f_equal; auto. Qed.
Lemma setidx_ok {A} (l : list A) i x r : setidx l i x = Ok r <->
  exists k, py_pos (length l) i = Ok k /\ r = upd l k x.
Proof.
  unfold setidx. destruct (py_pos (length l) i) as [k|e]; cbn [bind].
  - split; [intros [= <-]; eauto|]. intros (k' & [= <-] & ->). reflexivity.
  - split; [discriminate|]. intros (k' & H & _). discriminate.
Qed.
Lemma setidx_length {A} (l : list A) i x r : setidx l i x = Ok r -> length r = length l.
Proof. intro H. apply setidx_ok in H as (k & _ & ->). apply upd_length. Qed.
Lemma delidx_ok {A} (l : list A) i r : delidx l i = Ok r <->
  exists k, py_pos (length l) i = Ok k /\ r = del l k.
Proof.
  unfold delidx. destruct (py_pos (length l) i) as [k|e]; cbn [bind].
  - split; [intros [= <-]; eauto|]. intros (k' & [= <-] & ->). reflexivity.
  - split; [discriminate|]. intros (k' & H & _). discriminate.
Qed.

(** * monadic maps *)
Lemma mapM_ok {A B} (f : A -> res B) l r : mapM f l = Ok r <-> Forall2 (fun x y => f x = Ok y) l r.
Proof.
  revert r; induction l as [|x l IH]; intro r; cbn [mapM].
  - split; [intros [= <-]; constructor|]. intro H. inversion H. reflexivity.
  - split.
    + intro H. apply bind_ok in H as (y & Hy & H). apply bind_ok in H as (ys & Hys & H).
      injection H as <-. constructor; [exact Hy|]. now apply IH.
    + intro H. inversion H as [|? y ? ys Hy Hys]; subst. rewrite Hy. cbn [bind].
      rewrite (proj2 (IH ys) Hys). reflexivity.
Qed.
Lemma mapM_length {A B} (f : A -> res B) l r : mapM f l = Ok r -> length r = length l.
Proof. intro H. apply mapM_ok in H. symmetry. now apply Forall2_len in H. Qed.
Lemma mapM_map {A B} (f : A -> res B) (g : A -> B) l :
  (forall x, In x l -> f x = Ok (g x)) -> mapM f l = Ok (map g l).
Proof.
  intro H. apply mapM_ok. induction l as [|x l IH]; [constructor|].
  simpl. constructor; [apply H; now left|]. apply IH. intros. apply H. now right.
Qed.
Lemma Forall2_nth_error {A B} (P : A -> B -> Prop) l m k x :
  Forall2 P l m -> nth_error l k = Some x -> exists y, nth_error m k = Some y /\ P x y.
Proof.
  intro H; revert k; induction H as [|a b l m Hab H IH]; intros [|k] E; simpl in *; try discriminate.
  - injection E as <-. eauto.
  - apply IH, E.
Qed.
Lemma Forall2_nth_error_r {A B} (P : A -> B -> Prop) l m k y :
  Forall2 P l m -> nth_error m k = Some y -> exists x, nth_error l k = Some x /\ P x y.
Proof.
  intro H; revert k; induction H as [|a b l m Hab H IH]; intros [|k] E; simpl in *; try discriminate.
  - injection E as <-. eauto.
  - apply IH, E.
Qed.
Lemma Forall2_of_nth {A B} (P : A -> B -> Prop) l m :
  length l = length m ->
  (forall k x y, nth_error l k = Some x -> nth_error m k = Some y -> P x y) -> Forall2 P l m.
Proof.
  revert m; induction l as [|a l IH]; intros [|b m] E H; simpl in *; try discriminate; [constructor|].
  constructor; [apply (H 0%nat); reflexivity|]. apply IH; [congruence|].
  intros k x y H1 H2. apply (H (S k)); assumption.
Qed.
Lemma pick_ext {A} (l : list A) ps r :
  mapM (fun i => getidx l (Z.of_nat i)) ps = Ok r <->
  Forall2 (fun i x => nth_error l i = Some x) ps r.
Proof.
  rewrite mapM_ok. split; intro H; induction H as [|i x ps r Hx H IH]; constructor; auto.
  - apply getidx_some in Hx as (k & Hk & Hx). apply py_pos_ok in Hk as [H1 H2].
    replace i with k by lia. exact Hx.
  - apply getidx_some. exists i. split; [|exact Hx]. apply py_pos_nat.
    apply nth_error_Some. congruence.
Qed.

(** * valid indices *)
Lemma in_shape_spec sh idx : in_shape sh idx = true <-> Forall2 (fun n i => 0 <= i < n)%Z sh idx.
Proof.
  revert idx; induction sh as [|n sh IH]; intros [|i idx]; cbn [in_shape].
  - split; [constructor|reflexivity].
  - split; [discriminate|]. intro H; inversion H.
  - split; [discriminate|]. intro H; inversion H.
  - rewrite !andb_true_iff, IH, Z.leb_le, Z.ltb_lt. split.
    + intros [H1 H2]. constructor; [exact H1|exact H2].
    + intro H. inversion H; subst. auto.
Qed.
Lemma in_shape_length sh idx : in_shape sh idx = true -> length idx = length sh.
Proof. intro H. apply in_shape_spec in H. symmetry. now apply Forall2_len in H. Qed.
Lemma in_shape_nth sh idx k d e :
  in_shape sh idx = true -> (k < length sh)%nat -> (0 <= nth k idx d < nth k sh e)%Z.
Proof.
  intros H Hk. apply in_shape_spec in H.
  destruct (nth_error sh k) as [n|] eqn:E; [|apply nth_error_None in E; lia].
  destruct (Forall2_nth_error _ _ _ _ _ H E) as (i & Ei & Hi).
  rewrite (nth_error_nth idx k d Ei), (nth_error_nth sh k e E). exact Hi.
Qed.
Lemma in_shape_of_nth sh idx :
  length idx = length sh ->
  (forall k, (k < length sh)%nat -> (0 <= nth k idx 0 < nth k sh 0)%Z) -> in_shape sh idx = true.
Proof.
  intros E H. apply in_shape_spec. apply Forall2_of_nth; [now symmetry|].
  intros k n i Hn Hi. assert (k < length sh)%nat by (apply nth_error_Some; congruence).
  specialize (H k H0). rewrite (nth_error_nth idx k 0%Z Hi), (nth_error_nth sh k 0%Z Hn) in H. exact H.
Qed.
Lemma in_shape_app s1 s2 i1 i2 : length i1 = length s1 ->
  in_shape (s1 ++ s2) (i1 ++ i2) = in_shape s1 i1 && in_shape s2 i2.
Proof.
  revert i1; induction s1 as [|n s1 IH]; intros [|i i1] E; cbn in *; try discriminate; try reflexivity.
  rewrite IH by congruence. now rewrite !andb_assoc.
Qed.
Lemma in_shape_upd sh idx k i n :
  in_shape sh idx = true -> (k < length sh)%nat -> (0 <= i < n)%Z ->
  in_shape (upd sh k n) (upd idx k i) = true.
Proof.
  intros H Hk Hi. apply in_shape_of_nth.
  - rewrite !upd_length. now apply in_shape_length.
  - intros j Hj. rewrite upd_length in Hj. destruct (Nat.eq_dec j k) as [->|N].
    + rewrite !nth_upd_same; auto. rewrite (in_shape_length _ _ H). lia.
    + rewrite !nth_upd_other by auto. now apply in_shape_nth.
Qed.
Lemma idx_eqb_eq a b : idx_eqb a b = true <-> a = b.
Proof.
  revert b; induction a as [|x a IH]; intros [|y b]; cbn [idx_eqb]; try (split; [discriminate|discriminate]).
  - split; reflexivity.
  - rewrite andb_true_iff, Z.eqb_eq, IH. split; [intros [-> ->]; reflexivity|intros [= -> ->]; auto].
Qed.
Lemma idx_eqb_refl a : idx_eqb a a = true.
Proof. now apply idx_eqb_eq. Qed.
Lemma list_nth_ext (a b : list Z) :
  length a = length b -> (forall k, (k < length a)%nat -> nth k a 0%Z = nth k b 0%Z) -> a = b.
Proof. intros. now apply (nth_ext a b 0%Z 0%Z). Qed.
Lemma zprod_pos sh : Forall (fun n => 0 < n)%Z sh -> (0 < zprod sh)%Z.
Proof.
  intro H. induction H as [|n sh Hn H IH]; [reflexivity|]. cbn [zprod fold_right] in *. fold (zprod sh) in *. nia.
Qed.
Lemma zprod_zero sh : (zprod sh =? 0)%Z = true <-> In 0%Z sh.
Proof.
  rewrite Z.eqb_eq. induction sh as [|n sh IH]; cbn [zprod fold_right In]; [split; [discriminate|tauto]|].
  fold (zprod sh). rewrite Z.mul_eq_0, IH. split; intros [H|H]; auto.
Qed.

(** * membership *)
Lemma memb_In k p : memb k p = true <-> In k p.
Proof.
  induction p as [|x p IH]; cbn; [split; [discriminate|tauto]|].
  rewrite orb_true_iff, Nat.eqb_eq, IH. reflexivity.
Qed.
Lemma memb_nIn k p : memb k p = false <-> ~ In k p.
Proof. rewrite <- memb_In. destruct (memb k p); split; congruence. Qed.
Lemma nodupb_NoDup p : nodupb p = true <-> NoDup p.
Proof.
  induction p as [|x p IH]; cbn; [split; [constructor|reflexivity]|].
  rewrite andb_true_iff, negb_true_iff, IH. rewrite memb_nIn. split.
  - intros [H1 H2]. now constructor.
  - intro H. inversion H; auto.
Qed.

(** * transposition *)
(** p is a permutation of 0..n-1 *)
Definition perm_of (n : nat) (p : list nat) : Prop :=
  length p = n /\ NoDup p /\ forall k, In k p -> (k < n)%nat.
Lemma perm_of_In n p k : perm_of n p -> (k < n)%nat -> In k p.
Proof.
  intros (Hl & Hn & Hb) Hk.
  assert (incl (seq 0 n) p).
  { apply NoDup_length_incl; [exact Hn|rewrite seq_length; lia|].
    intros x Hx. apply in_seq. specialize (Hb x Hx). lia. }
  apply H, in_seq. lia.
Qed.
Lemma index_of_nth k p : In k p -> nth (index_of k p) p 0%nat = k /\ (index_of k p < length p)%nat.
Proof.
  induction p as [|x p IH]; cbn [In index_of]; [tauto|]. intros H.
  destruct (Nat.eqb_spec x k) as [->|N]; cbn [nth length]; [split; [reflexivity|lia]|].
  destruct H as [H|H]; [congruence|]. destruct (IH H) as [H1 H2]. split; [exact H1|lia].
Qed.
Lemma index_of_nth_inv p i : NoDup p -> (i < length p)%nat -> index_of (nth i p 0%nat) p = i.
Proof.
  intros Hn Hi. assert (Hin : In (nth i p 0%nat) p) by (apply nth_In; exact Hi).
  destruct (index_of_nth _ _ Hin) as [H1 H2].
  now apply (proj1 (NoDup_nth p 0%nat) Hn (index_of (nth i p 0%nat) p) i).
Qed.
Lemma permute_length {A} (d : A) p l : length (permute d p l) = length p.
Proof. apply map_length. Qed.
Lemma nth_permute {A} (d : A) p l i : (i < length p)%nat -> nth i (permute d p l) d = nth (nth i p 0%nat) l d.
Proof.
  intro H. unfold permute. rewrite (nth_indep _ d (nth 0%nat l d)) by (rewrite map_length; exact H).
  now rewrite (map_nth (fun k => nth k l d)).
Qed.
Lemma unpermute_length p idx : length (unpermute p idx) = length p.
Proof. unfold unpermute. now rewrite map_length, seq_length. Qed.
Lemma nth_unpermute p idx k : (k < length p)%nat -> nth k (unpermute p idx) 0%Z = nth (index_of k p) idx 0%Z.
Proof.
  intro H. unfold unpermute.
  rewrite (nth_indep _ 0%Z ((fun k => nth (index_of k p) idx 0%Z) 0%nat)) by (rewrite map_length, seq_length; exact H).
  rewrite (map_nth (fun k => nth (index_of k p) idx 0%Z)). now rewrite seq_nth by exact H.
Qed.
Lemma unpermute_permute p idx :
  perm_of (length idx) p -> unpermute p (permute 0%Z p idx) = idx.
Proof.
  intros Hp. pose proof Hp as (Hl & Hn & Hb). apply list_nth_ext; rewrite unpermute_length; [exact Hl|].
  intros k Hk. rewrite nth_unpermute by exact Hk.
  assert (Hin : In k p) by (apply (perm_of_In _ _ _ Hp); lia).
  destruct (index_of_nth _ _ Hin) as [H1 H2]. rewrite nth_permute by exact H2. now rewrite H1.
Qed.
Lemma permute_unpermute p idx :
  perm_of (length idx) p -> permute 0%Z p (unpermute p idx) = idx.
Proof.
  intros Hp. pose proof Hp as (Hl & Hn & Hb). apply list_nth_ext; rewrite permute_length; [exact Hl|].
  intros k Hk. rewrite nth_permute by exact Hk.
  assert (nth k p 0%nat < length p)%nat by (rewrite Hl; apply Hb, nth_In, Hk).
  rewrite nth_unpermute by assumption. now rewrite index_of_nth_inv.
Qed.
Lemma in_shape_permute sh idx p : perm_of (length sh) p -> length idx = length sh ->
  in_shape (permute 0%Z p sh) (permute 0%Z p idx) = in_shape sh idx.
Proof.
  intros Hp E. apply eq_true_iff_eq. pose proof Hp as (Hl & Hn & Hb). split; intro H.
  - apply in_shape_of_nth; [exact E|]. intros k Hk.
    assert (Hin : In k p) by (apply (perm_of_In _ _ _ Hp); lia).
    destruct (index_of_nth _ _ Hin) as [H1 H2].
    pose proof (in_shape_nth _ _ (index_of k p) 0%Z 0%Z H) as H3.
    rewrite permute_length in H3. specialize (H3 H2). rewrite !nth_permute in H3 by exact H2.
    now rewrite H1 in H3.
  - apply in_shape_of_nth; rewrite !permute_length; [reflexivity|]. intros k Hk.
    rewrite !nth_permute by exact Hk. apply in_shape_nth; [exact H|]. apply Hb, nth_In, Hk.
Qed.
Lemma in_shape_unpermute sh idx p : perm_of (length sh) p ->
  in_shape (permute 0%Z p sh) idx = true -> in_shape sh (unpermute p idx) = true.
Proof.
  intros Hp H. assert (E : length idx = length sh).
  { rewrite (in_shape_length _ _ H), permute_length. apply Hp. }
  rewrite <- (in_shape_permute sh (unpermute p idx) p Hp).
  - rewrite permute_unpermute; [exact H|]. now rewrite E.
  - rewrite unpermute_length. apply Hp.
Qed.
Lemma np_transpose_ok {V} (a : nda V) axes b : np_transpose a axes = Ok b <->
  exists p, mapM (py_pos (length (a_shape a))) axes = Ok p /\ perm_of (length (a_shape a)) p /\
            b = nd_transpose p a.
Proof.
  unfold np_transpose. destruct (Nat.eqb_spec (length axes) (length (a_shape a))) as [E|E]; cbn [negb].
  - destruct (mapM _ axes) as [p|e] eqn:M; cbn [bind].
    + destruct (nodupb p) eqn:N.
      * split.
        -- intros [= <-]. exists p. split; [reflexivity|]. split; [|reflexivity].
           split; [rewrite (mapM_length _ _ _ M); exact E|]. split; [now apply nodupb_NoDup|].
           intros k Hk. apply mapM_ok in M. clear -M Hk. induction M as [|x y l m H M IH]; [destruct Hk|].
           destruct Hk as [->|Hk]; [|now apply IH]. apply py_pos_ok in H. apply H.
        -- intros (p' & [= <-] & _ & ->). reflexivity.
      * split; [discriminate|]. intros (p' & [= <-] & (_ & Hn & _) & _).
        apply nodupb_NoDup in Hn. congruence.
    + split; [discriminate|]. intros (p' & H & _). discriminate.
  - split; [discriminate|]. intros (p & H & (Hl & _) & _). apply mapM_length in H. congruence.
Qed.

(** * One changed key, all others [:] *)
Lemma slice_full n : (0 <= n)%Z -> sel_of n (inr (mkslice None None None)) = Ok (SRange 0 1 n).
Proof.
  intro H. unfold sel_of, slice_indices. cbn. unfold range_len. cbn [Z.ltb Z.compare].
  destruct (Z.ltb_spec 0 n); do 2 f_equal; [|lia]. rewrite Z.div_1_r. lia.
Qed.
Lemma sels_full sh : Forall (fun n => 0 <= n)%Z sh ->
  sels_of sh (repeat (inr (mkslice None None None)) (length sh)) = Ok (map (SRange 0 1) sh).
Proof.
  induction 1 as [|n sh Hn H IH]; [reflexivity|]. cbn [length repeat sels_of map].
  rewrite slice_full by exact Hn. cbn [bind]. rewrite IH. reflexivity.
Qed.
Lemma sels_of_upd sh k key s : Forall (fun n => 0 <= n)%Z sh -> (k < length sh)%nat ->
  sel_of (nth k sh 0%Z) key = Ok s ->
  sels_of sh (upd (repeat (inr (mkslice None None None)) (length sh)) k key) = Ok (upd (map (SRange 0 1) sh) k s).
Proof.
  intros H; revert k; induction H as [|n sh Hn H IH]; intros [|k] Hk Hs; cbn [length] in Hk; try lia;
    cbn [length repeat upd sels_of map nth] in *.
  - rewrite Hs. cbn [bind]. rewrite sels_full by exact H. reflexivity.
  - rewrite slice_full by exact Hn. cbn [bind]. rewrite (IH k) by (lia || assumption). reflexivity.
Qed.
Lemma sels_of_upd_err sh k key e : Forall (fun n => 0 <= n)%Z sh -> (k < length sh)%nat ->
  sel_of (nth k sh 0%Z) key = Err e ->
  sels_of sh (upd (repeat (inr (mkslice None None None)) (length sh)) k key) = Err e.
Proof.
  intros H; revert k; induction H as [|n sh Hn H IH]; intros [|k] Hk Hs; cbn [length] in Hk; try lia;
    cbn [length repeat upd sels_of map nth] in *.
  - rewrite Hs. reflexivity.
  - rewrite slice_full by exact Hn. cbn [bind]. rewrite (IH k) by (lia || assumption). reflexivity.
Qed.
Lemma sel_shape_full sh : sel_shape (map (SRange 0 1) sh) = sh.
Proof. induction sh; cbn; congruence. Qed.
Lemma sel_shape_upd sh k s st c : sel_shape (upd (map (SRange 0 1) sh) k (SRange s st c)) = upd sh k c.
Proof.
  revert k; induction sh as [|n sh IH]; intros [|k]; cbn; try reflexivity; [now rewrite sel_shape_full|now rewrite IH].
Qed.
Lemma sel_shape_upd_int sh k i : sel_shape (upd (map (SRange 0 1) sh) k (SInt i)) = del sh k.
Proof.
  revert k; induction sh as [|n sh IH]; intros [|k]; cbn; try reflexivity; [now rewrite sel_shape_full|now rewrite IH].
Qed.
Lemma sel_index_full sh idx : length idx = length sh -> sel_index (map (SRange 0 1) sh) idx = idx.
Proof.
  revert idx; induction sh as [|n sh IH]; intros [|i idx] H; try discriminate; [reflexivity|].
  cbn [map sel_index]. rewrite IH by (cbn in H; lia). f_equal. lia.
Qed.
Lemma sel_index_upd sh k s st c idx : length idx = length sh ->
  sel_index (upd (map (SRange 0 1) sh) k (SRange s st c)) idx = upd idx k (s + nth k idx 0 * st)%Z.
Proof.
  revert k idx; induction sh as [|n sh IH]; intros [|k] [|i idx] H; try discriminate; try reflexivity;
    cbn [map upd sel_index nth].
  - rewrite sel_index_full by (cbn in H; lia). reflexivity.
  - rewrite IH by (cbn in H; lia). f_equal. lia.
Qed.
(** a[:, .., start:stop:step, .., :] *)
Lemma np_getitem_one {V} (a : nda V) k sl s e st : Forall (fun n => 0 <= n)%Z (a_shape a) ->
  (k < length (a_shape a))%nat -> slice_indices sl (nth k (a_shape a) 0%Z) = Ok (s, e, st) ->
  exists b, np_getitem a (upd (repeat (inr (mkslice None None None)) (length (a_shape a))) k (inr sl)) = Ok b /\
    a_shape b = upd (a_shape a) k (Z.of_nat (range_len s e st)) /\
    forall idx, length idx = length (a_shape a) -> a_at b idx = a_at a (upd idx k (s + nth k idx 0 * st)%Z).
Proof.
  intros H Hk Hs. unfold np_getitem.
  rewrite (sels_of_upd _ _ _ (SRange s st (Z.of_nat (range_len s e st))) H Hk).
  - cbn [bind]. eexists. split; [reflexivity|]. cbn [a_shape a_at]. split; [apply sel_shape_upd|].
    intros idx Hi. now rewrite sel_index_upd.
  - unfold sel_of. rewrite Hs. reflexivity.
Qed.
Lemma np_getitem_one_inv {V} (a b : nda V) k sl : Forall (fun n => 0 <= n)%Z (a_shape a) ->
  (k < length (a_shape a))%nat ->
  np_getitem a (upd (repeat (inr (mkslice None None None)) (length (a_shape a))) k (inr sl)) = Ok b ->
  exists s e st, slice_indices sl (nth k (a_shape a) 0%Z) = Ok (s, e, st) /\
    a_shape b = upd (a_shape a) k (Z.of_nat (range_len s e st)) /\
    forall idx, length idx = length (a_shape a) -> a_at b idx = a_at a (upd idx k (s + nth k idx 0 * st)%Z).
Proof.
  intros H Hk Hg. destruct (slice_indices sl (nth k (a_shape a) 0%Z)) as [[[s e] st]|x] eqn:E.
  - exists s, e, st. split; [reflexivity|].
    destruct (np_getitem_one a k sl s e st H Hk E) as (b' & Hb & Hs). rewrite Hg in Hb. injection Hb as ->. exact Hs.
  - unfold np_getitem in Hg. rewrite (sels_of_upd_err _ _ _ x H Hk) in Hg; [discriminate|].
    unfold sel_of. now rewrite E.
Qed.
Lemma bshape_refl s : bshape s s = Ok s.
Proof.
  unfold bshape. assert (G : forall l, bshape_rev l l = Ok l).
  { induction l as [|x l IH]; [reflexivity|]. cbn [bshape_rev]. rewrite Z.eqb_refl. cbn [bind].
    rewrite IH. reflexivity. }
  rewrite G. cbn [rmap]. now rewrite rev_involutive.
Qed.
(** broadcasting an operand that already has the shape of the result *)
Lemma bidx_refl s idx : in_shape s idx = true -> bidx s idx = idx.
Proof.
  intro H. unfold bidx. rewrite <- (rev_involutive idx) at 2. f_equal.
  assert (L : length (rev s) = length (rev idx)) by (rewrite !rev_length; symmetry; now apply in_shape_length).
  assert (G : Forall2 (fun n i => 0 <= i < n)%Z (rev s) (rev idx)).
  { apply in_shape_spec in H. clear L. induction H as [|n i s idx Hi H IH]; [constructor|].
    cbn [rev]. apply Forall2_app; [exact IH|]. now repeat constructor. }
  clear L H. induction G as [|n i l m Hi G IH]; [reflexivity|]. cbn [bidx_rev]. rewrite IH.
  destruct (Z.eqb_spec n 1); [|reflexivity]. f_equal. lia.
Qed.
Lemma np_map2_same {A B C} (f : A -> B -> C) a b : a_shape a = a_shape b ->
  exists c, np_map2 f a b = Ok c /\ a_shape c = a_shape a /\
    forall idx, in_shape (a_shape a) idx = true -> a_at c idx = f (a_at a idx) (a_at b idx).
Proof.
  intro H. unfold np_map2. rewrite <- H, bshape_refl. cbn [bind]. eexists. split; [reflexivity|].
  cbn [a_shape a_at]. split; [reflexivity|]. intros idx Hi. now rewrite !bidx_refl.
Qed.

(** * Broadcasting one axis *)
Definition bcompat (a b : Z) : Prop := a = b \/ a = 1%Z.
Lemma Forall2_rev {A B} (P : A -> B -> Prop) l m : Forall2 P l m -> Forall2 P (rev l) (rev m).
Proof.
  induction 1 as [|x y l m Hx H IH]; [constructor|]. cbn [rev]. apply Forall2_app; [exact IH|]. now repeat constructor.
Qed.
Lemma bshape_into s1 s2 : Forall2 bcompat s1 s2 -> bshape s1 s2 = Ok s2 /\ bshape s2 s1 = Ok s2.
Proof.
  intro H. unfold bshape.
  assert (G : forall l m, Forall2 bcompat l m -> bshape_rev l m = Ok m /\ bshape_rev m l = Ok m).
  { induction 1 as [|x y l m Hx H' IH]; [split; reflexivity|]. destruct IH as [I1 I2]. cbn [bshape_rev].
    rewrite I1, I2. destruct (Z.eqb_spec x y) as [->|N].
    - rewrite Z.eqb_refl. split; reflexivity.
    - destruct Hx as [Hx|Hx]; [contradiction|subst x]. rewrite Z.eqb_refl. cbn [bind].
      destruct (Z.eqb_spec y 1) as [->|]; [contradiction|]. split; reflexivity. }
  destruct (G _ _ (Forall2_rev _ _ _ H)) as [G1 G2]. rewrite G1, G2. cbn [rmap].
  rewrite rev_involutive. split; reflexivity.
Qed.
Fixpoint bmap (sh idx : list Z) : list Z :=
  match sh, idx with
  | n :: sh', i :: idx' => (if (n =? 1)%Z then 0%Z else i) :: bmap sh' idx'
  | _, _ => []
  end.
Lemma bidx_bmap sh idx : length sh = length idx -> bidx sh idx = bmap sh idx.
Proof.
  intro L. unfold bidx.
  assert (G : forall s1 i1 s2 i2, length s1 = length i1 -> bidx_rev (s1 ++ s2) (i1 ++ i2) = bidx_rev s1 i1 ++ bidx_rev s2 i2).
  { induction s1 as [|x s1 IH]; intros [|y i1] s2 i2 H; try discriminate; [reflexivity|].
    cbn [app bidx_rev]. rewrite IH by (cbn in H; lia). reflexivity. }
  revert idx L. induction sh as [|n sh IH]; intros [|i idx] L; try discriminate; [reflexivity|].
  cbn [rev bmap]. rewrite G by (rewrite !rev_length; cbn in L; lia). rewrite rev_app_distr.
  cbn [bidx_rev rev app]. rewrite IH by (cbn in L; lia). reflexivity.
Qed.
Lemma nth_bmap sh idx k : length sh = length idx -> (k < length sh)%nat ->
  nth k (bmap sh idx) 0%Z = if (nth k sh 0 =? 1)%Z then 0%Z else nth k idx 0%Z.
Proof.
  revert idx k; induction sh as [|n sh IH]; intros [|i idx] [|k] L Hk; try discriminate; cbn [length] in *; try lia;
    cbn [bmap nth]; [reflexivity|]. apply IH; lia.
Qed.
Lemma along_bcompat sh k : Forall2 bcompat (upd (repeat 1%Z (length sh)) k (nth k sh 0%Z)) sh.
Proof.
  assert (G : forall l, Forall2 bcompat (repeat 1%Z (length l)) l).
  { induction l; cbn; constructor; auto. now right. }
  revert k; induction sh as [|n sh IH]; intros [|k]; cbn [length repeat upd nth]; try constructor; try apply G; try apply IH; [now left|now right].
Qed.
Lemma np_along_op {A B} (op : Q -> A -> B) l (a : nda A) k :
  (k < length (a_shape a))%nat -> nth k (a_shape a) 0%Z = Z.of_nat (length l) ->
  exists c, np_map2 op (np_along (length (a_shape a)) k l) a = Ok c /\ a_shape c = a_shape a /\
    forall idx, in_shape (a_shape a) idx = true ->
      a_at c idx = op (nth (Z.to_nat (nth k idx 0%Z)) l 0) (a_at a idx).
Proof.
  intros Hk Hn. unfold np_map2, np_along. cbn [a_shape]. rewrite <- Hn.
  destruct (bshape_into _ _ (along_bcompat (a_shape a) k)) as [-> _]. cbn [bind].
  eexists. split; [reflexivity|]. cbn [a_shape a_at]. split; [reflexivity|]. intros idx Hi.
  pose proof (in_shape_length _ _ Hi) as L. rewrite (bidx_refl _ _ Hi). do 2 f_equal.
  rewrite bidx_bmap by (rewrite upd_length, repeat_length; lia).
  rewrite nth_bmap by (rewrite upd_length, repeat_length; lia). rewrite nth_upd_same by (rewrite repeat_length; lia).
  pose proof (in_shape_nth _ _ k 0%Z 0%Z Hi Hk). destruct (Z.eqb_spec (nth k (a_shape a) 0%Z) 1); [|reflexivity].
  f_equal. lia.
Qed.
Lemma np_along_op_r {A B} (op : A -> Q -> B) l (a : nda A) k :
  (k < length (a_shape a))%nat -> nth k (a_shape a) 0%Z = Z.of_nat (length l) ->
  exists c, np_map2 op a (np_along (length (a_shape a)) k l) = Ok c /\ a_shape c = a_shape a /\
    forall idx, in_shape (a_shape a) idx = true ->
      a_at c idx = op (a_at a idx) (nth (Z.to_nat (nth k idx 0%Z)) l 0).
Proof.
  intros Hk Hn. unfold np_map2, np_along. cbn [a_shape]. rewrite <- Hn.
  destruct (bshape_into _ _ (along_bcompat (a_shape a) k)) as [_ ->]. cbn [bind].
  eexists. split; [reflexivity|]. cbn [a_shape a_at]. split; [reflexivity|]. intros idx Hi.
  pose proof (in_shape_length _ _ Hi) as L. rewrite (bidx_refl _ _ Hi). do 2 f_equal.
  rewrite bidx_bmap by (rewrite upd_length, repeat_length; lia).
  rewrite nth_bmap by (rewrite upd_length, repeat_length; lia). rewrite nth_upd_same by (rewrite repeat_length; lia).
  pose proof (in_shape_nth _ _ k 0%Z 0%Z Hi Hk). destruct (Z.eqb_spec (nth k (a_shape a) 0%Z) 1); [|reflexivity].
  f_equal. lia.
Qed.

(** * Reducing one axis *)
Lemma keep_from_none {A} (l : list A) p : forall j, (forall x, In x p -> (x < j)%nat) -> keep_from j p l = l.
Proof.
  induction l as [|a l IH]; intros j H; [reflexivity|]. cbn [keep_from].
  destruct (memb j p) eqn:E; [apply memb_In in E; specialize (H _ E); lia|].
  f_equal. apply IH. intros x Hx. specialize (H x Hx). lia.
Qed.
Lemma keep_from_one {A} (l : list A) k : forall j, (j <= k)%nat -> keep_from j [k] l = del l (k - j).
Proof.
  induction l as [|a l IH]; intros j H; [destruct (k - j)%nat; reflexivity|]. cbn [keep_from memb].
  destruct (Nat.eqb_spec k j) as [->|N]; cbn [orb].
  - rewrite Nat.sub_diag. cbn [del]. apply keep_from_none. intros x [Hx|Hx]; [lia|destruct Hx].
  - replace (k - j)%nat with (S (k - S j)) by lia. cbn [del]. f_equal. apply IH. lia.
Qed.
Lemma kept_one {A} (l : list A) k : kept [k] l = del l k.
Proof. unfold kept. rewrite keep_from_one by lia. now rewrite Nat.sub_0_r. Qed.
Lemma np_reduce_one {V} (red : list V -> V) (a b : nda V) i :
  np_reduce red a (AxInt i) false = Ok b ->
  exists k, py_pos (length (a_shape a)) i = Ok k /\ b = nd_reduce red [k] a.
Proof.
  unfold np_reduce, axisarg_positions. cbn [mapM]. destruct (py_pos _ i) as [k|]; [|discriminate].
  cbn [bind]. intros [= <-]. exists k. auto.
Qed.
