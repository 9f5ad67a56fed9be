(** The store of ParticleModel against a description without caches and references (C33-C38). *)
From Coq Require Import Lia Qround Permutation.
From Verif Require Import PyBase PyBaseFacts NumpyModel NumpyFacts NdModel FieldModel HelperModel ParticleModel ParticleSpec.

(** ** Selections without references *)
Inductive amask := AAll | ANone | ASome (b : list bool).
Record aobj := mkaobj { a_dump : dump; a_name : string; a_mask : amask }.
Definition abs (w : world) (s : single) : aobj :=
  mkaobj (s_dump s) (s_name s)
    (match s_sel s with SNone => AAll | SFalse => ANone | SArr v => ASome (read_view w v) end).
Definition aread (o : aobj) (key : string) : res data :=
  match dumped (a_dump o) (a_name o) key with
  | None => Err KeyError
  | Some x =>
      match convert key x with
      | DScalar q => Ok (DScalar q)
      | DVec l => Ok (match a_mask o with AAll => DVec l | ANone => DVoid (length l) | ASome b => DVec (picked b l) end)
      | DVoid _ => Err MemFault
      end
  end.

Definition view_ok (w : world) (v : view) : Prop :=
  (v_buf v < length (w_bools w))%nat /\ (v_off v + v_len v <= length (nth (v_buf v) (w_bools w) []))%nat.

Record obj_ok (sizes : dump -> string -> nat) (w : world) (s : single) : Prop := mkobj_ok {
  oo_dump : dump_ok (s_dump s) (s_name s) (sizes (s_dump s) (s_name s));
  oo_name : existsb (String.eqb (s_name s)) (d_names (s_dump s)) = true;
  oo_view : forall v, s_sel s = SArr v -> view_ok w v /\ v_len v = sizes (s_dump s) (s_name s);
  oo_cache : forall k x, In (k, x) (s_cache s) -> aread (abs w s) k = Ok x }.
Definition winv sizes (w : world) : Prop := forall s, In s (w_objs w) -> obj_ok sizes w s.
Definition same (s s' : single) : Prop := s_dump s' = s_dump s /\ s_name s' = s_name s /\ s_sel s' = s_sel s.
Record ext (w w' : world) : Prop := mkext {
  ex_bools : exists l, w_bools w' = w_bools w ++ l;
  ex_objs : forall i s, nth_error (w_objs w) i = Some s -> exists s', nth_error (w_objs w') i = Some s' /\ same s s';
  ex_ms : w_ms w' = w_ms w;
  ex_ids : forall k, Permutation (nth k (w_ids w) []) (nth k (w_ids w') []) }.

Lemma same_refl s : same s s. Proof. split; [|split]; reflexivity. Qed.
Lemma same_trans a b c : same a b -> same b c -> same a c.
Proof. intros [A [B C]] [D [E F]]. split; [|split]; congruence. Qed.
Lemma ext_refl w : ext w w.
Proof.
  split; [exists []; now rewrite app_nil_r| |reflexivity|reflexivity].
  intros i s H. exists s. split; [exact H|apply same_refl].
Qed.
Lemma ext_trans a b c : ext a b -> ext b c -> ext a c.
Proof.
  intros A B. split.
  - destruct (ex_bools _ _ A) as [l1 E1], (ex_bools _ _ B) as [l2 E2]. exists (l1 ++ l2). now rewrite E2, E1, app_assoc.
  - intros i s H. destruct (ex_objs _ _ A i s H) as [s' [H' S1]]. destruct (ex_objs _ _ B i s' H') as [s'' [H'' S2]].
    exists s''. split; [exact H''|eapply same_trans; eassumption].
  - rewrite (ex_ms _ _ B). apply ex_ms, A.
  - intro k. eapply Permutation_trans; [apply (ex_ids _ _ A)|apply (ex_ids _ _ B)].
Qed.

Lemma read_view_ext w w' v : (exists l, w_bools w' = w_bools w ++ l) -> view_ok w v -> read_view w' v = read_view w v.
Proof. intros [l E] [H _]. unfold read_view. now rewrite E, app_nth1. Qed.
Lemma view_ok_ext w w' v : (exists l, w_bools w' = w_bools w ++ l) -> view_ok w v -> view_ok w' v.
Proof. intros [l E] [H H2]. split; rewrite E; [rewrite app_length; lia|now rewrite app_nth1]. Qed.
Lemma read_view_length w v : view_ok w v -> length (read_view w v) = v_len v.
Proof. intros [_ H]. unfold read_view. rewrite firstn_length, skipn_length. lia. Qed.

Section Facts.
Variable sizes : dump -> string -> nat.
Notation winv := (winv sizes).
Notation obj_ok := (obj_ok sizes).

Lemma abs_ext w w' s s' : (exists l, w_bools w' = w_bools w ++ l) -> obj_ok w s -> same s s' -> abs w' s' = abs w s.
Proof.
  intros E O [A [B C]]. unfold abs. rewrite A, B, C. f_equal.
  destruct (s_sel s) eqn:S; auto. f_equal. apply read_view_ext; auto. now apply (oo_view _ _ _ O).
Qed.
Lemma obj_ok_ext w w' s : (exists l, w_bools w' = w_bools w ++ l) -> obj_ok w s -> obj_ok w' s.
Proof.
  intros E O. pose proof (abs_ext w w' s s E O (same_refl s)) as A.
  destruct O as [O1 O2 O3 O4]. split; auto.
  - intros v V. destruct (O3 v V) as [V1 V2]. split; auto. eapply view_ok_ext; eauto.
  - intros k x I. rewrite A. now apply O4.
Qed.

Lemma mbind_eq {A B} (m : M A) (f : A -> M B) w w' a : m w = (w', Ok a) -> mbind m f w = f a w'.
Proof. intro H. unfold mbind. now rewrite H. Qed.
Lemma mbind_err {A B} (m : M A) (f : A -> M B) w w' e : m w = (w', Err e) -> mbind m f w = (w', Err e).
Proof. intro H. unfold mbind. now rewrite H. Qed.
Lemma get_obj_eq w i s : nth_error (w_objs w) i = Some s -> get_obj i w = (w, Ok s).
Proof. intro H. unfold get_obj. now rewrite H. Qed.

(** storing an object with a larger cache *)
Lemma nth_error_upd {A} (l : list A) i x j : (i < length l)%nat -> nth_error (upd l i x) j = if (j =? i)%nat then Some x else nth_error l j.
Proof.
  revert i j. induction l as [|y l IH]; intros i j H; cbn in H; [lia|].
  destruct i, j; cbn; auto. apply IH. lia.
Qed.
Lemma put_cached w i s key d :
  winv w -> nth_error (w_objs w) i = Some s -> aread (abs w s) key = Ok d ->
  exists w', put_obj i (cached s key d) w = (w', Ok tt) /\ winv w' /\ ext w w'.
Proof.
  intros W H R. eexists. split; [reflexivity|].
  assert (L : (i < length (w_objs w))%nat) by (apply nth_error_Some; congruence).
  assert (Hext : ext w (mkworld (w_bools w) (w_ids w) (upd (w_objs w) i (cached s key d)) (w_ms w))).
  { split; cbn [w_bools w_objs w_ms w_ids]; try reflexivity; [exists []; now rewrite app_nil_r|].
    intros j t T. rewrite nth_error_upd by exact L. destruct (Nat.eqb_spec j i) as [->|N].
    - rewrite H in T. injection T as <-. eexists. split; [reflexivity|]. split; [|split]; reflexivity.
    - exists t. split; [exact T|apply same_refl]. }
  split; [|exact Hext].
  intros t T. cbn [w_objs] in T. apply In_nth_error in T. destruct T as [j T]. rewrite nth_error_upd in T by exact L.
  revert T. destruct (Nat.eqb_spec j i) as [Eji|N]; intro T.
  - injection T as <-. assert (O : obj_ok w s) by (apply W; eapply nth_error_In; eauto). destruct O as [O1 O2 O3 O4].
    split; auto. intros k x [E|I]; [injection E as <- <-; exact R|]. apply O4, I.
  - apply (obj_ok_ext w); [exists []; now rewrite app_nil_r|]. apply W. eapply nth_error_In; eauto.
Qed.
Lemma new_obj_ok w s : winv w -> obj_ok w s ->
  exists w', new_obj s w = (w', Ok (length (w_objs w))) /\ winv w' /\ ext w w' /\ nth_error (w_objs w') (length (w_objs w)) = Some s /\ w_bools w' = w_bools w.
Proof.
  intros W O. eexists. split; [reflexivity|]. cbn [w_objs w_bools].
  assert (B : exists l, w_bools w = w_bools w ++ l) by (exists []; now rewrite app_nil_r).
  split; [|split; [|split; [|reflexivity]]].
  - intros t T. cbn [w_objs] in T. apply in_app_or in T. destruct T as [T|[<-|[]]]; apply (obj_ok_ext w); auto.
  - split; cbn [w_bools w_objs w_ms w_ids]; auto.
    intros i t T. exists t. split; [|apply same_refl]. rewrite nth_error_app1; [exact T|]. apply nth_error_Some. congruence.
  - rewrite nth_error_app2, Nat.sub_diag by lia. reflexivity.
Qed.
Lemma new_bools_ok w l : winv w ->
  exists w', new_bools l w = (w', Ok (length (w_bools w))) /\ winv w' /\ ext w w' /\ w_objs w' = w_objs w /\
    read_view w' (mkview (length (w_bools w)) 0 (length l)) = l /\ view_ok w' (mkview (length (w_bools w)) 0 (length l)).
Proof.
  intros W. eexists. split; [reflexivity|]. cbn [w_objs w_bools].
  assert (B : exists x, w_bools w ++ [l] = w_bools w ++ x) by eauto.
  split; [|split; [|split; [reflexivity|split]]].
  - intros t T. apply (obj_ok_ext w); auto.
  - split; cbn [w_bools w_objs w_ms w_ids]; auto. intros i t T. exists t. split; [exact T|apply same_refl].
  - unfold read_view. cbn [w_bools v_buf v_off v_len]. rewrite app_nth2, Nat.sub_diag by lia. cbn [nth skipn]. apply firstn_all.
  - split; cbn [w_bools v_buf v_off v_len]; [rewrite app_length; cbn; lia|]. rewrite app_nth2, Nat.sub_diag by lia. cbn. lia.
Qed.

(** ** Reading *)
Lemma fetch_dumped s key : fetch s key = match dumped (s_dump s) (s_name s) key with Some x => Ok x | None => Err KeyError end.
Proof.
  unfold fetch, dumped. destruct (String.eqb key "time"); auto. destruct (d_get (s_dump s) (s_name s) key); auto.
  destruct (_ || _); auto. destruct (d_guess _ _ _); auto.
Qed.
Lemma assoc_In {A} k (l : list (string * A)) x : assoc k l = Some x -> In (k, x) l.
Proof.
  induction l as [|[k' y] l IH]; cbn; [discriminate|]. destruct (String.eqb_spec k k'); [|now right; apply IH].
  intros [= ->]. subst. now left.
Qed.
Lemma dumped_vec d name n key l : dump_ok d name n -> dumped d name key = Some (DVec l) -> length l = n.
Proof.
  intros [D _] H. unfold dumped in H. destruct (String.eqb key "time"); [discriminate|].
  specialize (D key). destruct (d_get d name key) as [[| |]|]; try discriminate.
  - now injection H as ->.
  - destruct (_ || _); [|discriminate]. destruct (d_guess d name key); discriminate.
Qed.
Lemma dumped_void d name n key k : dump_ok d name n -> dumped d name key = Some (DVoid k) -> False.
Proof.
  intros [D _] H. unfold dumped in H. destruct (String.eqb key "time"); [discriminate|].
  specialize (D key). destruct (d_get d name key) as [[| |]|]; try discriminate; auto.
  destruct (_ || _); [|discriminate]. destruct (d_guess d name key); discriminate.
Qed.
Lemma convert_vec key x : match x, convert key x with
  | DScalar _, DScalar _ => True | DVec l, DVec l' => length l' = length l | DVoid n, DVoid m => m = n | _, _ => False end.
Proof. unfold convert. destruct (String.eqb key "id"), x; auto. apply map_length. Qed.

Lemma readatomic_ok w i s key : winv w -> nth_error (w_objs w) i = Some s ->
  exists w', readatomic i key w = (w', aread (abs w s) key) /\ winv w' /\ ext w w'.
Proof.
  intros W H. assert (O : obj_ok w s) by (apply W; eapply nth_error_In; eauto).
  unfold readatomic. rewrite (mbind_eq _ _ _ _ _ (get_obj_eq _ _ _ H)).
  destruct (assoc key (s_cache s)) as [d|] eqn:C.
  { apply assoc_In in C. rewrite (oo_cache _ _ _ O _ _ C). exists w. split; [reflexivity|split; [exact W|apply ext_refl]]. }
  rewrite fetch_dumped. unfold aread. cbn [abs a_dump a_name a_mask].
  destruct (dumped (s_dump s) (s_name s) key) as [x|] eqn:D.
  2:{ exists w. split; [reflexivity|split; [exact W|apply ext_refl]]. }
  unfold mlift at 1. unfold mbind at 1.
  assert (R : aread (abs w s) key = match convert key x with
      | DScalar q => Ok (DScalar q)
      | DVec l => Ok (match a_mask (abs w s) with AAll => DVec l | ANone => DVoid (length l) | ASome b => DVec (picked b l) end)
      | DVoid _ => Err MemFault end) by (unfold aread; cbn [abs a_dump a_name]; now rewrite D).
  pose proof (convert_vec key x) as K.
  revert K R. destruct (convert key x) as [q|l|n] eqn:X; intros K R.
  - destruct (put_cached w i s key (DScalar q) W H R) as [w' [P [W' E']]].
    exists w'. rewrite (mbind_eq _ _ _ _ _ P). auto.
  - cbn [abs a_mask] in R. destruct (s_sel s) as [| |v] eqn:S.
    + exists w. split; [reflexivity|split; [exact W|apply ext_refl]].
    + destruct (put_cached w i s key _ W H R) as [w' [P [W' E']]].
      exists w'. rewrite (mbind_eq _ _ _ _ _ P). auto.
    + unfold get_view at 1, mbind at 1.
      destruct (oo_view _ _ _ O v S) as [V1 V2].
      assert (L : (length (read_view w v) =? length l)%nat = true).
      { apply Nat.eqb_eq. rewrite read_view_length, V2 by exact V1. destruct x as [|l0|]; rewrite X in K; cbv iota in K; try contradiction.
        rewrite K. symmetry. eapply dumped_vec; [exact (oo_dump _ _ _ O)|exact D]. }
      unfold bool_index. rewrite L. unfold mlift, mbind at 1.
      destruct (put_cached w i s key _ W H R) as [w' [P [W' E']]].
      exists w'. rewrite (mbind_eq _ _ _ _ _ P). auto.
  - destruct x; rewrite X in K; cbv iota in K; try contradiction. exfalso. eapply dumped_void; [exact (oo_dump _ _ _ O)|exact D].
Qed.

(** ** Lengths *)
Definition count (o : aobj) : nat :=
  match a_mask o with AAll => sizes (a_dump o) (a_name o) | ANone => 0 | ASome b => count_true b end.
Lemma ext_obj w w' i s : ext w w' -> winv w -> nth_error (w_objs w) i = Some s ->
  exists s', nth_error (w_objs w') i = Some s' /\ abs w' s' = abs w s.
Proof.
  intros E W H. destruct (ex_objs _ _ E i s H) as [s' [H' S]]. exists s'. split; [exact H'|].
  apply abs_ext; auto; [apply ex_bools, E|]. apply W. eapply nth_error_In; eauto.
Qed.
Lemma len_keys_ok keys w i s : winv w -> nth_error (w_objs w) i = Some s -> s_sel s = SNone ->
  exists w', winv w' /\ ext w w' /\
    ((exists key l, In key keys /\ dumped (s_dump s) (s_name s) key = Some (DVec l)) /\ len_keys i keys w = (w', Ok (sizes (s_dump s) (s_name s)))
     \/ (forall key l, In key keys -> dumped (s_dump s) (s_name s) key <> Some (DVec l)) /\ len_keys i keys w = (w', Ok 0%nat)).
Proof.
  revert w s. induction keys as [|k r IH]; intros w s W H S.
  { exists w. split; [exact W|split; [apply ext_refl|]]. right. split; [|reflexivity]. intros ? ? []. }
  cbn [len_keys]. destruct (readatomic_ok w i s k W H) as [w1 [R [W1 E1]]]. rewrite R.
  assert (O : obj_ok w s) by (apply W; eapply nth_error_In; eauto).
  destruct (ex_objs _ _ E1 i s H) as [s1 [H1 [A [B C]]]]. rewrite S in C.
  destruct (IH w1 s1 W1 H1 C) as [w2 [W2 [E2 Q]]]. rewrite A, B in Q.
  assert (N : (forall l, dumped (s_dump s) (s_name s) k <> Some (DVec l)) ->
    match aread (abs w s) k with Ok (DVec _) => False | Ok _ => True | Err KeyError => True | Err _ => False end).
  { intro N. unfold aread. cbn [abs a_dump a_name a_mask]. rewrite S. destruct (dumped (s_dump s) (s_name s) k) as [x|] eqn:D; auto.
    pose proof (convert_vec k x) as K. destruct x as [|l|n]; [|exfalso; now apply (N l)|exfalso; eapply dumped_void; [exact (oo_dump _ _ _ O)|exact D]].
    cbv iota in K. revert K. destruct (convert k (DScalar q)); auto. }
  destruct (dumped (s_dump s) (s_name s) k) as [x|] eqn:D; [destruct x as [q|l|n]|].
  - exists w2. split; [exact W2|split; [eapply ext_trans; eauto|]].
    specialize (N ltac:(discriminate)). destruct (aread (abs w s) k) as [[| |]|[]]; try contradiction;
    (destruct Q as [[[key [l [I1 I2]]] Q]|[Q1 Q]]; rewrite Q; [left|right]; split; auto;
      [exists key, l; split; [now right|exact I2]|intros key l [<-|I]; [congruence|now apply Q1]]).
  - exists w1. split; [exact W1|split; [exact E1|]]. left. split; [exists k, l; split; [now left|exact D]|].
    unfold aread. cbn [abs a_dump a_name a_mask]. rewrite D, S. pose proof (convert_vec k (DVec l)) as K.
    cbv iota in K. revert K. destruct (convert k (DVec l)) as [|l1|]; intro K; try contradiction. rewrite K. erewrite dumped_vec; [reflexivity|exact (oo_dump _ _ _ O)|exact D].
  - exfalso. eapply dumped_void; [exact (oo_dump _ _ _ O)|exact D].
  - exists w2. split; [exact W2|split; [eapply ext_trans; eauto|]].
    specialize (N ltac:(discriminate)). destruct (aread (abs w s) k) as [[| |]|[]]; try contradiction;
    (destruct Q as [[[key [l [I1 I2]]] Q]|[Q1 Q]]; rewrite Q; [left|right]; split; auto;
      [exists key, l; split; [now right|exact I2]|intros key l [<-|I]; [congruence|now apply Q1]]).
Qed.
Lemma len_single_ok w i s : winv w -> nth_error (w_objs w) i = Some s ->
  exists w', len_single i w = (w', Ok (count (abs w s))) /\ winv w' /\ ext w w'.
Proof.
  intros W H. assert (O : obj_ok w s) by (apply W; eapply nth_error_In; eauto).
  unfold len_single. rewrite (mbind_eq _ _ _ _ _ (get_obj_eq _ _ _ H)). unfold count, abs. cbn [a_mask a_dump a_name].
  destruct (s_sel s) as [| |v] eqn:S.
  - destruct (len_keys_ok atomicprops w i s W H S) as [w' [W' [E' [[_ Q]|[Q1 Q]]]]].
    + exists w'. rewrite Q. auto.
    + exists w'. rewrite Q. split; [|auto]. repeat f_equal.
      destruct (oo_dump _ _ _ O) as [D1 D2]. destruct (sizes (s_dump s) (s_name s)) as [|n] eqn:Z; auto.
      destruct (D2 ltac:(lia)) as [key [l [I1 [I2 I3]]]]. exfalso. apply (Q1 key l I1).
      unfold dumped. apply String.eqb_neq in I2. now rewrite I2, I3.
  - exists w. split; [reflexivity|split; [exact W|apply ext_refl]].
  - exists w. split; [reflexivity|split; [exact W|apply ext_refl]].
Qed.

(** ** Compressing by a boolean array *)
Definition awf (o : aobj) : Prop :=
  dump_ok (a_dump o) (a_name o) (sizes (a_dump o) (a_name o)) /\
  existsb (String.eqb (a_name o)) (d_names (a_dump o)) = true /\
  match a_mask o with ASome b => length b = sizes (a_dump o) (a_name o) | _ => True end.
Lemma abs_wf w s : obj_ok w s -> awf (abs w s).
Proof.
  intros [O1 O2 O3 O4]. split; [exact O1|split; [exact O2|]]. cbn [abs a_mask a_dump a_name]. destruct (s_sel s) as [| |v] eqn:S; auto.
  destruct (O3 v eq_refl) as [V1 V2]. now rewrite read_view_length.
Qed.
Definition acompress (o : aobj) (c : list bool) : aobj :=
  mkaobj (a_dump o) (a_name o) (match a_mask o with AAll => ASome c | ANone => ANone | ASome a => ASome (refine a c) end).
Lemma refine_length a : forall c, length (refine a c) = length a.
Proof. induction a as [|[] a IH]; intros c; cbn; auto. destruct c; cbn; auto. Qed.
Lemma count_true_cons b l : count_true (b :: l) = ((if b then 1 else 0) + count_true l)%nat.
Proof. destruct b; reflexivity. Qed.
Lemma picked_length {A} b : forall (l : list A), length b = length l -> length (picked b l) = count_true b.
Proof. induction b as [|[] b IH]; intros [|x l] H; cbn in *; auto; try discriminate; rewrite IH by lia; reflexivity. Qed.
Lemma picked_refine {A} a : forall c (l : list A), length a = length l -> length c = count_true a ->
  picked (refine a c) l = picked c (picked a l).
Proof.
  induction a as [|b a IH]; intros c l L C; [now destruct c|].
  destruct l as [|x l]; [discriminate|]. rewrite count_true_cons in C. cbn in L. destruct b; cbn [refine picked].
  - destruct c as [|y c]; [discriminate|]. cbn in C. cbn [picked]. rewrite IH by lia. reflexivity.
  - cbn. apply IH; lia.
Qed.
Lemma aread_vec_length o key l : awf o -> aread o key = Ok (DVec l) -> length l = count o.
Proof.
  intros [D [_ L]] H. unfold aread in H. destruct (dumped (a_dump o) (a_name o) key) as [x|] eqn:E; [|discriminate].
  pose proof (convert_vec key x) as K. destruct (convert key x) as [|l1|] eqn:X; try discriminate.
  destruct x as [|l0|]; rewrite X in K; cbv iota in K; try contradiction.
  unfold count. destruct (a_mask o) as [| |b]; try discriminate; injection H as <-.
  - rewrite K. eapply dumped_vec; eauto.
  - apply picked_length. rewrite K, L. symmetry. eapply dumped_vec; eauto.
Qed.
Lemma compress_cached_ok o c key x : awf o -> length c = count o -> aread o key = Ok x ->
  exists y, compress_cached c x = Ok y /\ aread (acompress o c) key = Ok y.
Proof.
  intros W L R. pose proof W as [D [_ M]]. pose proof R as R0. unfold aread in R |- *. cbn [acompress a_dump a_name a_mask].
  destruct (dumped (a_dump o) (a_name o) key) as [d|] eqn:E; [|discriminate].
  pose proof (convert_vec key d) as K.
  destruct (convert key d) as [q|l|n] eqn:X; [injection R as <-|injection R as <-|discriminate].
  - exists (DScalar q). split; reflexivity.
  - destruct d as [|l0|]; rewrite X in K; cbv iota in K; try contradiction. apply (dumped_vec _ _ _ _ _ D) in E. rewrite E in K.
    unfold count in L. destruct (a_mask o) as [| |b]; cbn [compress_cached rmap].
    + unfold bool_index. rewrite L, K, Nat.eqb_refl. exists (DVec (picked c l)). split; reflexivity.
    + destruct c; [|discriminate]. eexists. split; reflexivity.
    + unfold bool_index. rewrite picked_length by congruence. rewrite L, Nat.eqb_refl. cbn [rmap bind]. eexists. split; [reflexivity|].
      rewrite picked_refine by congruence. reflexivity.
Qed.
Lemma compress_caches o c l : awf o -> length c = count o -> (forall k x, In (k, x) l -> aread o k = Ok x) ->
  exists l', mapM (fun p => rmap (pair (fst p)) (compress_cached c (snd p))) l = Ok l' /\
    forall k x, In (k, x) l' -> aread (acompress o c) k = Ok x.
Proof.
  intros W L. induction l as [|[k x] l IH]; intros H; [exists []; split; [reflexivity|intros ? ? []]|].
  destruct IH as [l' [E I]]; [intros; apply H; now right|].
  destruct (compress_cached_ok o c k x W L) as [y [Y1 Y2]]; [apply H; now left|].
  exists ((k, y) :: l'). cbn [mapM fst snd]. rewrite Y1. cbn [rmap bind]. rewrite E. cbn. split; [reflexivity|].
  intros k' x' [P|P]; [injection P as <- <-; exact Y2|now apply I].
Qed.

Definition made (w : world) (r : res nat) (a : res aobj) : Prop :=
  match a, r with
  | Ok o, Ok j => exists s, nth_error (w_objs w) j = Some s /\ abs w s = o
  | Err e, Err e' => e' = e
  | _, _ => False
  end.
Lemma compress_bool_ok w i s v : winv w -> nth_error (w_objs w) i = Some s -> view_ok w v ->
  exists w' r, compress_bool i v w = (w', r) /\ winv w' /\ ext w w' /\
    made w' r (if (count (abs w s) =? v_len v)%nat then Ok (acompress (abs w s) (read_view w v)) else Err ValueError).
Proof.
  intros W H V. destruct (len_single_ok w i s W H) as [w1 [L [W1 E1]]].
  unfold compress_bool. rewrite (mbind_eq _ _ _ _ _ L).
  destruct (Nat.eqb_spec (count (abs w s)) (v_len v)) as [N|N]; cbn [negb].
  2:{ exists w1, (Err ValueError). split; [reflexivity|]. split; [exact W1|split; [exact E1|reflexivity]]. }
  destruct (ex_objs _ _ E1 i s H) as [s1 [H1 S1]].
  rewrite (mbind_eq _ _ _ _ _ (get_obj_eq _ _ _ H1)).
  assert (O : obj_ok w s) by (apply W; eapply nth_error_In; eauto).
  assert (O1 : obj_ok w1 s1) by (apply W1; eapply nth_error_In; eauto).
  pose proof (ex_bools _ _ E1) as B1.
  pose proof (abs_ext w w1 s s1 B1 O S1) as A1. pose proof (view_ok_ext w w1 v B1 V) as V1.
  pose proof (read_view_ext w w1 v B1 V) as RV. rewrite <- RV, <- A1. rewrite <- A1 in N.
  unfold get_view at 1. unfold mbind at 1.
  assert (C : exists w2 sl, (match s_sel s1 with
              | SNone => mret (SArr v)
              | SFalse => mret SFalse
              | SArr u => do! a := get_view u in do! k := new_bools (refine a (read_view w1 v)) in mret (SArr (mkview k 0 (length a)))
              end) w1 = (w2, Ok sl) /\ winv w2 /\ ext w1 w2 /\ w_objs w2 = w_objs w1 /\
              (forall u, sl = SArr u -> view_ok w2 u /\ v_len u = sizes (s_dump s1) (s_name s1)) /\
              a_mask (acompress (abs w1 s1) (read_view w1 v)) = match sl with SNone => AAll | SFalse => ANone | SArr u => ASome (read_view w2 u) end).
  { cbn [acompress abs a_mask]. destruct (s_sel s1) as [| |u] eqn:SS.
    - exists w1, (SArr v). split; [reflexivity|split; [exact W1|split; [apply ext_refl|split; [reflexivity|split; [|reflexivity]]]]].
      intros u [= <-]. split; [exact V1|]. rewrite <- N. unfold count. cbn [abs a_mask a_dump a_name]. now rewrite SS.
    - exists w1, SFalse. split; [reflexivity|split; [exact W1|split; [apply ext_refl|split; [reflexivity|split; [discriminate|reflexivity]]]]].
    - unfold get_view, mbind at 1. destruct (new_bools_ok w1 (refine (read_view w1 u) (read_view w1 v)) W1) as [w2 [P [W2 [E2 [Q1 [Q2 Q3]]]]]].
      rewrite (mbind_eq _ _ _ _ _ P). rewrite refine_length in Q2, Q3. exists w2. eexists. split; [reflexivity|].
      split; [exact W2|split; [exact E2|split; [exact Q1|split]]].
      + intros u' [= <-]. split; [exact Q3|]. cbn [v_len]. destruct (oo_view _ _ _ O1 u SS) as [U1 U2]. now rewrite read_view_length.
      + now rewrite Q2. }
  destruct C as [w2 [sl [C [W2 [E2 [P2 [VV MM]]]]]]]. rewrite (mbind_eq _ _ _ _ _ C).
  destruct (compress_caches (abs w1 s1) (read_view w1 v) (s_cache s1)) as [c [Q1 Q2]].
  { now apply abs_wf. } { rewrite read_view_length; auto. } { apply (oo_cache _ _ _ O1). }
  unfold mlift, mbind. rewrite Q1.
  assert (AA : abs w2 (mksingle (s_dump s1) (s_name s1) sl c) = acompress (abs w1 s1) (read_view w1 v)).
  { unfold abs at 1, acompress. cbn [s_dump s_name s_sel abs a_dump a_name]. f_equal. symmetry. exact MM. }
  destruct (new_obj_ok w2 (mksingle (s_dump s1) (s_name s1) sl c) W2) as [w3 [R1 [R2 [R3 [R4 R5]]]]].
  { split; cbn [s_dump s_name s_sel s_cache]; [apply (oo_dump _ _ _ O1)|apply (oo_name _ _ _ O1)|exact VV|].
    intros k x I. rewrite AA. now apply Q2. }
  exists w3. eexists. split; [exact R1|]. split; [exact R2|]. split; [eapply ext_trans; [eassumption|eapply ext_trans; eassumption]|].
  eexists. split; [exact R4|]. rewrite <- AA. unfold abs, read_view. now rewrite R5.
Qed.
End Facts.
