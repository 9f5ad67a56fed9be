(** Reductions of fields (C12). *)
From Coq Require Import Lia Lqa Permutation Sorted.
From Verif Require Import PyBase PyBaseFacts NumpyModel NumpyFacts AxisModel AxisSpec AxisFacts
  NdModel NdFacts FieldModel FieldSpec FieldInvFacts FieldNodedFacts FieldRearrFacts AxisInterpFacts.

(** * Positions that are kept *)
Lemma memb_existsb k p : memb k p = existsb (Nat.eqb k) p.
Proof. induction p as [|x p IH]; [reflexivity|]. cbn [memb existsb]. now rewrite IH, Nat.eqb_sym. Qed.
Lemma keep_from_at {A} (d : A) p (l : list A) : forall k,
  keep_from k p l = map (fun i => nth (i - k) l d) (filter (fun i => negb (existsb (Nat.eqb i) p)) (seq k (length l))).
Proof.
  induction l as [|x l IH]; intro k; [reflexivity|]. cbn [keep_from length seq filter]. rewrite memb_existsb.
  assert (E : map (fun i => nth (i - S k) l d) (filter (fun i => negb (existsb (Nat.eqb i) p)) (seq (S k) (length l)))
              = map (fun i => nth (i - k) (x :: l) d) (filter (fun i => negb (existsb (Nat.eqb i) p)) (seq (S k) (length l)))).
  { apply map_ext_in. intros i Hi. apply filter_In in Hi as [Hi _]. apply in_seq in Hi.
    replace (i - k)%nat with (S (i - S k)) by lia. reflexivity. }
  destruct (existsb _ _); cbn [negb]; [rewrite IH; exact E|].
  cbn [map]. rewrite Nat.sub_diag, IH, E. reflexivity.
Qed.
Lemma kept_at {A} (d : A) p (l : list A) : kept p l = entries_at d l (others (length l) p).
Proof.
  unfold kept, entries_at, others. rewrite (keep_from_at d). apply map_ext. intro i. now rewrite Nat.sub_0_r.
Qed.
Lemma keep_from_same {A} p q (l : list A) : (forall k, memb k p = memb k q) -> forall k, keep_from k p l = keep_from k q l.
Proof. intros H. induction l as [|x l IH]; intro k; [reflexivity|]. cbn [keep_from]. now rewrite H, IH. Qed.
Lemma memb_perm p q k : Permutation p q -> memb k p = memb k q.
Proof.
  intro H. destruct (memb k p) eqn:E1, (memb k q) eqn:E2; auto.
  - apply memb_In in E1. apply (Permutation_in _ H) in E1. apply memb_In in E1. congruence.
  - apply memb_In in E2. apply (Permutation_in _ (Permutation_sym H)) in E2. apply memb_In in E2. congruence.
Qed.
Lemma keep_from_max {A} (i : nat) p (l : list A) : (forall x, In x p -> (x < i)%nat) ->
  forall k, (k <= i)%nat -> keep_from k (i :: p) l = keep_from k p (del l (i - k)).
Proof.
  intro Hp. induction l as [|x l IH]; intros k Hk; [destruct (i - k)%nat; reflexivity|]. cbn [keep_from memb].
  destruct (Nat.eqb_spec i k) as [->|N]; cbn [orb].
  - rewrite Nat.sub_diag. cbn [del]. rewrite !keep_from_none; [reflexivity|..].
    + intros y Hy. apply Hp. exact Hy.
    + intros y [Hy|Hy]; [lia|]. specialize (Hp y Hy). lia.
  - replace (i - k)%nat with (S (i - S k)) by lia. cbn [del keep_from]. rewrite IH by lia. reflexivity.
Qed.

(** * Sorting *)
Lemma insert_Z_perm x l : Permutation (insert_Z x l) (x :: l).
Proof.
  induction l as [|y l IH]; [reflexivity|]. cbn [insert_Z]. destruct (_ <=? _)%Z; [reflexivity|].
  rewrite IH. apply perm_swap.
Qed.
Lemma sort_Z_perm l : Permutation (sort_Z l) l.
Proof. induction l as [|x l IH]; [reflexivity|]. cbn. rewrite insert_Z_perm. now rewrite IH. Qed.
Lemma insert_Z_sorted x l : StronglySorted Z.le l -> StronglySorted Z.le (insert_Z x l).
Proof.
  induction 1 as [|y l H IH Hy]; cbn [insert_Z]; [repeat constructor|].
  destruct (Z.leb_spec x y).
  - constructor; [now constructor|]. constructor; [lia|]. eapply Forall_impl; [|exact Hy]. intros; lia.
  - constructor; [exact IH|]. rewrite Forall_forall in *. intros z Hz.
    apply (Permutation_in _ (insert_Z_perm x l)) in Hz as [<-|Hz]; [lia|now apply Hy].
Qed.
Lemma sort_Z_sorted l : StronglySorted Z.le (sort_Z l).
Proof. induction l as [|x l IH]; [constructor|]. cbn. now apply insert_Z_sorted. Qed.
Lemma sorted_desc l : NoDup l -> StronglySorted Z.le l -> StronglySorted Z.gt (rev l).
Proof.
  intros N S. induction S as [|x l S IH Hx]; [constructor|]. inversion N as [|? ? Nx N']; subst. specialize (IH N').
  cbn [rev]. clear S N N'. assert (Hr : Forall (fun y => y > x)%Z (rev l)).
  { rewrite Forall_forall in *. intros y Hy. apply in_rev in Hy. specialize (Hx y Hy).
    assert (x <> y) by (intros ->; contradiction). lia. }
  induction IH as [|y r IHs IHr Hy]; cbn [app]; [repeat constructor|]. inversion Hr; subst. constructor; auto.
  apply Forall_app. split; [exact Hy|]. repeat constructor. lia.
Qed.
Lemma dedup_nodup l : NoDup (dedup_Z l).
Proof.
  induction l as [|x l IH]; [constructor|]. cbn [dedup_Z]. destruct (mem_Z x l) eqn:E; [exact IH|]. constructor; [|exact IH].
  intro H. assert (forall m, In x (dedup_Z m) -> mem_Z x m = true).
  { clear. induction m as [|y m IH]; [intros []|]. cbn [dedup_Z mem_Z]. destruct (mem_Z y m) eqn:E.
    - intro H. rewrite IH by exact H. apply orb_true_r.
    - intros [->|H]; [now rewrite Z.eqb_refl|]. rewrite IH by exact H. apply orb_true_r. }
  apply H0 in H. congruence.
Qed.
Lemma mem_Z_In x l : mem_Z x l = true <-> In x l.
Proof.
  induction l as [|y l IH]; cbn [mem_Z In]; [split; [discriminate|tauto]|].
  rewrite orb_true_iff, Z.eqb_eq, IH. split; intros [H|H]; auto.
Qed.
Lemma dedup_In x l : In x (dedup_Z l) <-> In x l.
Proof.
  induction l as [|y l IH]; [reflexivity|]. cbn [dedup_Z]. destruct (mem_Z y l) eqn:E.
  - rewrite IH. cbn [In]. split; [auto|]. intros [<-|H]; [now apply mem_Z_In|exact H].
  - cbn [In]. now rewrite IH.
Qed.
Lemma dedup_id l : NoDup l -> dedup_Z l = l.
Proof.
  induction 1 as [|x l N H IH]; [reflexivity|]. cbn [dedup_Z]. destruct (mem_Z x l) eqn:E.
  - apply mem_Z_In in E. contradiction.
  - now rewrite IH.
Qed.

(** * Deleting in descending order *)
Lemma del_all_desc {A} order : forall (l : list A), StronglySorted Z.gt order ->
  (forall i, In i order -> (0 <= i < Z.of_nat (length l))%Z) -> del_all l order = Ok (kept (map Z.to_nat order) l).
Proof.
  induction order as [|i order IH]; intros l S Hb.
  { cbn [del_all map]. unfold kept. now rewrite keep_from_none by (intros x []). }
  inversion S as [|? ? S' Hi]; subst. cbn [del_all map]. assert (Hi0 := Hb i (or_introl eq_refl)).
  assert (E : delidx l i = Ok (del l (Z.to_nat i))).
  { apply delidx_ok. exists (Z.to_nat i). split; [|reflexivity]. apply py_pos_ok. lia. }
  rewrite E. cbn [bind]. rewrite Forall_forall in Hi. rewrite IH; [|exact S'|].
  - f_equal. unfold kept. rewrite (keep_from_max (Z.to_nat i)); [now rewrite Nat.sub_0_r| |lia].
    intros x Hx. apply in_map_iff in Hx as (j & <- & Hj). specialize (Hi j Hj). specialize (Hb j (or_intror Hj)). lia.
  - intros j Hj. specialize (Hi j Hj). specialize (Hb j (or_intror Hj)). rewrite del_length by lia. lia.
Qed.
Lemma del_all_set {A} is (l : list A) : NoDup is -> (forall i, In i is -> (0 <= i < Z.of_nat (length l))%Z) ->
  del_all l (rev (sort_Z is)) = Ok (kept (map Z.to_nat is) l).
Proof.
  intros N Hb. pose proof (sort_Z_perm is) as P. rewrite del_all_desc.
  - f_equal. unfold kept. apply keep_from_same. intro k. apply memb_perm. apply Permutation_map.
    rewrite <- Permutation_rev. exact P.
  - apply sorted_desc; [apply (Permutation_NoDup (Permutation_sym P) N)|apply sort_Z_sorted].
  - intros i Hi. apply in_rev in Hi. apply (Permutation_in _ P) in Hi. now apply Hb.
Qed.
Lemma positions_nonneg n l p : Forall (fun i => (0 <= i)%Z) l -> mapM (py_pos n) l = Ok p -> p = map Z.to_nat l /\
  forall i, In i l -> (0 <= i < Z.of_nat n)%Z.
Proof.
  intro H. revert p. induction H as [|i l Hi H IH]; intros p E; cbn [mapM] in E; [injection E as <-; split; [reflexivity|intros i []]|].
  apply bind_ok in E as (k & Hk & E). apply bind_ok in E as (q & Hq & E). injection E as <-.
  destruct (IH q Hq) as [-> Hb]. apply py_pos_ok in Hk. destruct Hk as [Hk Hk'].
  split; [cbn [map]; f_equal; lia|]. intros j [<-|Hj]; [lia|now apply Hb].
Qed.
Lemma NoDup_map_inv_Z (l : list Z) : NoDup (map Z.to_nat l) -> NoDup l.
Proof. apply NoDup_map_inv. Qed.
(** the axis numbers given for positions p *)
Lemma plain_axes_del n ax p d : plain_axes ax -> axisarg_positions n ax = Ok p -> (ax = AxNone -> d = Z.of_nat n) ->
  (forall A (l : list A), length l = n -> del_all l (rev (sort_Z (axisiter d ax))) = Ok (kept p l)) /\
  NoDup p /\ (forall k, In k p -> (k < n)%nat).
Proof.
  intros Hp H Hd. destruct ax as [|i|t]; cbn [axisarg_positions axisiter] in *.
  - injection H as <-. rewrite (Hd eq_refl), Nat2Z.id. split; [|split; [apply seq_NoDup|intros k Hk; apply in_seq in Hk; lia]].
    intros A l L. rewrite del_all_set.
    + f_equal. f_equal. unfold zlist. rewrite map_map. erewrite map_ext; [apply map_id|]. intro. apply Nat2Z.id.
    + unfold zlist. apply FinFun.Injective_map_NoDup; [|apply seq_NoDup]. intros x y E. lia.
    + intros i Hi. unfold zlist in Hi. apply in_map_iff in Hi as (k & <- & Hk). apply in_seq in Hk. lia.
  - cbn [mapM] in H. apply bind_ok in H as (k & Hk & H). injection H as <-.
    split; [|split; [repeat constructor; intros []|]].
    + intros A l L. cbn [sort_Z fold_right insert_Z rev app del_all].
      assert (E : delidx l i = Ok (del l k)) by (apply delidx_ok; exists k; rewrite L; auto).
      rewrite E. cbn [bind]. now rewrite kept_one.
    + intros j [<-|[]]. apply py_pos_ok in Hk. tauto.
  - apply bind_ok in H as (q & Hq & H). destruct (nodupb q) eqn:E; [|discriminate]. injection H as <-.
    apply nodupb_NoDup in E. destruct Hp as [Hp|Hp].
    + destruct (positions_nonneg n t q Hp Hq) as [-> Hb]. pose proof (NoDup_map_inv_Z _ E) as N.
      split; [|split; [exact E|]].
      * intros A l L. apply del_all_set; [exact N|]. now rewrite L.
      * intros k Hk. apply in_map_iff in Hk as (i & <- & Hi). specialize (Hb i Hi). lia.
    + destruct t as [|i [|]]; [injection Hq as <-| |cbn in Hp; lia].
      * split; [|split; [constructor|intros k []]]. intros A l L. cbn. unfold kept. now rewrite keep_from_none by (intros x []).
      * cbn [mapM] in Hq. apply bind_ok in Hq as (k & Hk & Hq). injection Hq as <-.
        split; [|split; [exact E|]].
        -- intros A l L. cbn [sort_Z fold_right insert_Z rev app del_all].
           assert (E' : delidx l i = Ok (del l k)) by (apply delidx_ok; exists k; rewrite L; auto).
           rewrite E'. cbn [bind]. now rewrite kept_one.
        -- intros j [<-|[]]. apply py_pos_ok in Hk. tauto.
Qed.

(** * The reduced samples *)
Lemma zrange_In n i : In i (zrange n) <-> (0 <= i < n)%Z.
Proof.
  unfold zrange. rewrite in_map_iff. split.
  - intros (k & <- & Hk). apply in_seq in Hk. lia.
  - intro H. exists (Z.to_nat i). split; [lia|]. apply in_seq. lia.
Qed.
Lemma zrange_NoDup n : NoDup (zrange n).
Proof. apply FinFun.Injective_map_NoDup; [|apply seq_NoDup]. intros x y E. lia. Qed.
Lemma all_idx_In sh : forall idx, In idx (all_idx sh) <-> in_shape sh idx = true.
Proof.
  induction sh as [|n sh IH]; intro idx; cbn [all_idx].
  - split; [intros [<-|[]]; reflexivity|]. destruct idx; [now left|discriminate].
  - rewrite in_flat_map. split.
    + intros (i & Hi & H). apply in_map_iff in H as (j & <- & Hj). apply IH in Hj. apply zrange_In in Hi.
      cbn [in_shape]. rewrite Hj. apply andb_true_iff. split; [|reflexivity]. apply andb_true_iff. split; [apply Z.leb_le|apply Z.ltb_lt]; lia.
    + destruct idx as [|i idx]; [discriminate|]. cbn [in_shape]. intro H. apply andb_true_iff in H as [H H'].
      apply andb_true_iff in H as [H1 H2]. apply Z.leb_le in H1. apply Z.ltb_lt in H2.
      exists i. split; [apply zrange_In; lia|]. apply in_map. now apply IH.
Qed.
Lemma NoDup_app_intro {A} (l m : list A) : NoDup l -> NoDup m -> (forall x, In x l -> ~ In x m) -> NoDup (l ++ m).
Proof.
  induction 1 as [|x l Hx Hl IH]; intros Hm H; [exact Hm|]. cbn [app]. constructor.
  - intro Hi. apply in_app_or in Hi as [Hi|Hi]; [contradiction|]. apply (H x); [now left|exact Hi].
  - apply IH; [exact Hm|]. intros y Hy. apply H. now right.
Qed.
Lemma NoDup_flat_map_cons {A} (is : list A) (ls : list (list A)) : NoDup is -> NoDup ls ->
  NoDup (flat_map (fun i => map (cons i) ls) is).
Proof.
  intros H Hl. induction H as [|i is Hi H IH]; [constructor|]. cbn [flat_map]. apply NoDup_app_intro.
  - apply FinFun.Injective_map_NoDup; [|exact Hl]. intros x y E. now injection E.
  - exact IH.
  - intros x Hx Hx'. apply in_map_iff in Hx as (y & <- & _). apply in_flat_map in Hx' as (j & Hj & Hy).
    apply in_map_iff in Hy as (z & E & _). injection E as -> _. contradiction.
Qed.
Lemma all_idx_NoDup sh : NoDup (all_idx sh).
Proof.
  induction sh as [|n sh IH]; [repeat constructor; intros []|]. cbn [all_idx]. apply NoDup_flat_map_cons; [apply zrange_NoDup|exact IH].
Qed.
Lemma flat_map_map {A B C} (f : B -> C) (g : A -> list B) l : map f (flat_map g l) = flat_map (fun x => map f (g x)) l.
Proof. induction l as [|x l IH]; [reflexivity|]. cbn [flat_map]. now rewrite map_app, IH. Qed.
Lemma filter_flat_map {A B} (f : B -> bool) (g : A -> list B) l : filter f (flat_map g l) = flat_map (fun x => filter f (g x)) l.
Proof. induction l as [|x l IH]; [reflexivity|]. cbn [flat_map]. now rewrite filter_app, IH. Qed.
Lemma filter_map_comm {A B} (f : B -> bool) (g : A -> B) l : filter f (map g l) = map g (filter (fun x => f (g x)) l).
Proof. induction l as [|x l IH]; [reflexivity|]. cbn [map filter]. destruct (f (g x)); cbn [map]; now rewrite IH. Qed.
Lemma flat_map_single {A B} (g : A -> list B) (l : list A) x : NoDup l -> In x l ->
  (forall y, In y l -> y <> x -> g y = []) -> flat_map g l = g x.
Proof.
  intros N. induction N as [|y l Hy N IH]; intros Hx H; [destruct Hx|]. cbn [flat_map]. destruct Hx as [->|Hx].
  - assert (E : flat_map g l = []).
    { clear - Hy H. assert (G : forall z, In z l -> g z = []) by (intros z Hz; apply H; [now right|intros ->; contradiction]).
      clear - G. induction l as [|z l IH']; [reflexivity|]. cbn [flat_map]. rewrite G by (now left). cbn [app]. apply IH'.
      intros w Hw. apply G. now right. }
    rewrite E. apply app_nil_r.
  - rewrite H; [|now left|intros ->; contradiction]. cbn. apply IH; [exact Hx|]. intros z Hz. apply H. now right.
Qed.
Lemma flat_map_ext_in' {A B} (f g : A -> list B) l : (forall x, In x l -> f x = g x) -> flat_map f l = flat_map g l.
Proof.
  induction l as [|x l IH]; intro H; [reflexivity|]. cbn [flat_map]. rewrite H by (now left). f_equal. apply IH.
  intros y Hy. apply H. now right.
Qed.
Lemma merge_filter p sh : forall k idx, in_shape (keep_from k p sh) idx = true ->
  map (fun r => merge_from (length sh) k p idx r) (all_idx (drop_from k p sh)) =
  filter (fun j => idx_eqb (keep_from k p j) idx) (all_idx sh).
Proof.
  induction sh as [|n sh IH]; intros k idx H.
  { cbn [keep_from] in H. destruct idx; [reflexivity|discriminate]. }
  cbn [keep_from drop_from all_idx length] in *. rewrite filter_flat_map. destruct (memb k p) eqn:E.
  - cbn [all_idx]. rewrite flat_map_map. apply flat_map_ext_in'. intros i _. rewrite map_map, filter_map_comm.
    cbn [keep_from merge_from]. rewrite E. rewrite <- IH by exact H. now rewrite map_map.
  - destruct idx as [|x idx]; [discriminate|]. cbn [in_shape] in H. apply andb_true_iff in H as [Hx H].
    apply andb_true_iff in Hx as [H1 H2]. apply Z.leb_le in H1. apply Z.ltb_lt in H2.
    rewrite (flat_map_single _ _ x); [|apply zrange_NoDup|apply zrange_In; lia|].
    + rewrite filter_map_comm. cbn [keep_from merge_from]. rewrite E. cbn [idx_eqb]. rewrite Z.eqb_refl. cbn [andb].
      rewrite <- IH by exact H. now rewrite map_map.
    + intros y Hy Ny. rewrite filter_map_comm. cbn [keep_from]. rewrite E. cbn [idx_eqb].
      destruct (Z.eqb_spec y x); [contradiction|]. cbn [andb].
      assert (F : forall m : list (list Z), filter (fun _ => false) m = []) by (induction m; auto).
      now rewrite F.
Qed.
Lemma nd_reduce_fibre {V} (red : list V -> V) p (a : nda V) idx : in_shape (a_shape (nd_reduce red p a)) idx = true ->
  exists js, lists_fibre (a_shape a) p idx js /\ a_at (nd_reduce red p a) idx = red (map (a_at a) js).
Proof.
  intro H. cbn [nd_reduce a_shape] in H. exists (filter (fun j => idx_eqb (kept p j) idx) (all_idx (a_shape a))). split.
  - split; [apply NoDup_filter, all_idx_NoDup|]. intro j. rewrite filter_In, all_idx_In, idx_eqb_eq.
    split; intros [H1 H2]; (split; [exact H1|]); apply in_shape_length in H1; rewrite (kept_at 0%Z), H1 in *; exact H2.
  - cbn [nd_reduce a_at]. f_equal. unfold merge_idx, reduced, kept. rewrite <- (merge_filter p _ 0%nat idx H). now rewrite map_map.
Qed.

(** * Fields *)
Lemma init_axes_total sh : forall axes i, (0 <= i)%Z -> (i + Z.of_nat (length axes) <= 3)%Z ->
  (forall k ax, nth_error axes k = Some ax -> nth_error sh (Z.to_nat i + k) = Some (ax_len ax)) ->
  init_axes sh i (map Some axes) = Ok axes.
Proof.
  induction axes as [|ax axes IH]; intros i Hi H3 H; [reflexivity|]. cbn [map init_axes length] in *.
  assert (axesidentify i = Ok i) as -> by (unfold axesidentify; assert (i = 0 \/ i = 1 \/ i = 2)%Z as [->|[->| ->]] by lia; reflexivity).
  cbn [bind]. rewrite Z.mod_small by lia. pose proof (H 0%nat ax eq_refl) as H0. rewrite Nat.add_0_r in H0.
  assert (getidx sh i = Ok (ax_len ax)) as ->.
  { apply getidx_some. exists (Z.to_nat i). split; [|exact H0]. apply py_pos_ok. apply nth_error_lt in H0. lia. }
  cbn [bind]. rewrite Z.eqb_refl. rewrite IH; [reflexivity|lia|lia|].
  intros k ax' E. specialize (H (S k) ax' E). now replace (Z.to_nat (i + 1) + k)%nat with (Z.to_nat i + S k)%nat by lia.
Qed.
Lemma field_of_total {V} (a : nda V) nm un axes ats tao : map ax_len axes = a_shape a -> (length axes <= 3)%nat ->
  field_of a nm un (map Some axes) ats tao = Ok (mkField a (mkLayer axes ats tao nm un) []).
Proof.
  intros H L. unfold field_of. rewrite map_length. rewrite <- H, map_length. rewrite Nat.ltb_irrefl.
  rewrite init_axes_total; [reflexivity|lia|lia|]. intros k ax E. cbn. now rewrite nth_error_map, E.
Qed.
Lemma map_entries_at {A B} (f : A -> B) d l is : map f (entries_at d l is) = entries_at (f d) (map f l) is.
Proof. unfold entries_at. rewrite map_map. apply map_ext. intro i. now rewrite map_nth. Qed.
Lemma entries_at_indep {A} (d d' : A) l is : (forall i, In i is -> (i < length l)%nat) -> entries_at d l is = entries_at d' l is.
Proof. intro H. apply map_ext_in. intros i Hi. apply nth_indep. now apply H. Qed.
Lemma others_lt n p i : In i (others n p) -> (i < n)%nat.
Proof. intro H. apply filter_In in H as [H _]. apply in_seq in H. lia. Qed.
Lemma others_length n p : (length (others n p) <= n)%nat.
Proof.
  unfold others. rewrite <- (seq_length n 0) at 2. generalize (seq 0 n) as l. induction l as [|x l IH]; [cbn; lia|].
  cbn [filter]. destruct (negb _); cbn [length]; lia.
Qed.
Lemma reduce_total {V} spl (red : list V -> V) (f : field V) ax p : consistent f -> (length (f_shape f) <= 3)%nat ->
  plain_axes ax -> axisarg_positions (length (f_shape f)) ax = Ok p -> (ax = AxNone -> nonempty (f_shape f)) ->
  field_reduce spl red f ax false =
  Ok (mkField (nd_reduce red p (f_data f))
       (mkLayer (kept p (f_axes f)) (kept p (f_ats f)) (kept p (f_tao f)) (l_name (f_top f)) (l_unit (f_top f))) []).
Proof.
  intros Hc H3 Hp Hpos Hn. pose proof (consistent_map f Hc) as M. destruct Hc as (La & _ & L1 & L2).
  destruct (plain_axes_del _ ax p (dims (f_shape f)) Hp Hpos) as [D _].
  { intro E. now rewrite nonempty_dims by (now apply Hn). }
  unfold field_reduce. change (l_axes (f_top f)) with (f_axes f). change (l_ats (f_top f)) with (f_ats f).
  change (l_tao (f_top f)) with (f_tao f).
  rewrite (D _ _ La), (D _ _ L2), (D _ _ L1). cbn [bind].
  unfold np_reduce. change (length (a_shape (f_data f))) with (length (f_shape f)). rewrite Hpos. cbn [bind].
  apply field_of_total.
  - cbn [nd_reduce a_shape]. change (a_shape (f_data f)) with (f_shape f). rewrite <- M.
    rewrite (kept_at axis0 p (f_axes f)), (kept_at (ax_len axis0) p (map ax_len _)). rewrite map_entries_at, map_length. reflexivity.
  - rewrite (kept_at axis0). unfold entries_at. rewrite map_length. pose proof (others_length (length (f_axes f)) p). lia.
Qed.
Lemma reduce_drops {V} spl (red : list V -> V) (f : field V) ax p : consistent f -> (length (f_shape f) <= 3)%nat ->
  plain_axes ax -> axisarg_positions (length (f_shape f)) ax = Ok p -> (ax = AxNone -> nonempty (f_shape f)) ->
  let keep := others (length (f_shape f)) p in
  exists g, field_reduce spl red f ax false = Ok g /\
    f_shape g = entries_at 0%Z (f_shape f) keep /\ f_axes g = entries_at axis0 (f_axes f) keep /\
    f_ats g = entries_at None (f_ats f) keep /\ f_tao g = entries_at None (f_tao f) keep /\
    l_name (f_top g) = l_name (f_top f) /\ l_unit (f_top g) = l_unit (f_top f) /\
    forall idx, in_shape (f_shape g) idx = true ->
      exists js, lists_fibre (f_shape f) p idx js /\ a_at (f_data g) idx = red (map (a_at (f_data f)) js).
Proof.
  intros Hc H3 Hp Hpos Hn keep. eexists. split; [exact (reduce_total spl red f ax p Hc H3 Hp Hpos Hn)|]. destruct Hc as (La & _ & L1 & L2).
  unfold f_shape at 1, f_axes at 1, f_ats at 1, f_tao at 1. cbn [f_data f_top l_axes l_ats l_tao l_name l_unit nd_reduce a_shape].
  subst keep. split; [apply (kept_at 0%Z)|]. rewrite <- La at 1. split; [apply kept_at|]. rewrite <- L1 at 1. split; [apply kept_at|].
  rewrite <- L2 at 1. split; [apply kept_at|]. split; [reflexivity|]. split; [reflexivity|].
  intros idx Hi. exact (nd_reduce_fibre red p (f_data f) idx Hi).
Qed.
Lemma sorted_set_iter n ax p d : plain_axes ax -> axisarg_positions n ax = Ok p -> (ax = AxNone -> d = Z.of_nat n) ->
  sorted_set (axisiter d ax) = sort_Z (axisiter d ax).
Proof.
  intros Hp H Hd. unfold sorted_set. rewrite dedup_id; [reflexivity|]. destruct ax as [|i|t]; cbn [axisiter axisarg_positions] in *.
  - apply FinFun.Injective_map_NoDup; [|apply seq_NoDup]. intros x y E. lia.
  - repeat constructor. intros [].
  - apply bind_ok in H as (q & Hq & H). destruct (nodupb q) eqn:E; [|discriminate]. apply nodupb_NoDup in E.
    destruct Hp as [Hp|Hp].
    + destruct (positions_nonneg n t q Hp Hq) as [-> _]. now apply NoDup_map_inv_Z.
    + destruct t as [|x [|]]; [constructor|repeat constructor; intros []|cbn in Hp; lia].
Qed.
Lemma ufunc_reduce_same {V} spl (red : list V -> V) (f : field V) ax p : consistent f -> (length (f_shape f) <= 3)%nat ->
  plain_axes ax -> axisarg_positions (length (f_shape f)) ax = Ok p -> (ax = AxNone -> nonempty (f_shape f)) ->
  field_ufunc_reduce red f ax = field_reduce spl red f ax false.
Proof.
  intros Hc H3 Hp Hpos Hn. rewrite (reduce_total spl red f ax p) by assumption.
  pose proof (consistent_map f Hc) as M. destruct Hc as (La & _ & L1 & L2).
  destruct (plain_axes_del _ ax p (Z.of_nat (length (f_shape f))) Hp Hpos ltac:(reflexivity)) as [D _].
  pose proof (sorted_set_iter _ ax p (Z.of_nat (length (f_shape f))) Hp Hpos ltac:(reflexivity)) as S.
  unfold field_ufunc_reduce. change (l_axes (f_top f)) with (f_axes f). change (l_ats (f_top f)) with (f_ats f).
  change (l_tao (f_top f)) with (f_tao f).
  assert (match ax with AxNone => zlist (length (f_axes f)) | AxInt i => [i] | AxTuple t => t end
          = axisiter (Z.of_nat (length (f_shape f))) ax) as ->.
  { destruct ax; cbn [axisiter]; [|reflexivity..]. now rewrite Nat2Z.id, La. }
  rewrite S. rewrite (D _ _ La), (D _ _ L2), (D _ _ L1). cbn [bind].
  unfold np_reduce. change (length (a_shape (f_data f))) with (length (f_shape f)). rewrite Hpos. cbn [bind].
  apply field_of_total.
  - cbn [nd_reduce a_shape]. change (a_shape (f_data f)) with (f_shape f). rewrite <- M.
    rewrite (kept_at axis0 p (f_axes f)), (kept_at (ax_len axis0) p (map ax_len _)). rewrite map_entries_at, map_length. reflexivity.
  - rewrite (kept_at axis0). unfold entries_at. rewrite map_length. pose proof (others_length (length (f_axes f)) p). lia.
Qed.

(** * keepdims *)
Lemma one_cell_total spl ax : exists ax',
  mk_axis spl (ax_name ax) (ax_unit ax) None None (Some (ax_extent ax)) (Some 1%Z) = Ok ax' /\ one_cell ax ax'.
Proof.
  destruct (ax_extent ax) as [a b] eqn:E.
  destruct (mk_axis_extent_uniform chord_spline (ax_name ax) (ax_unit ax) a b 1 chord_spline_lines ltac:(lia))
    as (ax' & H & U & Hn & Hu).
  exists ax'. split; [exact H|]. unfold one_cell. rewrite E. auto.
Qed.
Lemma shrink_axes_total spl is : forall axes p, mapM (py_pos (length axes)) is = Ok p -> NoDup p ->
  exists axes', shrink_axes spl axes is = Ok axes' /\ length axes' = length axes /\
    forall k ax, nth_error axes k = Some ax ->
      if memb k p then exists ax', nth_error axes' k = Some ax' /\ one_cell ax ax' else nth_error axes' k = Some ax.
Proof.
  induction is as [|i is IH]; intros axes p Hm Hn; cbn [mapM] in Hm.
  - injection Hm as <-. exists axes. split; [reflexivity|]. split; [reflexivity|]. intros k ax H. exact H.
  - apply bind_ok in Hm as (k0 & Hk0 & Hm). apply bind_ok in Hm as (p' & Hp' & Hm). injection Hm as <-.
    inversion Hn as [|? ? N0 Hn']; subst. pose proof Hk0 as Hlt. apply py_pos_ok in Hlt as [Hlt _].
    destruct (nth_error axes k0) as [ax0|] eqn:E0; [|apply nth_error_None in E0; lia].
    cbn [shrink_axes]. assert (getidx axes i = Ok ax0) as -> by (apply getidx_some; eauto). cbn [bind].
    destruct (one_cell_total spl ax0) as (ax0' & -> & Hone). cbn [bind].
    assert (setidx axes i ax0' = Ok (upd axes k0 ax0')) as -> by (apply setidx_ok; eauto). cbn [bind].
    destruct (IH (upd axes k0 ax0') p') as (axes' & E & L & H); [now rewrite upd_length|exact Hn'|].
    exists axes'. split; [exact E|]. rewrite upd_length in L. split; [exact L|]. intros k ax Hk. cbn [memb].
    destruct (Nat.eqb_spec k0 k) as [<-|Nk]; cbn [orb].
    + rewrite E0 in Hk. injection Hk as <-. specialize (H k0 ax0').
      rewrite nth_error_upd in H. destruct (Nat.eqb_spec k0 k0) as [_|]; [|contradiction].
      assert (memb k0 p' = false) as M.
      { destruct (memb k0 p') eqn:M; [|reflexivity]. apply memb_In in M. contradiction. }
      rewrite M in H. exists ax0'. split; [|exact Hone]. apply H. now destruct (Nat.ltb_spec k0 (length axes)); [|lia].
    + apply H. rewrite nth_error_upd. destruct (Nat.eqb_spec k k0) as [|_]; [congruence|exact Hk].
Qed.

Lemma ones_from_nth {A} (one : A) p l : forall k j, nth_error (ones_from one k p l) j =
  match nth_error l j with Some x => Some (if memb (k + j) p then one else x) | None => None end.
Proof.
  induction l as [|x l IH]; intros k j; cbn [ones_from]; [destruct j; reflexivity|]. destruct j as [|j]; cbn [nth_error].
  - now rewrite Nat.add_0_r.
  - rewrite IH. now replace (S k + j)%nat with (k + S j)%nat by lia.
Qed.
Lemma ones_from_length {A} (one : A) p l : forall k, length (ones_from one k p l) = length l.
Proof. induction l as [|x l IH]; intro k; [reflexivity|]. cbn. now rewrite IH. Qed.
Lemma list_nth_error_ext {A} (l m : list A) : (forall k, nth_error l k = nth_error m k) -> l = m.
Proof.
  revert m. induction l as [|x l IH]; intros [|y m] H; [reflexivity|specialize (H 0%nat); discriminate..|].
  pose proof (H 0%nat) as H0. injection H0 as ->. f_equal. apply IH. intro k. exact (H (S k)).
Qed.
Lemma in_shape_kept_from p sh : forall k idx, in_shape (ones_from 1%Z k p sh) idx = true -> in_shape (keep_from k p sh) (keep_from k p idx) = true.
Proof.
  induction sh as [|n sh IH]; intros k [|i idx] H; try discriminate; [reflexivity|]. cbn [ones_from in_shape keep_from] in *.
  apply andb_true_iff in H as [H1 H]. destruct (memb k p); [now apply IH|]. cbn [in_shape]. rewrite H1. now apply IH.
Qed.
Lemma one_cell_len ax ax' : one_cell ax ax' -> ax_len ax' = 1%Z.
Proof. intros ((_ & _ & H & _) & _). exact H. Qed.
Lemma reduce_keepdims {V} spl (red : list V -> V) (f : field V) ax p : consistent f -> (length (f_shape f) <= 3)%nat ->
  axisarg_positions (length (f_shape f)) ax = Ok p -> (ax = AxNone -> nonempty (f_shape f)) ->
  exists g, field_reduce spl red f ax true = Ok g /\
    length (f_shape g) = length (f_shape f) /\ length (f_axes g) = length (f_shape f) /\
    (forall k, (k < length (f_shape f))%nat -> ~ In k p ->
       nth k (f_shape g) 0%Z = nth k (f_shape f) 0%Z /\ nth_error (f_axes g) k = nth_error (f_axes f) k) /\
    (forall k, (k < length (f_shape f))%nat -> In k p ->
       nth k (f_shape g) 0%Z = 1%Z /\ one_cell (nth k (f_axes f) axis0) (nth k (f_axes g) axis0)) /\
    f_ats g = f_ats f /\ f_tao g = f_tao f /\
    l_name (f_top g) = l_name (f_top f) /\ l_unit (f_top g) = l_unit (f_top f) /\
    forall idx, in_shape (f_shape g) idx = true ->
      exists js, lists_fibre (f_shape f) p (entries_at 0%Z idx (others (length (f_shape f)) p)) js /\
                 a_at (f_data g) idx = red (map (a_at (f_data f)) js).
Proof.
  intros Hc H3 Hpos Hn. pose proof (consistent_map f Hc) as M. destruct Hc as (La & _ & L1 & L2).
  set (n := length (f_shape f)) in *.
  assert (Hit : mapM (py_pos n) (axisiter (dims (f_shape f)) ax) = Ok p /\ NoDup p).
  { destruct ax as [|i|t]; cbn [axisiter axisarg_positions] in *.
    - injection Hpos as <-. rewrite nonempty_dims by (now apply Hn). rewrite Nat2Z.id. fold n. split; [|apply seq_NoDup].
      apply mapM_py_pos_nat. intros k Hk. apply in_seq in Hk. lia.
    - split; [exact Hpos|]. cbn [mapM] in Hpos. apply bind_ok in Hpos as (k & _ & Hpos). injection Hpos as <-. repeat constructor. intros [].
    - apply bind_ok in Hpos as (q & Hq & Hpos). destruct (nodupb q) eqn:E; [|discriminate]. injection Hpos as <-.
      split; [exact Hq|now apply nodupb_NoDup]. }
  destruct Hit as [Hit Hnd]. rewrite <- La in Hit.
  destruct (shrink_axes_total spl _ (f_axes f) p Hit Hnd) as (axes' & E & L & H).
  assert (Hlen : map ax_len axes' = ones_from 1%Z 0 p (f_shape f)).
  { apply list_nth_error_ext. intro k. rewrite nth_error_map, ones_from_nth, <- M, nth_error_map. cbn [Nat.add].
    destruct (nth_error (f_axes f) k) as [ax0|] eqn:Ek; cbn [option_map].
    - specialize (H k ax0 Ek). destruct (memb k p).
      + destruct H as (ax' & -> & Hone). cbn. f_equal. now apply one_cell_len in Hone.
      + now rewrite H.
    - apply nth_error_None in Ek. rewrite (proj2 (nth_error_None axes' k)) by lia. reflexivity. }
  exists (mkField (mkarr (ones_from 1%Z 0 p (f_shape f)) (fun idx => a_at (nd_reduce red p (f_data f)) (kept p idx)))
                  (mkLayer axes' (f_ats f) (f_tao f) (l_name (f_top f)) (l_unit (f_top f))) []).
  split.
  { unfold field_reduce. change (l_axes (f_top f)) with (f_axes f). rewrite E. cbn [bind].
    unfold np_reduce. change (length (a_shape (f_data f))) with n. rewrite Hpos. cbn [bind].
    apply field_of_total; [exact Hlen|lia]. }
  unfold f_shape at 1 3 6 9, f_axes at 1 2 5, f_ats at 1, f_tao at 1. cbn [f_data f_top l_axes l_ats l_tao l_name l_unit a_shape].
  split; [now rewrite ones_from_length|]. split; [lia|].
  assert (Hsh : forall k, (k < n)%nat -> nth k (ones_from 1%Z 0 p (f_shape f)) 0%Z = if memb k p then 1%Z else nth k (f_shape f) 0%Z).
  { intros k Hk. apply nth_error_nth. rewrite ones_from_nth. rewrite (nth_error_nth' _ 0%Z) by exact Hk. reflexivity. }
  split; [|split; [|split; [reflexivity|split; [reflexivity|split; [reflexivity|split; [reflexivity|]]]]]].
  - intros k Hk Nk. assert (memb k p = false) as Mk.
    { destruct (memb k p) eqn:Mk; [|reflexivity]. apply memb_In in Mk. contradiction. }
    rewrite Hsh, Mk by exact Hk. split; [reflexivity|].
    destruct (nth_error (f_axes f) k) as [ax0|] eqn:Ek; [|apply nth_error_None in Ek; lia].
    specialize (H k ax0 Ek). rewrite Mk in H. exact H.
  - intros k Hk Ik. apply memb_In in Ik. rewrite Hsh, Ik by exact Hk. split; [reflexivity|].
    destruct (nth_error (f_axes f) k) as [ax0|] eqn:Ek; [|apply nth_error_None in Ek; lia].
    specialize (H k ax0 Ek). rewrite Ik in H. destruct H as (ax' & E' & Hone).
    rewrite (nth_error_nth _ _ axis0 Ek), (nth_error_nth _ _ axis0 E'). exact Hone.
  - intros idx Hi. unfold f_shape at 1 in Hi. cbn [f_data a_shape] in Hi. pose proof (in_shape_length _ _ Hi) as Li.
    rewrite ones_from_length in Li. fold n in Li.
    apply in_shape_kept_from in Hi. destruct (nd_reduce_fibre red p (f_data f) (kept p idx) Hi) as (js & F & V').
    exists js. split; [|exact V']. rewrite (kept_at 0%Z), Li in F. exact F.
Qed.
