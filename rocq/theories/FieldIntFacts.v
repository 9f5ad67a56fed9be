(** Integration of fields (C14). *)
From Coq Require Import Lia Lqa Permutation Setoid.
From Verif Require Import PyBase PyBaseFacts NumpyModel NumpyFacts QSum AxisModel AxisSpec AxisFacts
  NdModel NdFacts FieldModel FieldSpec FieldInvFacts FieldNodedFacts FieldRearrFacts FieldReduceFacts FieldOpFacts.

(** * Positions that remain after two removals *)
Lemma others_In n p i : In i (others n p) <-> (i < n)%nat /\ ~ In i p.
Proof.
  unfold others. rewrite filter_In, in_seq. split.
  - intros [H1 H2]. split; [lia|]. intro H. apply negb_true_iff in H2. assert (existsb (Nat.eqb i) p = true); [|congruence].
    apply existsb_exists. exists i. split; [exact H|apply Nat.eqb_refl].
  - intros [H1 H2]. split; [lia|]. apply negb_true_iff. destruct (existsb (Nat.eqb i) p) eqn:E; [|reflexivity].
    apply existsb_exists in E as (x & Hx & Ex). apply Nat.eqb_eq in Ex. subst. contradiction.
Qed.
Lemma others_NoDup n p : NoDup (others n p).
Proof. apply NoDup_filter, seq_NoDup. Qed.
Lemma others_ext n p q : (forall i, In i p <-> In i q) -> others n p = others n q.
Proof.
  intro H. unfold others. apply filter_ext. intro i. f_equal. apply Bool.eq_iff_eq_true. rewrite !existsb_exists.
  split; intros (x & Hx & E); exists x; (split; [now apply H|exact E]).
Qed.
Lemma map_nth_seq {A} (d : A) l : map (fun i => nth i l d) (seq 0 (length l)) = l.
Proof.
  apply nth_ext with (d := d) (d' := d); [now rewrite map_length, seq_length|]. intros i Hi. rewrite map_length, seq_length in Hi.
  rewrite (nth_indep _ d (nth 0 l d)) by (rewrite map_length, seq_length; lia).
  change (nth 0 l d) with ((fun i => nth i l d) 0%nat). rewrite map_nth. now rewrite seq_nth.
Qed.
Lemma filter_map {A B} (f : A -> B) p l : filter p (map f l) = map f (filter (fun x => p (f x)) l).
Proof. induction l as [|x l IH]; [reflexivity|]. cbn [map filter]. destruct (p (f x)); cbn [map]; now rewrite IH. Qed.
Lemma filter_filter {A} (p q : A -> bool) l : filter p (filter q l) = filter (fun x => q x && p x)%bool l.
Proof. induction l as [|x l IH]; [reflexivity|]. cbn [filter]. destruct (q x); cbn [filter andb]; [destruct (p x)|]; now rewrite IH. Qed.
Lemma others_others n p q : (forall k, In k q -> (k < length (others n p))%nat) ->
  others n (p ++ map (fun k => nth k (others n p) 0%nat) q)
  = map (fun k => nth k (others n p) 0%nat) (others (length (others n p)) q).
Proof.
  intro Hq. set (O := others n p) in *. assert (NO : NoDup O) by apply others_NoDup.
  assert (E : others n (p ++ map (fun k => nth k O 0%nat) q) = filter (fun i => negb (existsb (Nat.eqb i) (map (fun k => nth k O 0%nat) q))) O).
  { assert (G : forall m, others n (p ++ m) = filter (fun i => negb (existsb (Nat.eqb i) m)) (others n p)).
    { intro m. unfold others. rewrite filter_filter. apply filter_ext. intro i. now rewrite existsb_app, negb_orb. }
    apply G. }
  rewrite E. transitivity (filter (fun i => negb (existsb (Nat.eqb i) (map (fun k => nth k O 0%nat) q)))
                           (map (fun i => nth i O 0%nat) (seq 0 (length O)))); [now rewrite map_nth_seq|].
  rewrite filter_map. unfold others at 1.
  f_equal. apply filter_ext_in. intros i Hi. apply in_seq in Hi. f_equal. apply Bool.eq_iff_eq_true. rewrite !existsb_exists. split.
  - intros (x & Hx & Ex). apply Nat.eqb_eq in Ex. apply in_map_iff in Hx as (k & Hk & Hin). exists k. split; [exact Hin|].
    apply Nat.eqb_eq. apply (proj1 (NoDup_nth O 0%nat) NO); [lia|now apply Hq|congruence].
  - intros (x & Hx & Ex). apply Nat.eqb_eq in Ex as ->. exists (nth x O 0%nat). split; [|apply Nat.eqb_refl]. apply in_map_iff. eauto.
Qed.
Lemma nth_entries {A} (d : A) l O k : (k < length O)%nat -> nth k (entries_at d l O) d = nth (nth k O 0%nat) l d.
Proof.
  intro H. unfold entries_at. rewrite (nth_indep _ d ((fun i => nth i l d) 0%nat)) by (rewrite map_length; exact H).
  exact (map_nth (fun i => nth i l d) O 0%nat k).
Qed.
Lemma entries_entries {A} (d : A) l O q : (forall k, In k q -> (k < length O)%nat) ->
  entries_at d (entries_at d l O) q = entries_at d l (map (fun k => nth k O 0%nat) q).
Proof.
  intro H. unfold entries_at. rewrite map_map. apply map_ext_in. intros k Hk.
  rewrite (nth_indep _ d (nth 0 l d)) by (rewrite map_length; auto). change (nth 0 l d) with ((fun i => nth i l d) 0%nat). now rewrite map_nth.
Qed.
Definition lift (n : nat) (p q : list nat) : list nat := p ++ map (fun k => nth k (others n p) 0%nat) q.
Lemma kept_kept {A} p q (l : list A) : (forall k, In k q -> (k < length (others (length l) p))%nat) ->
  kept q (kept p l) = kept (lift (length l) p q) l.
Proof.
  intro H. destruct l as [|d l0]; [reflexivity|]. set (l := d :: l0) in *.
  assert (Lp : length (kept p l) = length (others (length l) p)) by (rewrite (kept_at d); unfold entries_at; now rewrite map_length).
  rewrite (kept_at d q), Lp. rewrite (kept_at d p), (kept_at d). unfold lift. rewrite others_others by exact H.
  apply entries_entries. intros k Hk. now apply others_lt in Hk.
Qed.

(** * Sums over fibres *)
Definition fibre (sh : list Z) (p : list nat) (idx : list Z) : list (list Z) :=
  filter (fun j => idx_eqb (kept p j) idx) (all_idx sh).
Lemma kept_in_shape p sh : forall idx, in_shape sh idx = true -> in_shape (kept p sh) (kept p idx) = true.
Proof.
  unfold kept. generalize 0%nat. induction sh as [|n sh IH]; intros k [|i idx] H; try discriminate; [reflexivity|].
  cbn [in_shape] in H. apply andb_prop in H as [H1 H2]. cbn [keep_from]. destruct (memb k p); [now apply IH|].
  cbn [in_shape]. now rewrite H1, IH.
Qed.
Lemma qsum_flat_map {A B} (f : B -> Q) (g : A -> list B) l : qsum (map f (flat_map g l)) == qsum (map (fun x => qsum (map f (g x))) l).
Proof. induction l as [|x l IH]; [reflexivity|]. cbn [flat_map map]. rewrite map_app, qsum_app, qsum_cons, IH. reflexivity. Qed.
Lemma qsum_single {A} (G : A -> Q) y ys : NoDup ys -> In y ys -> forall eqb : A -> A -> bool, (forall a b, eqb a b = true <-> a = b) ->
  qsum (map (fun z => if eqb y z then G z else 0) ys) == G y.
Proof.
  intros N Hy eqb He. induction N as [|z ys Nz N IH]; [destruct Hy|]. cbn [map]. rewrite qsum_cons. destruct Hy as [->|Hy].
  - rewrite (proj2 (He y y) eq_refl). rewrite qsum_zero; [ring|]. intros x Hx. destruct (eqb y x) eqn:E; [|reflexivity].
    apply He in E as ->. contradiction.
  - rewrite IH by exact Hy. destruct (eqb y z) eqn:E; [apply He in E as ->; contradiction|ring].
Qed.
Lemma qsum_filter {A} (G : A -> Q) (p : A -> bool) l : qsum (map G (filter p l)) == qsum (map (fun x => if p x then G x else 0) l).
Proof. induction l as [|x l IH]; [reflexivity|]. cbn [filter map]. rewrite qsum_cons. destruct (p x); cbn [map]; rewrite ?qsum_cons, IH; ring. Qed.
Lemma qsum_swap {A B} (F : A -> B -> Q) xs ys :
  qsum (map (fun x => qsum (map (F x) ys)) xs) == qsum (map (fun y => qsum (map (fun x => F x y) xs)) ys).
Proof.
  induction xs as [|x xs IH]; cbn [map].
  - rewrite qsum_nil. symmetry. apply qsum_zero. reflexivity.
  - rewrite qsum_cons, IH. rewrite <- qsum_map_plus. apply qsum_map_ext. intros y _. rewrite qsum_cons. reflexivity.
Qed.
Lemma idx_eqb_refl i : idx_eqb i i = true.
Proof. now apply idx_eqb_eq. Qed.
Lemma fibre_twice sh p q idx (G : list Z -> Q) : (forall k, In k q -> (k < length (others (length sh) p))%nat) ->
  qsum (map (fun i => qsum (map G (fibre sh p i))) (fibre (kept p sh) q idx)) == qsum (map G (fibre sh (lift (length sh) p q) idx)).
Proof.
  intro Hq. unfold fibre. rewrite !qsum_filter.
  rewrite (qsum_map_ext _ (fun i => qsum (map (fun j => if idx_eqb (kept q i) idx then if idx_eqb (kept p j) i then G j else 0 else 0) (all_idx sh)))).
  2: { intros i _. destruct (idx_eqb (kept q i) idx); [apply qsum_filter|]. now rewrite qsum_zero. }
  rewrite qsum_swap. apply qsum_map_ext. intros j Hj. apply all_idx_In in Hj.
  assert (K : kept (lift (length sh) p q) j = kept q (kept p j)).
  { rewrite <- (in_shape_length _ _ Hj). symmetry. apply kept_kept. now rewrite (in_shape_length _ _ Hj). }
  rewrite K.
  rewrite (qsum_map_ext _ (fun i => if idx_eqb (kept p j) i then (if idx_eqb (kept q i) idx then G j else 0) else 0)).
  2: { intros i _. destruct (idx_eqb (kept q i) idx), (idx_eqb (kept p j) i); reflexivity. }
  apply (qsum_single (fun i => if idx_eqb (kept q i) idx then G j else 0)); [apply all_idx_NoDup| |apply idx_eqb_eq].
  apply all_idx_In. now apply kept_in_shape.
Qed.
Lemma nd_reduce_qsum p (a : nda Q) idx : in_shape (kept p (a_shape a)) idx = true ->
  a_at (nd_reduce rsum p a) idx = qsum (map (a_at a) (fibre (a_shape a) p idx)).
Proof.
  intro H. cbn [nd_reduce a_at]. change rsum with qsum. f_equal. rewrite <- (map_map (fun r => merge_idx _ p idx r) (a_at a)).
  f_equal. unfold merge_idx, reduced, fibre. now apply merge_filter.
Qed.
Lemma fibre_lists sh p idx : lists_fibre sh p idx (fibre sh p idx).
Proof.
  split; [apply NoDup_filter, all_idx_NoDup|]. intro j. unfold fibre. rewrite filter_In, all_idx_In, idx_eqb_eq.
  split; intros [H1 H2]; (split; [exact H1|]); apply in_shape_length in H1; rewrite (kept_at 0%Z), H1 in *; exact H2.
Qed.
Lemma lists_fibre_perm sh p idx js js' : lists_fibre sh p idx js -> lists_fibre sh p idx js' -> Permutation js js'.
Proof. intros [N H] [N' H']. apply NoDup_Permutation; auto. intro j. now rewrite H, H'. Qed.

(** * Widths *)
Definition qprod (l : list Q) : Q := fold_right Qmult 1 l.
Lemma qprod_perm l m : Permutation l m -> qprod l == qprod m.
Proof. unfold qprod. induction 1; cbn [fold_right]; [reflexivity|rewrite IHPermutation; reflexivity|ring|etransitivity; eassumption]. Qed.
Lemma qprod_app l m : qprod (l ++ m) == qprod l * qprod m.
Proof. unfold qprod. induction l as [|x l IH]; cbn [app fold_right]; [ring|]. rewrite IH. ring. Qed.
Lemma cell_size_perm axes p q j : Permutation p q -> cell_size axes p j == cell_size axes q j.
Proof. intro H. apply qprod_perm. now apply Permutation_map. Qed.
Lemma box_width ax i : (S (Z.to_nat i) < length (ax_node ax))%nat -> nth (Z.to_nat i) (box_sizes ax) 0 = cell_width ax i.
Proof. intro H. unfold box_sizes, cell_width. now rewrite nth_np_diff. Qed.
Lemma cell_size_lift axes n p q j : length axes = n -> length j = n -> (forall k, In k q -> (k < length (others n p))%nat) ->
  cell_size axes (lift n p q) j == cell_size axes p j * cell_size (kept p axes) q (kept p j).
Proof.
  intros La Lj Hq. unfold cell_size, lift. rewrite map_app. change (fold_right Qmult 1) with qprod. rewrite qprod_app.
  assert (E : map (fun k => cell_width (nth k axes axis0) (nth k j 0%Z)) (map (fun k => nth k (others n p) 0%nat) q)
    = map (fun k => cell_width (nth k (kept p axes) axis0) (nth k (kept p j) 0%Z)) q); [|now rewrite E].
  rewrite map_map. apply map_ext_in. intros k Hk. specialize (Hq k Hk). rewrite (kept_at axis0 p axes), (kept_at 0%Z p j), La, Lj.
  rewrite !nth_entries by exact Hq. reflexivity.
Qed.

(** * The fast method *)
Definition integral_value (f : field Q) (p : list nat) (idx : list Z) : Q :=
  qsum (map (fun j => a_at (f_data f) j * cell_size (f_axes f) p j) (fibre (f_shape f) p idx)).
Lemma integral_value_is f p idx : is_integral f p idx (integral_value f p idx).
Proof. exists (fibre (f_shape f) p idx). split; [apply fibre_lists|reflexivity]. Qed.
Lemma is_integral_value f p idx v : is_integral f p idx v <-> v == integral_value f p idx.
Proof.
  split.
  - intros (js & Hj & ->). apply qsum_perm, Permutation_map. eapply lists_fibre_perm; [exact Hj|apply fibre_lists].
  - intros E. destruct (integral_value_is f p idx) as (js & Hj & Ej). exists js. split; [exact Hj|]. now rewrite E.
Qed.
Lemma noded_lengths {V} (f : field V) : consistent f -> Forall axis_noded (f_axes f) -> forall k, (k < length (f_shape f))%nat ->
  Z.of_nat (length (ax_node (nth k (f_axes f) axis0))) = (nth k (f_shape f) 0 + 1)%Z.
Proof.
  intros Hc Hn k Hk. destruct Hc as (La & Hc & _).
  assert (In (nth k (f_axes f) axis0) (f_axes f)) by (apply nth_In; lia). rewrite Forall_forall in Hn. destruct (Hn _ H) as [C N].
  unfold axis_counted in C. rewrite N. rewrite <- (Hc k (nth k (f_axes f) axis0) (nth k (f_shape f) 0%Z)); [lia|apply nth_error_nth'; lia..].
Qed.
Lemma remains_kept {V W} (f : field V) p (g : field W) : consistent f ->
  f_shape g = kept p (f_shape f) -> f_axes g = kept p (f_axes f) -> f_ats g = kept p (f_ats f) -> f_tao g = kept p (f_tao f) ->
  l_name (f_top g) = l_name (f_top f) -> l_unit (f_top g) = l_unit (f_top f) -> remains f p g.
Proof.
  intros (La & _ & L1 & L2) S A T O N U. unfold remains. cbv zeta. rewrite S, A, T, O, N, U.
  rewrite (kept_at 0%Z), (kept_at axis0), !(kept_at None), La, L1, L2. repeat (split; [reflexivity|]). reflexivity.
Qed.
Lemma kept_remains {V W} (f : field V) p (g : field W) : consistent f -> remains f p g ->
  f_shape g = kept p (f_shape f) /\ f_axes g = kept p (f_axes f) /\ f_ats g = kept p (f_ats f) /\ f_tao g = kept p (f_tao f) /\
  l_name (f_top g) = l_name (f_top f) /\ l_unit (f_top g) = l_unit (f_top f).
Proof.
  intros (La & _ & L1 & L2) (S & A & T & O & N & U). rewrite S, A, T, O.
  rewrite (kept_at 0%Z), (kept_at axis0), !(kept_at None), La, L1, L2. repeat (split; [reflexivity|]). auto.
Qed.
Lemma kept_Forall {A} (P : A -> Prop) p l : Forall P l -> Forall P (kept p l).
Proof. unfold kept. generalize 0%nat. intros k H. revert k. induction H; intro k; cbn [keep_from]; [constructor|]. destruct (memb k p); auto. Qed.
Lemma map_kept {A B} (f : A -> B) p l : map f (kept p l) = kept p (map f l).
Proof. unfold kept. generalize 0%nat. induction l as [|x l IH]; intro k; [reflexivity|]. cbn [keep_from map]. destruct (memb k p); cbn [map]; now rewrite IH. Qed.
Lemma kept_len {A} p (l : list A) : length (kept p l) = length (others (length l) p).
Proof. destruct l as [|d l]; [reflexivity|]. rewrite (kept_at d). unfold entries_at. now rewrite map_length. Qed.
Lemma remains_consistent {V W} (f : field V) p (g : field W) : consistent f -> remains f p g -> consistent g.
Proof.
  intros Hc Hr. pose proof (consistent_map f Hc) as M. apply kept_remains in Hr as (S & A & T & O & _); [|exact Hc]. destruct Hc as (La & _ & L1 & L2).
  apply map_consistent; rewrite S, ?A, ?T, ?O; [now rewrite map_kept, M|rewrite !kept_len; congruence..].
Qed.
Lemma fast_step_total f k : consistent f -> Forall axis_noded (f_axes f) -> nonempty (f_shape f) -> (k < length (f_shape f))%nat ->
  exists g, fast_step f (Z.of_nat k) = Ok g /\ remains f [k] g /\
    forall idx, in_shape (f_shape g) idx = true -> a_at (f_data g) idx == integral_value f [k] idx.
Proof.
  intros Hc Hn Hne Hk. pose proof (noded_lengths f Hc Hn k Hk) as Ln. pose proof Hc as (La & _ & L1 & L2).
  assert (Hp : forall m, (k < m)%nat -> py_pos m (Z.of_nat k) = Ok k) by (intros m Hm; apply py_pos_ok; lia).
  unfold fast_step. rewrite nonempty_dims, Nat2Z.id, Hp by assumption. cbn [bind].
  rewrite (getidx_at (f_shape f) k 0%Z) by exact Hk.
  rewrite (getidx_at (f_axes f) k axis0) by lia. cbn [bind].
  rewrite Ln, Z.eqb_refl. cbn [negb]. set (ax := nth k (f_axes f) axis0) in *.
  assert (Hpos : (0 < nth k (f_shape f) 0)%Z).
  { unfold nonempty in Hne. rewrite Forall_forall in Hne. apply Hne, nth_In, Hk. }
  assert (Hb : nth k (a_shape (f_data f)) 0%Z = Z.of_nat (length (box_sizes ax))).
  { unfold box_sizes. rewrite np_diff_length. change (a_shape (f_data f)) with (f_shape f). lia. }
  destruct (np_along_op Qmult (box_sizes ax) (f_data f) k Hk Hb) as (c & Ec & Sc & Ac).
  change (length (a_shape (f_data f))) with (length (f_shape f)) in Ec. rewrite Ec. cbn [bind].
  assert (Er : np_reduce rsum c (AxInt (Z.of_nat k)) false = Ok (nd_reduce rsum [k] c)).
  { unfold np_reduce. cbn [axisarg_positions mapM]. rewrite Sc. change (a_shape (f_data f)) with (f_shape f). rewrite Hp by exact Hk. reflexivity. }
  rewrite Er. cbn [bind]. unfold delidx. change (l_axes (f_top f)) with (f_axes f). change (l_ats (f_top f)) with (f_ats f).
  change (l_tao (f_top f)) with (f_tao f). rewrite !Hp by lia. cbn [bind].
  eexists. split; [reflexivity|]. split.
  - apply remains_kept; [exact Hc|unfold f_shape, f_axes, f_ats, f_tao; cbn [f_data f_top l_axes l_ats l_tao nd_reduce a_shape]..|reflexivity|reflexivity].
    + now rewrite Sc.
    + now rewrite kept_one.
    + now rewrite kept_one.
    + now rewrite kept_one.
  - intros idx Hi. unfold f_shape in Hi. cbn [f_data nd_reduce a_shape] in Hi. cbn [f_data]. rewrite nd_reduce_qsum by exact Hi.
    unfold integral_value. rewrite Sc. change (a_shape (f_data f)) with (f_shape f). apply qsum_map_ext. intros j Hj.
    unfold fibre in Hj. apply filter_In in Hj as [Hj _]. apply all_idx_In in Hj. rewrite Ac by exact Hj.
    unfold cell_size. cbn [map fold_right]. fold ax. pose proof (in_shape_nth _ _ k 0%Z 0%Z Hj Hk).
    rewrite box_width by lia. ring.
Qed.
Lemma nonempty_kept p sh : nonempty sh -> nonempty (kept p sh).
Proof. apply kept_Forall. Qed.
Lemma integral_value_perm f p q idx : Permutation p q -> integral_value f p idx == integral_value f q idx.
Proof.
  intro H. unfold integral_value. assert (E : fibre (f_shape f) p idx = fibre (f_shape f) q idx).
  { unfold fibre. apply filter_ext. intro j. f_equal. unfold kept. apply keep_from_same. intro k. now apply memb_perm. }
  rewrite E. apply qsum_map_ext. intros j _. now rewrite cell_size_perm by exact H.
Qed.
Lemma remains_perm {V W} (f : field V) p q (g : field W) : Permutation p q -> remains f p g -> remains f q g.
Proof.
  intros H Hr. unfold remains in *. cbv zeta in *. rewrite (others_ext _ q p); [exact Hr|]. intro i.
  split; apply Permutation_in; [now symmetry|exact H].
Qed.
(** integrating the integral *)
Lemma integral_lift f p q g : consistent f -> remains f p g ->
  (forall idx, in_shape (f_shape g) idx = true -> a_at (f_data g) idx == integral_value f p idx) ->
  (forall k, In k q -> (k < length (others (length (f_shape f)) p))%nat) ->
  forall idx, integral_value g q idx == integral_value f (lift (length (f_shape f)) p q) idx.
Proof.
  intros Hc Hr Hv Hq idx. apply kept_remains in Hr as (S & A & _); [|exact Hc]. pose proof Hc as (La & _).
  unfold integral_value at 1. rewrite S, A.
  rewrite (qsum_map_ext _ (fun i => qsum (map (fun j => a_at (f_data f) j * cell_size (f_axes f) p j * cell_size (kept p (f_axes f)) q (kept p j))
     (fibre (f_shape f) p i)))).
  - rewrite fibre_twice by exact Hq. apply qsum_map_ext. intros j Hj. unfold fibre in Hj. apply filter_In in Hj as [Hj _].
    apply all_idx_In, in_shape_length in Hj. rewrite (cell_size_lift _ (length (f_shape f))) by (auto; congruence). ring.
  - intros i Hi. unfold fibre in Hi. apply filter_In in Hi as [Hi _]. apply all_idx_In in Hi. rewrite Hv by (now rewrite S).
    unfold integral_value. rewrite <- qsum_map_scale_r. apply qsum_map_ext. intros j Hj. unfold fibre in Hj.
    apply filter_In in Hj as [_ Hj]. apply idx_eqb_eq in Hj. now rewrite Hj.
Qed.
Lemma remains_lift {V W X} (f : field V) p q (g : field W) (h : field X) : consistent f -> remains f p g -> remains g q h ->
  (forall k, In k q -> (k < length (others (length (f_shape f)) p))%nat) -> remains f (lift (length (f_shape f)) p q) h.
Proof.
  intros Hc Hr Hs Hq. pose proof (remains_consistent f p g Hc Hr) as Hcg.
  apply kept_remains in Hr as (S & A & T & O & N & U); [|exact Hc]. apply kept_remains in Hs as (S' & A' & T' & O' & N' & U'); [|exact Hcg].
  pose proof Hc as (La & _ & L1 & L2). apply remains_kept; [exact Hc|..|congruence|congruence].
  - rewrite S', S. now apply kept_kept.
  - rewrite A', A, <- La. apply kept_kept. now rewrite La.
  - rewrite T', T, <- L1. apply kept_kept. now rewrite L1.
  - rewrite O', O, <- L2. apply kept_kept. now rewrite L2.
Qed.
Lemma others_one n k : (k < n)%nat -> others n [k] = seq 0 k ++ seq (S k) (n - S k).
Proof.
  intro H. assert (FT : forall l : list nat, filter (fun _ => true) l = l) by (induction l as [|x l IH]; [reflexivity|]; cbn [filter]; now rewrite IH).
  unfold others. replace n with (k + S (n - S k))%nat at 1 by lia. rewrite seq_app, filter_app. cbn [seq filter existsb].
  rewrite Nat.eqb_refl. cbn [orb negb]. f_equal.
  - rewrite (filter_ext_in _ (fun _ => true)); [|intros i Hi; apply in_seq in Hi; rewrite (proj2 (Nat.eqb_neq i k)) by lia; reflexivity].
    apply FT.
  - rewrite (filter_ext_in _ (fun _ => true)); [|intros i Hi; apply in_seq in Hi; rewrite (proj2 (Nat.eqb_neq i k)) by lia; reflexivity].
    apply FT.
Qed.
Lemma nth_others_one n k i : (k < n)%nat -> (i < n)%nat -> i <> k ->
  nth (if (k <? i)%nat then (i - 1)%nat else i) (others n [k]) 0%nat = i.
Proof.
  intros Hk Hi N. rewrite others_one by exact Hk. destruct (Nat.ltb_spec k i).
  - rewrite app_nth2; rewrite seq_length; [|lia]. rewrite seq_nth by lia. lia.
  - rewrite app_nth1 by (rewrite seq_length; lia). rewrite seq_nth by lia. lia.
Qed.
Lemma last_removelast {A} (a : A) l : exists x, last (a :: l) a = x /\ a :: l = removelast (a :: l) ++ [x].
Proof. exists (last (a :: l) a). split; [reflexivity|]. apply app_removelast_last. discriminate. Qed.
Lemma kept_nil {A} (l : list A) : kept [] l = l.
Proof. unfold kept. apply keep_from_none. intros x []. Qed.
Lemma integral_none f idx : in_shape (f_shape f) idx = true -> integral_value f [] idx == a_at (f_data f) idx.
Proof.
  intro H. unfold integral_value, fibre. rewrite qsum_filter.
  rewrite (qsum_map_ext _ (fun j => if idx_eqb idx j then a_at (f_data f) j else 0)).
  - apply (qsum_single (a_at (f_data f))); [apply all_idx_NoDup|now apply all_idx_In|apply idx_eqb_eq].
  - intros j _. rewrite kept_nil. unfold cell_size. cbn [map fold_right].
    destruct (idx_eqb j idx) eqn:E.
    + apply idx_eqb_eq in E as ->. rewrite idx_eqb_refl. ring.
    + destruct (idx_eqb idx j) eqn:E'; [|reflexivity]. apply idx_eqb_eq in E' as ->. rewrite idx_eqb_refl in E. discriminate.
Qed.
Lemma remains_none {V} (f : field V) : consistent f -> remains f [] f.
Proof. intro Hc. apply remains_kept; [exact Hc|..]; now rewrite ?kept_nil. Qed.
Definition shift_down (a : nat) (l : list nat) : list nat := map (fun i => if (a <? i)%nat then (i - 1)%nat else i) l.
Lemma lift_shift n a l : (a < n)%nat -> (forall k, In k l -> (k < n)%nat) -> ~ In a l -> lift n [a] (shift_down a l) = a :: l.
Proof.
  intros Ha Hl N. unfold lift, shift_down. cbn [app]. f_equal. rewrite map_map. rewrite <- (map_id l) at 2. apply map_ext_in.
  intros k Hk. apply nth_others_one; auto. intros ->. contradiction.
Qed.
Lemma shift_down_bound n a l : (a < n)%nat -> (forall k, In k l -> (k < n)%nat) -> ~ In a l ->
  forall k, In k (shift_down a l) -> (k < length (others n [a]))%nat.
Proof.
  intros Ha Hl N k Hk. apply in_map_iff in Hk as (i & <- & Hi). rewrite others_one, app_length, !seq_length by exact Ha.
  specialize (Hl i Hi). assert (i <> a) by (intros ->; contradiction). destruct (Nat.ltb_spec a i); lia.
Qed.
Lemma shift_down_NoDup a l : NoDup l -> ~ In a l -> NoDup (shift_down a l).
Proof.
  intros Nd N. unfold shift_down. induction Nd as [|x l Nx Nd IH]; [constructor|]. cbn [map]. constructor.
  - intro H. apply in_map_iff in H as (y & E & Hy). assert (x <> a /\ y <> a) by (split; intros ->; apply N; [now left|now right]).
    assert (x = y); [|congruence]. destruct (Nat.ltb_spec a x), (Nat.ltb_spec a y); lia.
  - apply IH. intro H. apply N. now right.
Qed.
Lemma fast_loop_total fuel : forall axes f, consistent f -> Forall axis_noded (f_axes f) -> nonempty (f_shape f) ->
  NoDup axes -> (forall k, In k axes -> (k < length (f_shape f))%nat) -> (length axes <= fuel)%nat ->
  exists g, fast_loop fuel f (map Z.of_nat axes) = Ok g /\ remains f axes g /\
    forall idx, in_shape (f_shape g) idx = true -> a_at (f_data g) idx == integral_value f axes idx.
Proof.
  induction fuel as [|fuel IH]; intros axes f Hc Hn Hne Nd Hb Hl.
  { destruct axes; [|cbn in Hl; lia]. exists f. split; [reflexivity|]. split; [now apply remains_none|].
    intros idx Hi. now rewrite integral_none. }
  destruct axes as [|a0 axes].
  { exists f. split; [reflexivity|]. split; [now apply remains_none|]. intros idx Hi. now rewrite integral_none. }
  destruct (last_removelast a0 axes) as (a & Ea & Es). set (rest := removelast (a0 :: axes)) in *.
  assert (P : Permutation (a0 :: axes) (a :: rest)) by (rewrite Es; symmetry; apply Permutation_cons_append).
  pose proof (Permutation_NoDup P Nd) as Nd'. inversion Nd' as [|? ? Na Nr]; subst.
  assert (Hb' : forall k, In k (last (a0 :: axes) a0 :: rest) -> (k < length (f_shape f))%nat).
  { intros k Hk. apply Hb. apply (Permutation_in k (Permutation_sym P)). exact Hk. }
  set (a := last (a0 :: axes) a0) in *.
  assert (Ha : (a < length (f_shape f))%nat) by (apply Hb'; now left).
  assert (Hr : forall k, In k rest -> (k < length (f_shape f))%nat) by (intros k Hk; apply Hb'; now right).
  destruct (fast_step_total f a Hc Hn Hne Ha) as (g & Eg & Rg & Vg).
  pose proof (remains_consistent f [a] g Hc Rg) as Hcg. pose proof (kept_remains f [a] g Hc Rg) as (Sg & Ag & _).
  destruct (IH (shift_down a rest) g Hcg) as (h & Eh & Rh & Vh).
  - rewrite Ag. now apply kept_Forall.
  - rewrite Sg. now apply nonempty_kept.
  - now apply shift_down_NoDup.
  - intros k Hk. rewrite Sg, kept_len. now apply (shift_down_bound _ a rest Ha Hr Na).
  - unfold shift_down. rewrite map_length. pose proof (Permutation_length P) as L. cbn [length] in *. lia.
  - exists h. split.
    + change (map Z.of_nat (a0 :: axes)) with (Z.of_nat a0 :: map Z.of_nat axes). cbn [fast_loop].
      assert (El : last (Z.of_nat a0 :: map Z.of_nat axes) (Z.of_nat a0) = Z.of_nat a).
      { change (Z.of_nat a0 :: map Z.of_nat axes) with (map Z.of_nat (a0 :: axes)). rewrite Es, map_app. cbn [map]. now rewrite last_last. }
      assert (Er : removelast (Z.of_nat a0 :: map Z.of_nat axes) = map Z.of_nat rest).
      { change (Z.of_nat a0 :: map Z.of_nat axes) with (map Z.of_nat (a0 :: axes)). rewrite Es, map_app. cbn [map]. now rewrite removelast_last. }
      rewrite El, Er, Eg. cbn [bind]. rewrite <- Eh. f_equal. unfold shift_down. rewrite !map_map. apply map_ext. intro i.
      destruct (Z.ltb_spec (Z.of_nat a) (Z.of_nat i)), (Nat.ltb_spec a i); lia.
    + assert (E : lift (length (f_shape f)) [a] (shift_down a rest) = a :: rest) by (now apply lift_shift).
      split.
      * apply (remains_perm f (a :: rest)); [now symmetry|]. rewrite <- E. apply (remains_lift f [a] _ g h Hc Rg Rh).
        now apply shift_down_bound.
      * intros idx Hi. rewrite (Vh idx Hi). rewrite (integral_lift f [a] _ g Hc Rg Vg) by (now apply shift_down_bound).
        rewrite E. apply integral_value_perm. now symmetry.
Qed.

(** a request of axes, without negative numbers *)
Lemma sort_by_perm key l : Permutation (sort_by key l) l.
Proof.
  induction l as [|x l IH]; [reflexivity|]. cbn [sort_by fold_right]. fold (sort_by key l).
  assert (G : forall m, Permutation (insert_by key x m) (x :: m)).
  { induction m as [|y m IHm]; [reflexivity|]. cbn [insert_by]. destruct (key x <=? key y)%Z; [reflexivity|]. rewrite IHm. apply perm_swap. }
  rewrite G. now rewrite IH.
Qed.
Lemma nonneg_nat l : Forall (fun i => 0 <= i)%Z l -> l = map Z.of_nat (map Z.to_nat l).
Proof. induction 1 as [|x l Hx H IH]; [reflexivity|]. cbn [map]. rewrite <- IH. f_equal. lia. Qed.
Lemma mapM_getidx {A} (l : list A) is : (forall i, In i is -> (0 <= i < Z.of_nat (length l))%Z) -> exists r, mapM (getidx l) is = Ok r.
Proof.
  induction is as [|i is IH]; intro H; [exists []; reflexivity|]. destruct IH as [r Er]; [intros j Hj; apply H; now right|].
  assert (Hi := H i (or_introl eq_refl)). cbn [mapM]. destruct (nth_error l (Z.to_nat i)) as [x|] eqn:E.
  -replace i with (Z.of_nat (Z.to_nat i)) by lia. rewrite (getidx_at l _ x) by lia. rewrite Er. cbn [bind]. eauto.
  - apply nth_error_None in E. lia.
Qed.
Lemma map_to_nat_NoDup l : NoDup l -> Forall (fun i => 0 <= i)%Z l -> NoDup (map Z.to_nat l).
Proof.
  intros N H. induction N as [|x l Nx N IH]; [constructor|]. inversion H; subst. cbn [map]. constructor; [|auto].
  intro Hin. apply in_map_iff in Hin as (y & E & Hy). rewrite Forall_forall in H3. specialize (H3 y Hy). assert (x = y) by lia. congruence.
Qed.
Lemma sorted_set_perm l : Permutation (sorted_set l) (dedup_Z l).
Proof. apply sort_Z_perm. Qed.
Lemma sorted_set_In l x : In x (sorted_set l) <-> In x l.
Proof. rewrite <- (dedup_In x l). split; apply Permutation_in; [|symmetry]; apply sorted_set_perm. Qed.
Lemma sorted_set_NoDup l : NoDup (sorted_set l).
Proof. apply (Permutation_NoDup (Permutation_sym (sorted_set_perm l))). apply dedup_nodup. Qed.

Lemma requested_sorted n axes p s : requested n axes p -> Permutation s (sorted_set axes) ->
  Permutation (map Z.to_nat s) p /\ s = map Z.of_nat (map Z.to_nat s) /\ NoDup (map Z.to_nat s) /\ (forall k, In k (map Z.to_nat s) -> (k < n)%nat).
Proof.
  intros (Np & Hp & Hb) P.
  assert (Hs : forall x, In x s <-> In x axes).
  { intro x. rewrite <- (sorted_set_In axes). split; apply Permutation_in; [|symmetry]; exact P. }
  assert (Hpos : Forall (fun i => 0 <= i)%Z s) by (apply Forall_forall; intros x Hx; apply Hs, Hb in Hx; lia).
  assert (Ns : NoDup s) by (apply (Permutation_NoDup (Permutation_sym P)), sorted_set_NoDup).
  pose proof (map_to_nat_NoDup s Ns Hpos) as Nm. rewrite Forall_forall in Hpos.
  split; [|split; [apply nonneg_nat, Forall_forall, Hpos|split; [exact Nm|]]].
  - apply NoDup_Permutation; auto. intro k. rewrite Hp, <- Hs. split.
    + intro H. apply in_map_iff in H as (x & <- & Hx). rewrite Z2Nat.id; auto.
    + intro H. apply in_map_iff. exists (Z.of_nat k). split; [lia|exact H].
  - intros k H. apply in_map_iff in H as (x & <- & Hx). apply Hs, Hb in Hx. lia.
Qed.
Lemma integrate_fast_total f axes p : consistent f -> Forall axis_noded (f_axes f) -> nonempty (f_shape f) ->
  requested (length (f_shape f)) axes p ->
  exists g, integrate_fast f axes = Ok g /\ remains f p g /\
    forall idx, in_shape (f_shape g) idx = true -> is_integral f p idx (a_at (f_data g) idx).
Proof.
  intros Hc Hn Hne Hr. unfold integrate_fast. destruct (mapM_getidx (f_shape f) axes) as [r ->]; [apply Hr|]. cbn [bind].
  set (s := sort_by _ (sorted_set axes)).
  destruct (requested_sorted _ axes p s Hr) as (P & Es & Ns & Hb); [apply sort_by_perm|].
  destruct (fast_loop_total (length s) (map Z.to_nat s) f Hc Hn Hne Ns Hb) as (g & E & R & V); [rewrite map_length; lia|].
  exists g. rewrite <- Es in E. split; [exact E|]. split; [exact (remains_perm f _ _ g P R)|].
  intros idx Hi. apply is_integral_value. rewrite (V idx Hi). now apply integral_value_perm.
Qed.

(** * The constant method *)
Lemma times_boxes_total f : consistent f -> Forall axis_noded (f_axes f) -> nonempty (f_shape f) -> (length (f_shape f) <= 3)%nat ->
  forall axes ret, (forall k, In k axes -> (k < length (f_shape f))%nat) -> consistent ret -> f_inner ret = [] ->
  f_shape ret = f_shape f -> f_top ret = f_top f ->
  exists g, times_boxes f ret (map Z.of_nat axes) = Ok g /\ consistent g /\ f_inner g = [] /\ f_shape g = f_shape f /\ f_top g = f_top f /\
    forall idx, in_shape (f_shape f) idx = true -> a_at (f_data g) idx == a_at (f_data ret) idx * cell_size (f_axes f) axes idx.
Proof.
  intros Hc Hn Hne H3. pose proof Hc as (La & _ & L1 & L2).
  induction axes as [|k axes IH]; intros ret Hb Hcr Ir Sr Tr.
  - exists ret. split; [reflexivity|]. repeat (split; [assumption|]). intros idx _. unfold cell_size. cbn. ring.
  - assert (Hk : (k < length (f_shape f))%nat) by (apply Hb; now left). pose proof (noded_lengths f Hc Hn k Hk) as Ln.
    assert (Hp : forall m, (k < m)%nat -> py_pos m (Z.of_nat k) = Ok k) by (intros m Hm; apply py_pos_ok; lia).
    cbn [map times_boxes]. rewrite nonempty_dims, Nat2Z.id by assumption.
    rewrite (getidx_at (f_axes f) k axis0) by lia. cbn [bind].
    rewrite Hp by exact Hk. cbn [bind]. set (ax := nth k (f_axes f) axis0) in *.
    assert (Hpos : (0 < nth k (f_shape f) 0)%Z).
    { unfold nonempty in Hne. rewrite Forall_forall in Hne. apply Hne, nth_In, Hk. }
    assert (Hbx : nth k (a_shape (f_data ret)) 0%Z = Z.of_nat (length (box_sizes ax))).
    { unfold box_sizes. rewrite np_diff_length. change (a_shape (f_data ret)) with (f_shape ret). rewrite Sr. lia. }
    assert (Hkr : (k < length (a_shape (f_data ret)))%nat) by (change (a_shape (f_data ret)) with (f_shape ret); now rewrite Sr).
    destruct (np_along_op_r Qmult (box_sizes ax) (f_data ret) k Hkr Hbx) as (c & Ec & Sc & Ac).
    change (length (a_shape (f_data ret))) with (length (f_shape ret)) in Ec. rewrite Sr in Ec.
    assert (Hbs : bshape (f_shape ret) (a_shape (np_along (length (f_shape f)) k (box_sizes ax))) = Ok (f_shape ret)).
    { unfold np_map2 in Ec. apply bind_ok in Ec as (sh & Es & Ec). change (a_shape (f_data ret)) with (f_shape ret) in Es. rewrite Es. f_equal.
      injection Ec as <-. exact Sc. }
    destruct (op_array_total Qmult ret _ Hcr Ir ltac:(rewrite Sr; exact H3) Hbs) as (h & Eh & Sh & Ah & Th & Oh & Ih & Nh & Uh & Dh).
    rewrite Eh. cbn [bind]. rewrite Ec in Dh. injection Dh as Dh.
    assert (Th' : f_top h = f_top f).
    { destruct (f_top h) as [a1 a2 a3 a4 a5] eqn:E1. rewrite <- Tr. destruct (f_top ret) as [b1 b2 b3 b4 b5] eqn:E2.
      unfold f_axes, f_ats, f_tao in *. rewrite E1, E2 in *. cbn in *. congruence. }
    destruct (IH h) as (g & Eg & Cg & Ig & Sg & Tg & Vg).
    + intros i Hi. apply Hb. now right.
    + unfold consistent. unfold f_axes, f_ats, f_tao in *. rewrite Th', Sh, Sr. exact Hc.
    + exact Ih.
    + congruence.
    + exact Th'.
    + exists g. split; [exact Eg|]. repeat (split; [assumption|]). intros idx Hi. rewrite (Vg idx Hi). rewrite <- Dh.
      change (a_shape (f_data ret)) with (f_shape ret) in Ac. rewrite Sr in Ac. rewrite (Ac idx Hi).
      pose proof (in_shape_nth _ _ k 0%Z 0%Z Hi Hk). rewrite box_width by lia. unfold cell_size. cbn [map fold_right]. fold ax. ring.
Qed.
Lemma positions_of_nat n l : (forall k, In k l -> (k < n)%nat) -> mapM (py_pos n) (map Z.of_nat l) = Ok l.
Proof.
  induction l as [|k l IH]; intro H; [reflexivity|]. cbn [map mapM]. assert (py_pos n (Z.of_nat k) = Ok k) as ->.
  { apply py_pos_ok. specialize (H k (or_introl eq_refl)). lia. }
  cbn [bind]. rewrite IH by (intros i Hi; apply H; now right). reflexivity.
Qed.
Lemma nodupb_true p : NoDup p -> nodupb p = true.
Proof.
  induction 1 as [|x l N H IH]; [reflexivity|]. cbn [nodupb]. rewrite IH, andb_true_r. apply negb_true_iff.
  destruct (memb x l) eqn:E; [|reflexivity]. exfalso. apply N. clear - E. induction l as [|y l IH]; [discriminate|]. cbn [memb] in E.
  apply orb_prop in E as [E|E]; [left; now apply Nat.eqb_eq|right; auto].
Qed.
Lemma integrate_constant_total spl f axes p : consistent f -> Forall axis_noded (f_axes f) -> nonempty (f_shape f) ->
  (length (f_shape f) <= 3)%nat -> f_inner f = [] -> requested (length (f_shape f)) axes p ->
  exists g, integrate_constant spl f axes = Ok g /\ remains f p g /\
    forall idx, in_shape (f_shape g) idx = true -> is_integral f p idx (a_at (f_data g) idx).
Proof.
  intros Hc Hn Hne H3 Hi Hr. unfold integrate_constant. set (s := sorted_set axes).
  destruct (requested_sorted _ axes p s Hr) as (P & Es & Ns & Hb); [reflexivity|]. set (q := map Z.to_nat s) in *.
  assert (Er : rev s = map Z.of_nat (rev q)) by (rewrite Es, map_rev; reflexivity). rewrite Er, Es.
  destruct (times_boxes_total f Hc Hn Hne H3 (rev q) f) as (h & Eh & Ch & Ih & Sh & Th & Vh); auto.
  { intros k Hk. apply Hb. now apply in_rev. }
  rewrite Eh. cbn [bind].
  assert (Hpos : axisarg_positions (length (f_shape h)) (AxTuple (map Z.of_nat q)) = Ok q).
  { cbn [axisarg_positions]. rewrite Sh, positions_of_nat by exact Hb. cbn [bind]. now rewrite nodupb_true. }
  rewrite (reduce_total spl rsum h (AxTuple (map Z.of_nat q)) q); [|exact Ch|now rewrite Sh| |exact Hpos|discriminate].
  2: { left. apply Forall_forall. intros x Hx. apply in_map_iff in Hx as (k & <- & _). lia. }
  eexists. split; [reflexivity|]. split.
  - apply (remains_perm f q p); [exact P|]. apply remains_kept; [exact Hc|unfold f_shape, f_axes, f_ats, f_tao; cbn [f_data f_top l_axes l_ats l_tao nd_reduce a_shape l_name l_unit]..];
      rewrite ?Th; try reflexivity. change (a_shape (f_data h)) with (f_shape h). rewrite Sh. reflexivity.
  - intros idx Hx. unfold f_shape in Hx. cbn [f_data nd_reduce a_shape] in Hx. cbn [f_data]. apply is_integral_value.
    rewrite nd_reduce_qsum by exact Hx. rewrite <- (integral_value_perm f q p idx P). unfold integral_value.
    change (a_shape (f_data h)) with (f_shape h). rewrite Sh. apply qsum_map_ext. intros j Hj. unfold fibre in Hj.
    apply filter_In in Hj as [Hj _]. apply all_idx_In in Hj. rewrite (Vh j Hj). rewrite (cell_size_perm _ (rev q) q); [reflexivity|].
    symmetry. apply Permutation_rev.
Qed.

(** * Consequences *)
Lemma is_integral_unique f p idx v w : is_integral f p idx v -> is_integral f p idx w -> v == w.
Proof. rewrite !is_integral_value. intros -> ->. reflexivity. Qed.
Lemma is_integral_linear f g h p idx c v w : f_shape g = f_shape f -> f_shape h = f_shape f -> f_axes g = f_axes f -> f_axes h = f_axes f ->
  (forall j, in_shape (f_shape f) j = true -> a_at (f_data h) j == c * a_at (f_data f) j + a_at (f_data g) j) ->
  is_integral f p idx v -> is_integral g p idx w -> is_integral h p idx (c * v + w).
Proof.
  intros Sg Sh Ag Ah H. rewrite !is_integral_value. intros -> ->. unfold integral_value. rewrite Sg, Sh, Ag, Ah.
  rewrite <- qsum_map_scale, <- qsum_map_plus. apply qsum_map_ext. intros j Hj. unfold fibre in Hj. apply filter_In in Hj as [Hj _].
  apply all_idx_In in Hj. rewrite (H j Hj). ring.
Qed.

Lemma methods_agree spl f axes p : consistent f -> Forall axis_noded (f_axes f) -> nonempty (f_shape f) ->
  (length (f_shape f) <= 3)%nat -> f_inner f = [] -> requested (length (f_shape f)) axes p ->
  exists g h, integrate_fast f axes = Ok g /\ integrate_constant spl f axes = Ok h /\ f_shape g = f_shape h /\ f_top g = f_top h /\
    forall idx, in_shape (f_shape g) idx = true -> a_at (f_data g) idx == a_at (f_data h) idx.
Proof.
  intros Hc Hn Hne H3 Hi Hr. destruct (integrate_fast_total f axes p Hc Hn Hne Hr) as (g & Eg & Rg & Vg).
  destruct (integrate_constant_total spl f axes p Hc Hn Hne H3 Hi Hr) as (h & Eh & Rh & Vh).
  exists g, h. split; [exact Eg|]. split; [exact Eh|]. destruct Rg as (S & A & T & O & N & U), Rh as (S' & A' & T' & O' & N' & U').
  split; [congruence|]. split.
  - unfold f_axes, f_ats, f_tao in *. destruct (f_top g), (f_top h). cbn in *. congruence.
  - intros idx Hx. apply (is_integral_unique f p idx); [now apply Vg|]. apply Vh. now rewrite S', <- S.
Qed.
Lemma integrate_steps f a1 p a2 q a3 r : consistent f -> Forall axis_noded (f_axes f) -> nonempty (f_shape f) ->
  requested (length (f_shape f)) a1 p -> requested (length (others (length (f_shape f)) p)) a2 q ->
  requested (length (f_shape f)) a3 r ->
  Permutation r (p ++ map (fun k => nth k (others (length (f_shape f)) p) 0%nat) q) ->
  exists g h h', integrate_fast f a1 = Ok g /\ integrate_fast g a2 = Ok h /\ integrate_fast f a3 = Ok h' /\
    f_shape h = f_shape h' /\ f_top h = f_top h' /\
    forall idx, in_shape (f_shape h) idx = true -> a_at (f_data h) idx == a_at (f_data h') idx.
Proof.
  intros Hc Hn Hne R1 R2 R3 P. destruct (integrate_fast_total f a1 p Hc Hn Hne R1) as (g & Eg & Rg & Vg).
  pose proof (remains_consistent f p g Hc Rg) as Hcg. pose proof (kept_remains f p g Hc Rg) as (Sg & Ag & _).
  assert (Lg : length (f_shape g) = length (others (length (f_shape f)) p)) by (now rewrite Sg, kept_len).
  destruct (integrate_fast_total g a2 q) as (h & Eh & Rh & Vh); [exact Hcg|rewrite Ag; now apply kept_Forall|rewrite Sg; now apply nonempty_kept|now rewrite Lg|].
  destruct (integrate_fast_total f a3 r Hc Hn Hne R3) as (h' & Eh' & Rh' & Vh').
  exists g, h, h'. repeat (split; [assumption|]).
  assert (Hq : forall k, In k q -> (k < length (others (length (f_shape f)) p))%nat).
  { destruct R2 as (_ & Hi & Hb). intros k Hk. apply Hi in Hk. apply Hb in Hk. lia. }
  pose proof (remains_lift f p q g h Hc Rg Rh Hq) as RL. apply (remains_perm f _ r) in RL; [|now symmetry].
  destruct RL as (S & A & T & O & N & U), Rh' as (S' & A' & T' & O' & N' & U'). split; [congruence|]. split.
  - unfold f_axes, f_ats, f_tao in *. destruct (f_top h), (f_top h'). cbn in *. congruence.
  - intros idx Hx. pose proof (Vh idx Hx) as V1. rewrite S, <- S' in Hx. pose proof (Vh' idx Hx) as V2.
    apply is_integral_value in V1. apply is_integral_value in V2. rewrite V1, V2.
    rewrite (integral_lift f p q g Hc Rg) by (auto; intros i Hi; apply is_integral_value, Vg, Hi).
    apply integral_value_perm. now symmetry.
Qed.
