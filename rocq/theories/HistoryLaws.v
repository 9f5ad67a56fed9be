(** Laws of particle histories (C39). *)
From Coq Require Import Lia Qround Permutation.
From Verif Require Import PyBase PyBaseFacts NumpyModel NumpyFacts NdModel NdFacts FieldModel FieldReduceFacts HelperModel HelperFacts ParticleModel ParticleSpec ParticleFacts ParticleOps ParticleHist ParticleRun ParticleLaws StatLaws HistoryModel HistorySpec HistoryFacts.

Lemma mapM_defined' {A B} (f : A -> res B) l : (forall x, In x l -> exists y, f x = Ok y) -> exists r, mapM f l = Ok r.
Proof.
  induction l as [|x l IH]; intro H; [eexists; reflexivity|]. cbn [mapM]. destruct (H x (or_introl eq_refl)) as [y ->].
  destruct IH as [r ->]; [intros; apply H; now right|]. eexists. reflexivity.
Qed.
Lemma combine_app' {A B} (a : list A) (c : list B) x y : length a = length c -> combine (a ++ x) (c ++ y) = combine a c ++ combine x y.
Proof. revert c. induction a as [|h a IH]; intros [|k c] L; try discriminate L; [reflexivity|]. cbn. f_equal. apply IH. now injection L. Qed.
Lemma filter_false {A} (l : list A) : filter (fun _ => false) l = [].
Proof. induction l; auto. Qed.
Lemma nth_error_skipn' {A} n : forall (l : list A) k, nth_error (skipn n l) k = nth_error l (n + k).
Proof. induction n as [|n IH]; intros l k; [reflexivity|]. destruct l; [destruct k; reflexivity|]. cbn. apply IH. Qed.
Lemma keeps_collect_dump names k fs d : keeps (collect_dump names k fs d).
Proof. unfold collect_dump. kp; eauto 2 using keeps_ms_new, keeps_ms_compress_ids, keeps_ms_len, keeps_ms_call, keeps_lift. Qed.
Section Laws.
Context (sizes : dump -> string -> nat).
Notation oinv := (oinv sizes).
Notation awf := (awf sizes).
Notation group_of := (group_of sizes).
Definition part : Type := (string * nat)%type.
Definition pvalue (d : dump) (f : expr Q) (p : part) : Q := e_fn f (map (value d (fst p) (snd p)) (e_keys f)).
Definition pid (d : dump) (p : part) : Q := value d (fst p) (snd p) "id".
Definition parts (names : list string) (ids : list Z) (d : dump) : list part :=
  flat_map (fun n => map (pair n) (filter (fun i => existsb (fun z => inject_Z z ==?q pid d (n, i)) ids) (seq 0 (sizes d n)))) (filter (there d) names).
Definition aobjs (d : dump) (names : list string) : list aobj := map (fun n => mkaobj d n AAll) (filter (there d) names).
Lemma aobjs_wf names d : (forall n, In n names -> dump_ok d n (sizes d n)) -> Forall awf (aobjs d names).
Proof.
  intro D. apply Forall_forall. intros o I. apply in_map_iff in I. destruct I as (n & <- & I). apply filter_In in I. destruct I as [I T].
  split; [now apply D|]. split; [exact T|exact Logic.I].
Qed.
Lemma aids_wf l o o' : awf o -> aids l o = Ok o' -> awf o' /\ (a_mask o = AAll -> a_mask o' <> ANone).
Proof.
  intros W H. unfold aids in H. destruct (aread o "id") as [[q|ids|n]|] eqn:E; try discriminate.
  assert (o' = acompress o (map (fun q => mem_Z (Qfloor q) l) ids)) as -> by (destruct l, ids; congruence).
  split; [apply acompress_wf; [exact W|]; rewrite map_length; apply (aread_vec_length sizes o _ _ W E)|].
  intros A N. unfold acompress in N. cbn [a_mask] in N. rewrite A in N. discriminate N.
Qed.
Lemma mapM_aids l os : Forall awf os -> forall os', mapM (aids l) os = Ok os' -> Forall awf os'.
Proof.
  induction 1 as [|o os W F IH]; intros os' E; cbn in E; [injection E as <-; constructor|].
  destruct (aids l o) as [o1|] eqn:G; [|discriminate]. cbn in E. destruct (mapM (aids l) os) as [r|]; [|discriminate]. injection E as <-.
  constructor; [apply (aids_wf l o o1 W G)|now apply IH].
Qed.
Lemma parts_groups names ids d : (forall n, In n names -> dump_ok d n (sizes d n)) -> forall os, mapM (aids ids) (aobjs d names) = Ok os ->
  Forall awf os /\ forall (f : expr Q), all_values f (map group_of os) = map (pvalue d f) (parts names ids d).
Proof.
  intros D os E. split; [exact (mapM_aids ids _ (aobjs_wf names d D) os E)|]. intro f.
  rewrite (mapM_groups sizes (aids ids) (select_if (has_id ids)) (aobjs d names) (aobjs_wf names d D) (ids_group sizes ids) os E).
  unfold aobjs, parts. rewrite !map_map. unfold all_values. rewrite map_map. clear. induction (filter (there d) names) as [|n l IH]; [reflexivity|].
  cbn [map concat flat_map]. rewrite map_app, IH. f_equal. unfold group_values, select_if. cbn [group_of with_sel g_sel]. unfold sel_of. cbn [a_mask].
  unfold npart. cbn [a_dump a_name]. rewrite map_map. reflexivity.
Qed.
Lemma as_row_flat n v r : length (flat v) = n -> as_row n v = Ok r -> r = flat v.
Proof.
  destruct v as [a|l|k]; cbn [flat as_row]; intros L H.
  - injection H as <-. rewrite <- L. reflexivity.
  - rewrite L, Nat.eqb_refl in H. now injection H as <-.
  - discriminate H.
Qed.
Lemma as_ints_flat v l : as_ints v = Ok l -> l = map trunc (flat v).
Proof. destruct v; cbn; intro H; try discriminate. now injection H as <-. Qed.
Lemma pdump_spec names ids fs d l rows : (forall n, In n names -> dump_ok d n (sizes d n)) -> pdump sizes names ids fs d = Ok (l, rows) ->
  l = map (fun p => trunc (pid d p)) (parts names ids d) /\ rows = map (fun f => map (pvalue d f) (parts names ids d)) fs.
Proof.
  intros D H. unfold pdump in H. fold (aobjs d names) in H. destruct (mapM (aids ids) (aobjs d names)) as [os|] eqn:E; [|discriminate]. cbn [bind] in H.
  destruct (parts_groups names ids d D os E) as [W V].
  assert (N : fold_right Nat.add 0%nat (map (count sizes) os) = length (parts names ids d)).
  { rewrite (fold_total sizes os W). rewrite <- (map_length (pvalue d id_expr)), <- V. symmetry. apply all_values_length. }
  rewrite N in H. apply bind_ok in H. destruct H as (rs & R & H). apply bind_ok in H. destruct H as (v & P & H). apply bind_ok in H.
  destruct H as (is & A & H). injection H as <- <-. split.
  - rewrite (as_ints_flat v is A), (pcall_flat sizes id_expr os v W P), V, map_map. reflexivity.
  - clear -R W V. revert rs R. induction fs as [|f fs IH]; intros rs R; cbn [mapM] in R; [now injection R as <-|].
    apply bind_ok in R. destruct R as (r & R1 & R). apply bind_ok in R. destruct R as (rs' & R2 & R). injection R as <-. cbn [map]. f_equal; [|now apply IH].
    apply bind_ok in R1. destruct R1 as (v & P & A). assert (F := pcall_flat sizes f os v W P). rewrite V in F.
    rewrite <- F. apply (as_row_flat (length (parts names ids d))); [rewrite F; apply map_length|exact A].
Qed.
Lemma pdump_total names ids fs d : (forall n, In n names -> dump_ok d n (sizes d n)) -> ids <> [] ->
  (forall n, In n names -> there d n = true -> known d n "id" /\ ~ is_scalar d n "id" /\ forall f key, In f fs -> In key (e_keys f) -> known d n key) ->
  exists r, pdump sizes names ids fs d = Ok r.
Proof.
  intros D I K. assert (W := aobjs_wf names d D).
  assert (Z : exists os, mapM (aids ids) (aobjs d names) = Ok os /\ forall o, In o os -> a_mask o <> ANone /\ a_dump o = d /\ In (a_name o) names /\ there d (a_name o) = true).
  { assert (J : forall o, In o (aobjs d names) -> a_mask o = AAll /\ a_dump o = d /\ In (a_name o) names /\ there d (a_name o) = true).
    { intros o Io. apply in_map_iff in Io. destruct Io as (n & <- & Io). apply filter_In in Io. repeat split; apply Io. }
    revert J. induction W as [|o os W1 W2 IH]; intro J; [exists []; split; [reflexivity|intros ? []]|].
    destruct IH as (r & R & Q); [intros; apply J; now right|]. destruct (J o (or_introl eq_refl)) as (M & Do & Nn & T).
    destruct (K (a_name o) Nn T) as (K2 & K3 & _). rewrite <- Do in K2, K3.
    assert (F : exists o', aids ids o = Ok o' /\ a_dump o' = a_dump o /\ a_name o' = a_name o).
    { destruct (aread_ok sizes o "id" W1 K2) as [x Rd]. unfold aids. rewrite Rd. pose proof (aread_shape sizes o "id" x W1 Rd) as Sh. destruct x as [q|l|n].
      - exfalso. apply K3. unfold is_scalar. unfold aread in Rd.
        destruct (dumped (a_dump o) (a_name o) "id") as [x|] eqn:Du; [|discriminate]. pose proof (convert_vec "id" x) as Kc.
        destruct x as [q'|l|n]; [eauto| |]; cbv iota in Kc; [revert Kc Rd; destruct (convert "id" (DVec l))|revert Kc Rd; destruct (convert "id" (DVoid n))];
          intros Kc Rd; try contradiction; try discriminate. destruct (a_mask o); discriminate.
      - destruct ids; [contradiction|]. eexists. split; [reflexivity|]. split; reflexivity.
      - destruct Sh. congruence. }
    destruct F as (o' & F & F1 & F2). exists (o' :: r). cbn [mapM]. rewrite F, R. split; [reflexivity|]. intros o2 [<-|I2]; [|now apply Q].
    split; [exact (proj2 (aids_wf ids o o' W1 F) M)|]. rewrite F1, F2. auto. }
  destruct Z as (os & E & Q). unfold pdump. fold (aobjs d names). rewrite E. cbn [bind].
  destruct (parts_groups names ids d D os E) as [W' V].
  assert (N : fold_right Nat.add 0%nat (map (count sizes) os) = length (parts names ids d)).
  { rewrite (fold_total sizes os W'). rewrite <- (map_length (pvalue d id_expr)), <- V. symmetry. apply all_values_length. }
  rewrite N.
  assert (R : exists rows, mapM (fun f => let! v := pcall sizes f os in as_row (length (parts names ids d)) v) fs = Ok rows).
  { apply mapM_defined'. intros f If. rewrite (pcall_total sizes f os W').
    - cbn [bind as_row]. rewrite V, map_length, Nat.eqb_refl. eauto.
    - intros o Io. destruct (Q o Io) as (M & Do & Nn & T). split; [exact M|]. intros key Ik. rewrite Do. destruct (K (a_name o) Nn T) as (_ & _ & K4). now apply (K4 f). }
  destruct R as [rows ->]. cbn [bind]. rewrite (pcall_total sizes id_expr os W').
  - cbn [bind as_ints]. eauto.
  - intros o Io. destruct (Q o Io) as (M & Do & Nn & T). split; [exact M|]. intros key [<-|[]]. rewrite Do. apply (K (a_name o) Nn T).
Qed.
(** ** the particle list *)
Lemma lookup_snoc ids x : lookup_dict (ids ++ [x]) = (x, length ids) :: lookup_dict ids.
Proof.
  unfold lookup_dict. rewrite app_length. cbn [length]. rewrite Nat.add_1_r, seq_S. cbn [Nat.add].
  rewrite combine_app' by (rewrite seq_length; reflexivity). cbn [combine]. now rewrite rev_app_distr.
Qed.
Lemma lookup_dict_spec ids : forall z i, dict_get (lookup_dict ids) z = Ok i <-> nth_error ids i = Some z /\ ~ In z (skipn (S i) ids).
Proof.
  induction ids as [|x ids IH] using rev_ind; intros z i.
  - split; [discriminate|]. intros [H _]. destruct i; discriminate H.
  - rewrite lookup_snoc. cbn [dict_get]. destruct (Z.eqb_spec x z) as [->|N].
    + split.
      * intro H. injection H as <-. rewrite nth_error_app2, Nat.sub_diag by lia. split; [reflexivity|]. rewrite skipn_all2; [intros []|]. rewrite app_length. cbn. lia.
      * intros [H1 H2]. destruct (Nat.lt_ge_cases i (length ids)) as [L|L].
        -- exfalso. apply H2. rewrite skipn_app. apply in_or_app. right. replace (S i - length ids)%nat with 0%nat by lia. now left.
        -- f_equal. assert (i < length (ids ++ [z]))%nat by (apply nth_error_Some; congruence). rewrite app_length in *. cbn in *. lia.
    + rewrite IH. destruct (Nat.lt_ge_cases i (length ids)) as [L|L].
      * rewrite nth_error_app1 by exact L. rewrite skipn_app. replace (S i - length ids)%nat with 0%nat by lia. cbn [skipn].
        split; intros [H1 H2]; (split; [exact H1|]); intro J; apply H2; [|apply in_or_app; now left].
        apply in_app_or in J. destruct J as [J|[J|[]]]; [exact J|contradiction].
      * rewrite (proj2 (nth_error_None ids i) L). rewrite nth_error_app2 by exact L.
        split; [intros [H _]; discriminate H|]. intros [H _]. exfalso. destruct (i - length ids)%nat as [|j]; [injection H as H; contradiction|destruct j; discriminate H].
Qed.
Lemma lookup_found ids z : In z ids -> exists i, dict_get (lookup_dict ids) z = Ok i /\ (i < length ids)%nat.
Proof.
  induction ids as [|x ids IH] using rev_ind; [intros []|]. intro I. rewrite lookup_snoc. cbn [dict_get]. rewrite app_length. cbn [length].
  destruct (Z.eqb_spec x z) as [->|N]; [exists (length ids); split; [reflexivity|lia]|].
  apply in_app_or in I. destruct I as [I|[I|[]]]; [|contradiction]. destruct (IH I) as (i & D & L). exists i. split; [exact D|lia].
Qed.
Definition goes_to (d : list (Z * nat)) (i : nat) (z : Z) : bool := match dict_get d z with Ok j => (j =? i)%nat | Err _ => false end.
Lemma distribute_spec d rows : forall ids cols k pl, length cols = length ids ->
  (forall j, (j < length ids)%nat -> column rows (k + j) = Ok (nth j cols [])) ->
  (forall z, In z ids -> exists i, dict_get d z = Ok i /\ (i < length pl)%nat) ->
  exists pl', distribute_to d rows ids k pl = Ok pl' /\ length pl' = length pl /\
    forall i, (i < length pl)%nat -> nth i pl' [] = nth i pl [] ++ map snd (filter (fun p => goes_to d i (fst p)) (combine ids cols)).
Proof.
  induction ids as [|z ids IH]; intros cols k pl L C G.
  - exists pl. split; [reflexivity|]. split; [reflexivity|]. intros. cbn. now rewrite app_nil_r.
  - destruct cols as [|c cols]; [discriminate L|]. cbn [distribute_to]. destruct (G z (or_introl eq_refl)) as (i0 & D & L0). rewrite D. cbn [bind].
    assert (C0 := C 0%nat ltac:(cbn; lia)). rewrite Nat.add_0_r in C0. rewrite C0. cbn [bind nth]. rewrite (getidx_at pl i0 [] L0). cbn [bind].
    destruct (IH cols (S k) (upd pl i0 (nth i0 pl [] ++ [c]))) as (pl' & E & L' & V).
    + now injection L.
    + intros j J. rewrite Nat.add_succ_comm. rewrite (C (S j)) by (cbn; lia). reflexivity.
    + intros y I. rewrite length_upd. apply G. now right.
    + exists pl'. rewrite length_upd in L', V. split; [exact E|]. split; [exact L'|]. intros i Li. rewrite (V i Li), nth_upd by exact L0.
      cbn [combine filter fst]. unfold goes_to at 2. rewrite D. rewrite (Nat.eqb_sym i0 i). destruct (Nat.eqb_spec i i0) as [->|N]; [|reflexivity].
      cbn [map snd]. now rewrite <- app_assoc.
Qed.
Lemma trunc_inject z : trunc (inject_Z z) = z.
Proof. unfold trunc. destruct (0 <=?q inject_Z z); [apply Qfloor_Z|apply Qceiling_Z]. Qed.
Lemma pid_integer d p : pid d p = inject_Z (trunc (pid d p)).
Proof. unfold pid, value. rewrite String.eqb_refl. now rewrite trunc_inject. Qed.
Lemma column_rows {A} (g : A -> part -> Q) (fs : list A) (P : list part) j p0 : (j < length P)%nat ->
  column (map (fun f => map (g f) P) fs) j = Ok (map (fun f => g f (nth j P p0)) fs).
Proof.
  intro L. unfold column. induction fs as [|f fs IH]; [reflexivity|]. cbn [map mapM].
  rewrite (getidx_at _ j (g f p0)) by (rewrite map_length; exact L). cbn [bind]. rewrite IH. cbn [bind]. now rewrite map_nth.
Qed.
Lemma filter_filter {A} (f g : A -> bool) l : filter f (filter g l) = filter (fun x => g x && f x) l.
Proof. induction l as [|x l IH]; [reflexivity|]. cbn [filter]. destruct (g x); cbn [filter andb]; [destruct (f x); now rewrite IH|exact IH]. Qed.
Lemma filter_map_comm {A B} (h : A -> B) (f : B -> bool) l : filter f (map h l) = map h (filter (fun x => f (h x)) l).
Proof. induction l as [|x l IH]; [reflexivity|]. cbn [map filter]. destruct (f (h x)); cbn [map]; now rewrite IH. Qed.
Lemma filter_flat_map {A B} (h : A -> list B) (f : B -> bool) l : filter f (flat_map h l) = flat_map (fun x => filter f (h x)) l.
Proof. induction l as [|x l IH]; [reflexivity|]. cbn [flat_map]. now rewrite filter_app, IH. Qed.
Lemma combine_maps {A B C} (f : A -> B) (g : A -> C) l : combine (map f l) (map g l) = map (fun x => (f x, g x)) l.
Proof. induction l as [|x l IH]; [reflexivity|]. cbn. now rewrite IH. Qed.
Lemma parts_occurrences names ids d x : In x ids -> filter (fun p => (trunc (pid d p) =? x)%Z) (parts names ids d) = occurrences sizes names x d.
Proof.
  intro I. unfold parts, occurrences. rewrite filter_flat_map. apply flat_map_ext. intro n. rewrite filter_map_comm, filter_filter. f_equal. apply filter_ext. intro i.
  change (value d n i "id") with (pid d (n, i)). assert (E := pid_integer d (n, i)). set (y := trunc (pid d (n, i))) in E. rewrite E, trunc_inject.
  destruct (Z.eqb_spec y x) as [->|N].
  - rewrite andb_true_r. transitivity true.
    + apply existsb_exists. exists x. split; [exact I|]. apply Qeq_bool_iff. reflexivity.
    + symmetry. apply Qeq_bool_iff. reflexivity.
  - rewrite andb_false_r. symmetry. apply not_true_is_false. intro C. apply Qeq_bool_iff in C. unfold Qeq in C. cbn in C. lia.
Qed.
Lemma parts_listed names ids d p : In p (parts names ids d) -> In (trunc (pid d p)) ids.
Proof.
  intro I. unfold parts in I. apply in_flat_map in I. destruct I as (n & _ & I). apply in_map_iff in I. destruct I as (i & <- & I). apply filter_In in I.
  destruct I as [_ E]. apply existsb_exists in E. destruct E as (z & Z & E). apply Qeq_bool_iff in E. assert (F := pid_integer d (n, i)). set (y := trunc (pid d (n, i))) in *. rewrite F in E.
  unfold Qeq in E. cbn [Qnum Qden inject_Z] in E. assert (y = z) as -> by lia. exact Z.
Qed.
(** ** all dumps *)
Definition outcome_of (ids0 : list Z) (names : list string) (fs : list (expr Q)) (sr : list dump) (i : nat) (x : Z) : list (list Q) :=
  if existsb (Z.eqb x) (skipn (S i) ids0) then [] else trajectory sizes names fs sr x.
Lemma parts_set names l l' d : (forall z, In z l <-> In z l') -> parts names l d = parts names l' d.
Proof.
  intro S. unfold parts. apply flat_map_ext. intro n. f_equal. apply filter_ext. intro i. apply eq_true_iff_eq. rewrite !existsb_exists.
  split; intros (z & I & E); exists z; (split; [now apply S|exact E]).
Qed.
Lemma dump_step ids0 l names fs d is rows pl : (forall n, In n names -> dump_ok d n (sizes d n)) -> (forall z, In z l <-> In z ids0) -> length pl = length ids0 ->
  pdump sizes names l fs d = Ok (is, rows) ->
  exists pl', distribute_to (lookup_dict ids0) rows is 0 pl = Ok pl' /\ length pl' = length pl /\
    forall i x, nth_error ids0 i = Some x -> nth i pl' [] = nth i pl [] ++ outcome_of ids0 names fs [d] i x.
Proof.
  intros D SS L E. destruct (pdump_spec names l fs d is rows D E) as [-> ->]. rewrite (parts_set names l ids0 d SS). set (P := parts names ids0 d).
  destruct (distribute_spec (lookup_dict ids0) (map (fun f => map (pvalue d f) P) fs) (map (fun p => trunc (pid d p)) P) (map (fun p => map (fun f => pvalue d f p) fs) P) 0 pl)
    as (pl' & E' & L' & V).
  - now rewrite !map_length.
  - intros j J. rewrite map_length in J. cbn [Nat.add]. destruct P as [|p0 P'] eqn:EP; [cbn in J; lia|]. rewrite <- EP in *.
    rewrite (column_rows (pvalue d) fs P j p0 J). f_equal. rewrite (nth_indep _ [] ((fun p => map (fun f => pvalue d f p) fs) p0)) by (rewrite map_length; exact J).
    rewrite (map_nth (fun p => map (fun f => pvalue d f p) fs)). reflexivity.
  - intros z I. apply in_map_iff in I. destruct I as (p & <- & I). rewrite L. apply lookup_found. exact (parts_listed names ids0 d p I).
  - exists pl'. split; [exact E'|]. split; [exact L'|]. intros i x N.
    assert (Li : (i < length ids0)%nat) by (apply nth_error_Some; congruence). rewrite (V i) by lia. f_equal.
    rewrite combine_maps, filter_map_comm, map_map. cbn [fst snd]. unfold outcome_of, trajectory. cbn [flat_map]. rewrite app_nil_r.
    destruct (existsb (Z.eqb x) (skipn (S i) ids0)) eqn:X.
    + assert (F : filter (fun p => goes_to (lookup_dict ids0) i (trunc (pid d p))) P = []); [|now rewrite F].
      rewrite (filter_ext_in _ (fun _ => false)); [apply filter_false|]. intros p I. unfold goes_to. destruct (dict_get _ _) as [j|] eqn:G; [|reflexivity].
      destruct (Nat.eqb_spec j i) as [->|]; [|reflexivity]. exfalso. apply lookup_dict_spec in G. destruct G as [G1 G2]. apply G2.
      rewrite N in G1. injection G1 as <-. apply existsb_exists in X. destruct X as (y & Y & E2). apply Z.eqb_eq in E2. now subst y.
    + rewrite <- (parts_occurrences names ids0 d x) by (eapply nth_error_In; exact N). f_equal. apply filter_ext_in. intros p I. unfold goes_to.
      destruct (lookup_found ids0 _ (parts_listed names ids0 d p I)) as (j & G & _). rewrite G. apply lookup_dict_spec in G. destruct G as [G1 G2].
      destruct (Nat.eqb_spec j i) as [->|Nj].
      * rewrite N in G1. injection G1 as G1. symmetry. apply Z.eqb_eq. now symmetry.
      * symmetry. apply Z.eqb_neq. intro EQ. rewrite EQ in G1, G2. apply Nj.
        assert (NX : ~ In x (skipn (S i) ids0)) by (intro J; assert (T : existsb (Z.eqb x) (skipn (S i) ids0) = true) by (apply existsb_exists; exists x; split; [exact J|apply Z.eqb_refl]); congruence).
        destruct (Nat.lt_trichotomy j i) as [H|[H|H]]; [|exact H|]; exfalso; [apply G2|apply NX]; eapply nth_error_In.
        -- instantiate (1 := (i - S j)%nat). rewrite nth_error_skipn'. replace (S j + (i - S j))%nat with i by lia. exact N.
        -- instantiate (1 := (j - S i)%nat). rewrite nth_error_skipn'. replace (S i + (j - S i))%nat with j by lia. exact G1.
Qed.
Lemma outcome_cons ids0 names fs d sr i x : outcome_of ids0 names fs (d :: sr) i x = outcome_of ids0 names fs [d] i x ++ outcome_of ids0 names fs sr i x.
Proof. unfold outcome_of. destruct (existsb _ _); [reflexivity|]. unfold trajectory. cbn [flat_map]. now rewrite app_nil_r. Qed.
Lemma collect_dumps_ok h fs ids0 : h_id2i h = lookup_dict ids0 -> forall sr w oss pl, oinv w oss -> dumps_ok sizes (h_speciess h) sr ->
  (h_ids h < length (w_ids w))%nat -> (forall z, In z (nth (h_ids h) (w_ids w) []) <-> In z ids0) -> length pl = length ids0 ->
  exists w2 oss2 r, collect_dumps h fs sr pl w = (w2, r) /\ oinv w2 oss2 /\ kept w w2 /\
    (forall x, r = Err x -> exists d, In d sr /\ pdump sizes (h_speciess h) (nth (h_ids h) (w_ids w) []) fs d = Err x) /\
    forall pl', r = Ok pl' -> length pl' = length ids0 /\ forall i x, nth_error ids0 i = Some x -> nth i pl' [] = nth i pl [] ++ outcome_of ids0 (h_speciess h) fs sr i x.
Proof.
  intro Hd. induction sr as [|d sr IH]; intros w oss pl O D K SS L.
  - exists w, oss, (Ok pl). split; [reflexivity|]. split; [exact O|]. split; [apply kept_refl|]. split; [discriminate|]. intros pl' E. injection E as <-. split; [exact L|].
    intros i x N. unfold outcome_of, trajectory. cbn [flat_map]. destruct (existsb _ _); now rewrite app_nil_r.
  - cbn [collect_dumps]. destruct (dump_op sizes (h_speciess h) (h_ids h) fs d w oss O K) as (w1 & oss1 & E1 & O1); [intros n I; apply D; [now left|exact I]|].
    assert (K1 : kept w w1). { replace w1 with (fst (collect_dump (h_speciess h) (h_ids h) fs d w)) by now rewrite E1. apply keeps_collect_dump. }
    destruct (pdump sizes (h_speciess h) (nth (h_ids h) (w_ids w) []) fs d) as [[is rows]|x] eqn:P.
    + rewrite (mbind_eq _ _ _ _ _ E1). cbn [fst snd]. rewrite Hd.
      destruct (dump_step ids0 _ (h_speciess h) fs d is rows pl ltac:(intros n I; apply D; [now left|exact I]) SS L P) as (pl1 & E2 & L1 & V1).
      unfold mbind at 1, mlift. rewrite E2. assert (Pm := proj2 K1 _ K).
      assert (Q : forall y, pdump sizes (h_speciess h) (nth (h_ids h) (w_ids w1) []) fs y = pdump sizes (h_speciess h) (nth (h_ids h) (w_ids w) []) fs y).
      { intro y. unfold pdump. f_equal. apply mapM_ext_in'. intros o _. apply aids_set. intro z. split; apply Permutation_in; [now apply Permutation_sym|exact Pm]. }
      destruct (IH w1 oss1 pl1 O1) as (w2 & oss2 & r & E3 & O2 & K2 & F & V2).
      * intros y n I. apply D. now right.
      * destruct K1. lia.
      * intro z. rewrite <- SS. split; apply Permutation_in; [now apply Permutation_sym|exact Pm].
      * lia.
      * exists w2, oss2, r. split; [exact E3|]. split; [exact O2|]. split; [eapply kept_trans; eassumption|]. split.
        -- intros x Ex. destruct (F x Ex) as (y & I & Y). exists y. split; [now right|]. now rewrite <- Q.
        -- intros pl' Er. destruct (V2 pl' Er) as [L2 V]. split; [exact L2|]. intros i x N. rewrite (V i x N), (V1 i x N), <- app_assoc, <- outcome_cons. reflexivity.
    + rewrite (mbind_err _ _ _ _ _ E1). exists w1, oss1, (Err x). split; [reflexivity|]. split; [exact O1|]. split; [exact K1|]. split; [|discriminate].
      intros y Ey. injection Ey as <-. exists d. split; [now left|exact P].
Qed.
(** ** collecting is a part of a history *)
Definition goes {A} (c : M A) (w : world) (s : list (list group)) : Prop := exists s2, later sizes w s (fst (c w)) s2.
Lemma goes_pure {A} (c : M A) w s : fst (c w) = w -> goes c w s.
Proof. intro E. exists s. rewrite E. apply l_same. Qed.
Lemma goes_op {A} (c : M A) o w s : allowed sizes o w -> step o w = fst (c w) -> goes c w s.
Proof. intros Al E. eexists. rewrite <- E. apply l_step; [apply l_same|exact Al]. Qed.
Lemma goes_bind {A B} (c : M A) (f : A -> M B) w s : goes c w s ->
  (forall w1 s1 a, c w = (w1, Ok a) -> later sizes w s w1 s1 -> goes (f a) w1 s1) -> goes (mbind c f) w s.
Proof.
  intros [s1 L] H. unfold goes, mbind. destruct (c w) as [w1 [a|e]] eqn:E; cbn [fst] in *; [|exists s1; exact L].
  destruct (H w1 s1 a eq_refl L) as [s2 L2]. exists s2. eapply later_trans; eassumption.
Qed.
Lemma later_ms w s w' s' : history sizes w s -> later sizes w s w' s' -> (length (w_ms w) <= length (w_ms w'))%nat.
Proof.
  intros H L. induction L as [|o w' s' L IH Al]; [lia|]. assert (H' := later_history _ _ _ _ _ H L).
  destruct (history_ok sizes w' s' H') as [oss [O _]]. destruct (step_ok sizes o w' oss O Al) as [O' _].
  rewrite (oinv_len sizes _ _ O'). rewrite (oinv_len sizes _ _ O) in IH. pose proof (afollow_length sizes o w' oss). lia.
Qed.
Lemma goes_rows m n fs : forall w s, history sizes w s -> (m < length (w_ms w))%nat -> goes (mmap (fun f => do! v := ms_call m f in mlift (as_row n v)) fs) w s.
Proof.
  induction fs as [|f fs IH]; intros w s H L; [now apply goes_pure|]. cbn [mmap]. apply goes_bind.
  - apply goes_bind; [|intros; now apply goes_pure]. apply (goes_op _ (UCall m f)); [exact L|reflexivity].
  - intros w1 s1 a E L1. apply goes_bind; [|intros; now apply goes_pure]. apply IH; [exact (later_history _ _ _ _ _ H L1)|].
    pose proof (later_ms _ _ _ _ H L1). lia.
Qed.
Lemma goes_dump names k fs d w s : history sizes w s -> (k < length (w_ids w))%nat -> (forall n, In n names -> dump_ok d n (sizes d n)) -> goes (collect_dump names k fs d) w s.
Proof.
  intros H K D. unfold collect_dump. apply goes_bind; [apply (goes_op _ (UNew d names true)); [exact D|reflexivity]|]. intros w1 s1 m E1 L1.
  assert (H1 := later_history _ _ _ _ _ H L1). assert (Km := later_kept _ _ _ _ _ L1).
  assert (M1 : (m < length (w_ms w1))%nat).
  { destruct (history_ok sizes w s H) as [oss [O _]]. destruct (new_op sizes w oss d names true O D) as [w1' [E O1]]. rewrite E1 in E.
    cbn [anew orb] in *. unfold anew in *. cbn [orb] in *. injection E as <- ->. rewrite (oinv_len sizes _ _ O1), app_length, (oinv_len sizes _ _ O). cbn. lia. }
  apply goes_bind; [apply (goes_op _ (UCompressIds m k)); [split; [exact M1|destruct Km; lia]|reflexivity]|]. intros w2 s2 m2 E2 L2.
  assert (H2 := later_history _ _ _ _ _ H1 L2).
  assert (M2 : (m2 < length (w_ms w2))%nat).
  { destruct (history_ok sizes w1 s1 H1) as [oss [O _]]. destruct (ids_op sizes w1 oss m k O M1) as [w2' [E O1]]. rewrite E2 in E.
    destruct (mapM _ _) as [os|]; [|discriminate]. injection E as <- ->. rewrite (oinv_len sizes _ _ O1), app_length, (oinv_len sizes _ _ O). cbn. lia. }
  apply goes_bind; [apply (goes_op _ (ULen m2)); [exact M2|reflexivity]|]. intros w3 s3 n E3 L3. assert (H3 := later_history _ _ _ _ _ H2 L3).
  assert (M3 := later_ms _ _ _ _ H2 L3). apply goes_bind; [apply goes_rows; [exact H3|lia]|]. intros w4 s4 rows E4 L4.
  assert (H4 := later_history _ _ _ _ _ H3 L4). assert (M4 := later_ms _ _ _ _ H3 L4).
  apply goes_bind; [apply (goes_op _ (UCall m2 id_expr)); [cbn; lia|reflexivity]|]. intros. apply goes_bind; [now apply goes_pure|]. intros. now apply goes_pure.
Qed.
Lemma goes_collect h fs sr : forall pl w s, history sizes w s -> (h_ids h < length (w_ids w))%nat -> dumps_ok sizes (h_speciess h) sr -> goes (collect_dumps h fs sr pl) w s.
Proof.
  induction sr as [|d sr IH]; intros pl w s H K D; [now apply goes_pure|]. cbn [collect_dumps].
  apply goes_bind; [apply goes_dump; auto; intros n I; apply D; [now left|exact I]|]. intros w1 s1 p E1 L1.
  apply goes_bind; [now apply goes_pure|]. intros w2 s2 pl2 E2 L2. assert (E : w2 = w1) by (unfold mlift in E2; congruence). subst w2.
  apply IH; [exact (later_history _ _ _ _ _ H (later_trans _ _ _ _ _ _ _ L1 L2))| |intros y n I; apply D; now right].
  destruct (later_kept _ _ _ _ _ L1). lia.
Qed.
(** ** the statements *)
Definition made (sr : list dump) (names : list string) (ids : list Z) (h : phistory) (w : world) : Prop :=
  h_sr h = sr /\ h_speciess h = names /\ h_id2i h = lookup_dict ids /\ (h_ids h < length (w_ids w))%nat /\ Permutation ids (nth (h_ids h) (w_ids w) []).
Lemma new_made sr names ids w w1 h : ph_new sr names ids w = (w1, Ok h) -> made sr names ids h w1 /\ w1 = step (UIds ids) w.
Proof.
  intro E. unfold ph_new, ph_new_array, mbind, get_ids, new_ids, mret in E. cbn [fst snd w_ids] in E. injection E as <- <-. split; [|reflexivity].
  unfold made. cbn [h_sr h_speciess h_id2i h_ids w_ids]. rewrite app_nth2, Nat.sub_diag by lia. cbn [nth]. rewrite app_length. cbn [length]. repeat split; [lia|apply Permutation_refl].
Qed.
Lemma made_kept sr names ids h w w' : made sr names ids h w -> kept w w' -> made sr names ids h w'.
Proof.
  intros (A & B & C & D & E) [L P]. split; [exact A|]. split; [exact B|]. split; [exact C|]. split; [lia|]. eapply Permutation_trans; [exact E|apply P, D].
Qed.
Lemma collect_ok sr names ids h w s fs : history sizes w s -> dumps_ok sizes names sr -> made sr names ids h w ->
  exists w2 r, ph_collect h fs w = (w2, r) /\ (exists s2, later sizes w s w2 s2) /\
    (forall x, r = Err x -> exists d, In d sr /\ pdump sizes names (nth (h_ids h) (w_ids w) []) fs d = Err x) /\
    forall l, r = Ok l -> length l = length ids /\ forall i x, nth_error ids i = Some x ->
      nth i l [] = if existsb (Z.eqb x) (skipn (S i) ids) then [] else trajectory sizes names fs sr x.
Proof.
  intros H D (<- & <- & C & K & P). destruct (history_ok sizes w s H) as [oss [O _]]. unfold ph_collect, mbind, get_ids. cbn [fst snd].
  destruct (collect_dumps_ok h fs ids C (h_sr h) w oss (repeat [] (length (nth (h_ids h) (w_ids w) []))) O D K) as (w2 & oss2 & r & E & _ & _ & F & V).
  - intro z. split; apply Permutation_in; [now apply Permutation_sym|exact P].
  - rewrite repeat_length. symmetry. apply Permutation_length, P.
  - exists w2, r. split; [exact E|]. split.
    + destruct (goes_collect h fs (h_sr h) (repeat [] (length (nth (h_ids h) (w_ids w) []))) w s H K D) as [s2 L]. rewrite E in L. exists s2. exact L.
    + split; [exact F|]. intros l El. destruct (V l El) as [L V']. split; [exact L|]. intros i x N. rewrite (V' i x N).
      replace (nth i (repeat [] (length (nth (h_ids h) (w_ids w) []))) []) with (@nil (list Q)); [reflexivity|]. symmetry. apply nth_repeat.
Qed.
Lemma trajectories sr names ids w0 s0 w1 h w s fs w2 l :
  history sizes w0 s0 -> dumps_ok sizes names sr -> ph_new sr names ids w0 = (w1, Ok h) -> later sizes w1 s0 w s -> ph_collect h fs w = (w2, Ok l) ->
  (exists s2, later sizes w s w2 s2) /\ length l = length ids /\
  forall i x, nth_error ids i = Some x -> nth i l [] = if existsb (Z.eqb x) (skipn (S i) ids) then [] else trajectory sizes names fs sr x.
Proof.
  intros H D N L C. destruct (new_made _ _ _ _ _ _ N) as [Md ->].
  assert (H1 : history sizes (step (UIds ids) w0) s0) by exact (h_step sizes (UIds ids) w0 s0 H Logic.I).
  assert (Hw := later_history _ _ _ _ _ H1 L). assert (M2 := made_kept _ _ _ _ _ _ Md (later_kept _ _ _ _ _ L)).
  destruct (collect_ok sr names ids h w s fs Hw D M2) as (w3 & r & E & G & _ & V). rewrite C in E. injection E as <- <-. split; [exact G|]. exact (V l eq_refl).
Qed.
Lemma collectable sr names ids w0 s0 w1 h w s fs :
  history sizes w0 s0 -> dumps_ok sizes names sr -> ph_new sr names ids w0 = (w1, Ok h) -> later sizes w1 s0 w s -> ids <> [] -> tracked names fs sr ->
  exists w2 l, ph_collect h fs w = (w2, Ok l).
Proof.
  intros H D N L NE T. destruct (new_made _ _ _ _ _ _ N) as [Md ->].
  assert (H1 : history sizes (step (UIds ids) w0) s0) by exact (h_step sizes (UIds ids) w0 s0 H Logic.I).
  assert (Hw := later_history _ _ _ _ _ H1 L). assert (M2 := made_kept _ _ _ _ _ _ Md (later_kept _ _ _ _ _ L)).
  destruct (collect_ok sr names ids h w s fs Hw D M2) as (w3 & r & E & _ & F & _). destruct r as [l|x]; [eauto|]. exfalso.
  destruct (F x eq_refl) as (d & I & P). destruct (pdump_total names (nth (h_ids h) (w_ids w) []) fs d) as [r R].
  - intros n J. now apply D.
  - intro Z. destruct M2 as (_ & _ & _ & _ & Pm). rewrite Z in Pm. apply Permutation_sym, Permutation_nil in Pm. contradiction.
  - intros n J Th. now apply T.
  - congruence.
Qed.
(** ** skip *)
Lemma every_nth n l i : nth_error (every n 0 l) i = nth_error l (i * S n).
Proof.
  assert (G : forall l k i, nth_error (every n k l) i = nth_error l (k + i * S n)%nat).
  { clear. induction l as [|x l IH]; intros k i; [destruct i, k; try reflexivity; now destruct (k + S i * S n)%nat|]. cbn [every].
    destruct k as [|k]; [|rewrite IH; reflexivity]. destruct i as [|i]; [reflexivity|]. cbn [nth_error]. rewrite IH. reflexivity. }
  rewrite G. reflexivity.
Qed.
Lemma skipped_trajectories h n w s sk w1 s1 fs w2 l :
  history sizes w s -> dumps_ok sizes (h_speciess h) (h_sr h) -> ph_skip h n w = (w, Ok sk) ->
  history sizes w1 s1 -> nth (h_ids h) (w_ids w1) [] = nth (h_ids h) (w_ids w) [] -> sk_collect sk fs w1 = (w2, Ok l) ->
  exists ids, (forall i, nth_error ids i = nth_error (nth (h_ids h) (w_ids w) []) (i * S n)) /\ length l = length ids /\
  forall i x, nth_error ids i = Some x -> nth i l [] = if existsb (Z.eqb x) (skipn (S i) ids) then [] else trajectory sizes (h_speciess h) fs (h_sr h) x.
Proof.
  intros H D E H1 S1 C. set (ids := every n 0 (nth (h_ids h) (w_ids w) [])). exists ids. split; [intro i; apply every_nth|]. unfold ph_skip, mbind, get_ids, mret in E. cbn [fst snd] in E. injection E as <-.
  unfold sk_collect, mbind, get_ids, new_ids in C. cbn [fst snd k_base k_skip k_sr k_speciess k_id2i] in C. rewrite S1 in C. fold ids in C.
  assert (H2 : history sizes (step (UIds ids) w1) s1) by exact (h_step sizes (UIds ids) w1 s1 H1 Logic.I). change (mkworld (w_bools w1) (w_ids w1 ++ [ids]) (w_objs w1) (w_ms w1)) with (step (UIds ids) w1) in C.
  destruct (collect_ok (h_sr h) (h_speciess h) ids (mkph (h_sr h) (h_speciess h) (length (w_ids w1)) (lookup_dict ids)) (step (UIds ids) w1) s1 fs H2 D) as (w3 & r & E & _ & _ & V).
  - unfold made. cbn. rewrite app_length, app_nth2, Nat.sub_diag by lia. cbn. repeat split; [lia|apply Permutation_refl].
  - rewrite E in C. injection C as _ ->. exact (V l eq_refl).
Qed.
(** ** ids not given *)
Lemma findids_ok enum sr names w s : (forall l, Permutation l (enum l)) -> history sizes w s -> dumps_ok sizes names sr ->
  forall w1 ids, ph_findids enum sr names w = (w1, Ok ids) ->
    (exists s1, later sizes w s w1 s1) /\ NoDup ids /\ forall x, In x ids <-> exists d, In d sr /\ occurrences sizes names x d <> [].
Proof.
  intros En H D w1 ids E. unfold ph_findids in E.
  assert (G : forall sr w s, history sizes w s -> dumps_ok sizes names sr -> forall w1 found,
    mmap (fun dr => do! ms := ms_new dr names true in do! v := ms_call ms id_expr in mlift match v with VVec l => Ok (map trunc l) | VScalar _ | VVoid _ => Err TypeError end) sr w = (w1, Ok found) ->
    (exists s1, later sizes w s w1 s1) /\ forall x, In x (concat found) <-> exists d, In d sr /\ occurrences sizes names x d <> []).
  { clear. induction sr as [|d sr IH]; intros w s H D w1 found E.
    - cbn [mmap] in E. unfold mret in E. injection E as <- <-. split; [exists s; apply l_same|]. intro x. split; [intros []|intros (d & [] & _)].
    - cbn [mmap] in E. assert (Dd : forall n, In n names -> dump_ok d n (sizes d n)) by (intros n I; apply D; [now left|exact I]).
      destruct (history_ok sizes w s H) as [oss [O _]]. destruct (new_op sizes w oss d names true O Dd) as [v1 [E1 O1]]. unfold anew in *. cbn [orb] in *.
      assert (L1 : later sizes w s v1 (if succeeds (UNew d names true) w then follow sizes (UNew d names true) w s else s)).
      { replace v1 with (step (UNew d names true) w) by (unfold step; now rewrite E1). apply l_step; [apply l_same|exact Dd]. }
      set (s1 := if succeeds (UNew d names true) w then follow sizes (UNew d names true) w s else s) in *. clearbody s1.
      assert (M1 : (length (w_ms w) < length (w_ms v1))%nat) by (rewrite (oinv_len sizes _ _ O1), app_length, (oinv_len sizes _ _ O); cbn; lia).
      destruct (call_op sizes id_expr v1 _ (length (w_ms w)) O1 M1) as [v2 [E2 O2]].
      assert (L2 : later sizes v1 s1 v2 (if succeeds (UCall (length (w_ms w)) id_expr) v1 then follow sizes (UCall (length (w_ms w)) id_expr) v1 s1 else s1)).
      { replace v2 with (step (UCall (length (w_ms w)) id_expr) v1) by (unfold step; now rewrite E2). apply l_step; [apply l_same|exact M1]. }
      set (s2 := if succeeds _ v1 then _ else s1) in *. clearbody s2.
      unfold mbind at 1 2 in E. rewrite E1 in E. unfold mbind at 1 in E. rewrite E2 in E.
      rewrite (oinv_len sizes _ _ O), app_nth2, Nat.sub_diag in E by lia. cbn [nth] in E. fold (aobjs d names) in E.
      destruct (pcall sizes id_expr (aobjs d names)) as [v|] eqn:P; [|discriminate]. destruct v as [| l |]; try discriminate. unfold mlift at 1 in E.
      assert (Le : l = map (pid d) (flat_map (fun n => map (pair n) (seq 0 (sizes d n))) (filter (there d) names))).
      { assert (W := aobjs_wf names d Dd). assert (F := pcall_flat sizes id_expr _ _ W P). cbn [flat] in F. rewrite F.
        unfold aobjs. rewrite map_map. unfold all_values. rewrite map_map. clear. induction (filter (there d) names) as [|n l IH]; [reflexivity|].
        cbn [map concat flat_map]. rewrite map_app, IH. f_equal. unfold group_values. cbn [group_of g_sel]. unfold sel_of. cbn [a_mask].
        unfold npart. cbn [a_dump a_name]. rewrite map_map. reflexivity. }
      unfold mbind at 1 in E. destruct (mmap _ sr v2) as [v3 [fd|]] eqn:E3; [|discriminate]. unfold mret in E. injection E as <- <-.
      assert (L12 := later_trans _ _ _ _ _ _ _ L1 L2). destruct (IH v2 s2 (later_history _ _ _ _ _ H L12) ltac:(intros y n I; apply D; now right) v3 fd E3) as [[s3 L3] V].
      split; [exists s3; exact (later_trans _ _ _ _ _ _ _ L12 L3)|]. intro x. cbn [concat]. rewrite in_app_iff, V. subst l. rewrite map_map. split.
      + intros [I|(y & I & N)]; [|exists y; split; [now right|exact N]]. exists d. split; [now left|]. apply in_map_iff in I. destruct I as (q & Q1 & Q2).
        assert (Z : In q (occurrences sizes names x d)); [|intro Z'; rewrite Z' in Z; destruct Z].
        apply in_flat_map in Q2. destruct Q2 as (n & N1 & N2). unfold occurrences. apply in_flat_map. exists n. split; [exact N1|]. apply in_map_iff in N2. destruct N2 as (i & <- & I). apply in_map.
        apply filter_In. split; [exact I|]. apply Qeq_bool_iff. rewrite <- Q1. change (value d n i "id") with (pid d (n, i)). rewrite <- pid_integer. reflexivity.
      + intros (y & [<-|I] & N); [left|right; exists y; split; [exact I|exact N]]. destruct (occurrences sizes names x d) as [|q l] eqn:Oc; [contradiction|].
        assert (Z : In q (occurrences sizes names x d)) by (rewrite Oc; now left). unfold occurrences in Z. apply in_flat_map in Z. destruct Z as (n & N1 & N2).
        apply in_map_iff in N2. destruct N2 as (i & <- & I). apply filter_In in I. destruct I as [I J]. apply in_map_iff. exists (n, i). split.
        * apply Qeq_bool_iff in J. change (value d n i "id") with (pid d (n, i)) in J. assert (F := pid_integer d (n, i)). set (y := trunc (pid d (n, i))) in *.
          rewrite F in J. unfold Qeq in J. cbn [Qnum Qden inject_Z] in J. lia.
        * apply in_flat_map. exists n. split; [exact N1|]. now apply in_map. }
  unfold mbind at 1 in E. destruct (mmap _ sr w) as [w2 [found|]] eqn:E1; [|discriminate]. unfold mret in E. injection E as <- <-.
  destruct (G sr w s H D w2 found E1) as [L V]. split; [exact L|]. split.
  - eapply Permutation_NoDup; [apply En|]. apply NoDup_nodup.
  - intro x. rewrite <- V. rewrite <- (nodup_In Z.eq_dec (concat found)). split; apply Permutation_in; [apply Permutation_sym|]; apply En.
Qed.
End Laws.
