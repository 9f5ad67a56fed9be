(** monotonicity, FFT pad sizes, chunks, moveaxis. *)
From Coq Require Import Lia Lqa Permutation Qround Sorted.
From Verif Require Import PyBase PyBaseFacts NumpyModel NumpyFacts QSum AxisModel AxisSpec AxisFacts NdModel NdFacts FieldModel FieldSpec FieldInvFacts FieldReduceFacts FieldCutFacts HelperModel HelperSpec.

(** ** Powers of two *)
Lemma padsize_power2_spec n : (1 <= n)%Z ->
  exists k, (0 <= k)%Z /\ fft_padsize_power2 n = (2 ^ k)%Z /\ (n < 2 ^ k <= 2 * n)%Z /\
    (forall j, (0 <= j)%Z -> (n < 2 ^ j)%Z -> (2 ^ k <= 2 ^ j)%Z) /\
    ((forall j, (0 <= j)%Z -> n <> 2 ^ j)%Z -> (2 ^ k < 2 * n)%Z /\ forall j, (0 <= j)%Z -> (n <= 2 ^ j)%Z -> (2 ^ k <= 2 ^ j)%Z).
Proof.
  intro Hn. unfold fft_padsize_power2, bit_length. destruct (Z.eqb_spec n 0) as [->|_]; [lia|].
  rewrite Z.abs_eq by lia. pose proof (Z.log2_nonneg n) as L. exists (Z.log2 n + 1)%Z. split; [lia|].
  rewrite Z.shiftl_1_l. split; [reflexivity|]. pose proof (Z.log2_spec n ltac:(lia)) as [S1 S2].
  rewrite <- Z.add_1_r in S2. assert (P : (2 ^ (Z.log2 n + 1) = 2 * 2 ^ Z.log2 n)%Z) by (rewrite Z.pow_add_r by lia; lia).
  split; [lia|]. assert (M : forall j, (0 <= j)%Z -> (n < 2 ^ j)%Z -> (2 ^ (Z.log2 n + 1) <= 2 ^ j)%Z).
  { intros j Hj H. apply Z.pow_le_mono_r; [lia|]. assert (Z.log2 n < j)%Z by (apply Z.log2_lt_pow2; lia). lia. }
  split; [exact M|]. intro Np. pose proof (Np (Z.log2 n) L) as N1. split; [lia|].
  intros j Hj H. apply M; [exact Hj|]. pose proof (Np j Hj). lia.
Qed.

(** ** FFTW_Pad *)
Definition default_factors : list Z := [2; 3; 5; 7; 11; 13]%Z.
Lemma combos_in l : forall x, In x (combos l) <-> exists ps, Forall2 (fun fm p => (p < snd fm)%nat) l ps /\
  x = fold_right Z.mul 1%Z (map2 (fun fm p => (fst fm ^ Z.of_nat p)%Z) l ps).
Proof.
  induction l as [|[f m] l IH]; intro x; cbn [combos].
  - split; [intros [<-|[]]; exists []; split; [constructor|reflexivity]|]. intros (ps & H & ->). inversion H; subst. now left.
  - rewrite in_flat_map. split.
    + intros (p & Hp & Hx). apply in_seq in Hp. apply in_map_iff in Hx as (y & <- & Hy). apply IH in Hy as (ps & F & ->).
      exists (p :: ps). split; [constructor; [cbn [snd]; lia|exact F]|]. cbn [map2 fold_right fst]. ring.
    + intros (ps & H & ->). inversion H as [|fm p l' ps' Hp F]; subst. cbn [snd] in Hp. exists p. split; [apply in_seq; lia|].
      cbn [map2 fold_right fst]. apply in_map. apply IH. eauto.
Qed.
Lemma default_split : split_factors default_factors = ([1; 11; 13], [2; 3; 5; 7])%Z.
Proof. reflexivity. Qed.
Lemma pow_pos b k : (1 <= b)%Z -> (1 <= b ^ Z.of_nat k)%Z.
Proof. intro H. pose proof (Z.pow_pos_nonneg b (Z.of_nat k)). lia. Qed.
Lemma friendly_split x : fftw_friendly x <-> exists e a b c d, In e [1; 11; 13]%Z /\
  x = (e * (2 ^ Z.of_nat a * (3 ^ Z.of_nat b * (5 ^ Z.of_nat c * (7 ^ Z.of_nat d * 1)))))%Z.
Proof.
  split.
  - intros (a & b & c & d & e & f & -> & H). exists (11 ^ Z.of_nat e * 13 ^ Z.of_nat f)%Z, a, b, c, d. split; [|ring].
    assert (C : (e = 0 /\ f = 0 \/ e = 1 /\ f = 0 \/ e = 0 /\ f = 1)%nat) by lia. cbn [In].
    destruct C as [[-> ->]|[[-> ->]|[-> ->]]]; cbn; auto.
  - intros (e & a & b & c & d & He & ->). cbn [In] in He. destruct He as [<-|[<-|[<-|[]]]].
    + exists a, b, c, d, 0%nat, 0%nat. split; [cbn [Z.of_nat]; ring|lia].
    + exists a, b, c, d, 1%nat, 0%nat. split; [change (Z.of_nat 1) with 1%Z; change (Z.of_nat 0) with 0%Z; ring|lia].
    + exists a, b, c, d, 0%nat, 1%nat. split; [change (Z.of_nat 1) with 1%Z; change (Z.of_nat 0) with 0%Z; ring|lia].
Qed.
Lemma friendly_pos x : fftw_friendly x -> (1 <= x)%Z.
Proof.
  intros (a & b & c & d & e & f & -> & _).
  pose proof (pow_pos 2 a ltac:(lia)). pose proof (pow_pos 3 b ltac:(lia)). pose proof (pow_pos 5 c ltac:(lia)).
  pose proof (pow_pos 7 d ltac:(lia)). pose proof (pow_pos 11 e ltac:(lia)). pose proof (pow_pos 13 f ltac:(lia)).
  repeat (apply (Z.mul_le_mono_nonneg 1 _ 1); [lia| |lia|lia]). lia.
Qed.
Lemma fold_mul_le f p q e m k : (1 <= f)%Z -> (1 <= e)%Z -> (1 <= q)%Z -> (m < e * f ^ Z.of_nat k)%Z -> (e * (f ^ Z.of_nat p * q) <= m)%Z -> (p < k)%nat.
Proof.
  intros Hf He Hq Hk H. destruct (le_lt_dec k p) as [L|]; [|assumption]. exfalso.
  assert (P : (f ^ Z.of_nat k <= f ^ Z.of_nat p)%Z) by (apply Z.pow_le_mono_r; lia).
  pose proof (pow_pos f k Hf). assert ((f ^ Z.of_nat k <= f ^ Z.of_nat p * q)%Z) by nia. nia.
Qed.
Lemma sizes_spec pw m : enough_powers pw -> (1 <= m)%Z ->
  exists t, fftw_sizes pw default_factors m = Ok t /\ StronglySorted Z.le t /\ forall x, In x t <-> fftw_friendly x /\ (x <= m)%Z.
Proof.
  intros Hpw Hm. unfold fftw_sizes. rewrite default_split. eexists. split; [reflexivity|]. split; [apply sort_Z_sorted|].
  intro x. set (l := flat_map _ _). transitivity (In x (filter (fun x => (x <=? m)%Z) l)).
  { split; apply Permutation_in; [apply sort_Z_perm|symmetry; apply sort_Z_perm]. }
  rewrite filter_In, Z.leb_le. unfold l. rewrite in_flat_map, friendly_split. split.
  - intros ((e & He & Hx) & Hle). split; [|exact Hle]. apply in_map_iff in Hx as (y & <- & Hy). apply combos_in in Hy as (ps & F & ->).
    cbn [map] in F. inversion F as [|? a ? ? ? F2]; subst. inversion F2 as [|? b ? ? ? F3]; subst. inversion F3 as [|? c ? ? ? F4]; subst.
    inversion F4 as [|? d ? ? ? F5]; subst. inversion F5; subst. exists e, a, b, c, d. split; [exact He|]. reflexivity.
  - intros ((e & a & b & c & d & He & ->) & Hle). split; [|exact Hle]. exists e. split; [exact He|]. apply in_map. apply combos_in.
    exists [a; b; c; d]. split; [|reflexivity].
    assert (E1 : (1 <= e)%Z) by (cbn [In] in He; lia).
    pose proof (pow_pos 2 a ltac:(lia)) as P2. pose proof (pow_pos 3 b ltac:(lia)) as P3. pose proof (pow_pos 5 c ltac:(lia)) as P5. pose proof (pow_pos 7 d ltac:(lia)) as P7.
    cbn [map].
    assert (Q : forall u v, (1 <= u)%Z -> (1 <= v)%Z -> (1 <= u * v)%Z) by (intros; nia).
    repeat (apply Forall2_cons || apply Forall2_nil); cbn [snd fst].
    + eapply (fold_mul_le 2 a _ e m); [lia|exact E1| |apply Hpw; cbn [In]; auto|exact Hle]. auto using Z.le_refl.
    + eapply (fold_mul_le 3 b (2 ^ Z.of_nat a * (5 ^ Z.of_nat c * (7 ^ Z.of_nat d * 1)))%Z e m); [lia|exact E1| |apply Hpw; cbn [In]; auto|]; [auto 6 using Z.le_refl|].
      etransitivity; [|exact Hle]. apply Z.eq_le_incl. ring.
    + eapply (fold_mul_le 5 c (2 ^ Z.of_nat a * (3 ^ Z.of_nat b * (7 ^ Z.of_nat d * 1)))%Z e m); [lia|exact E1| |apply Hpw; cbn [In]; auto|]; [auto 6 using Z.le_refl|].
      etransitivity; [|exact Hle]. apply Z.eq_le_incl. ring.
    + eapply (fold_mul_le 7 d (2 ^ Z.of_nat a * (3 ^ Z.of_nat b * (5 ^ Z.of_nat c * 1)))%Z e m); [lia|exact E1| |apply Hpw; cbn [In]; auto|]; [auto 6 using Z.le_refl|].
      etransitivity; [|exact Hle]. apply Z.eq_le_incl. ring.
Qed.
Lemma filter_none {A} (f : A -> bool) l : (forall x, In x l -> f x = false) -> filter f l = [].
Proof. induction l as [|y l IH]; intro H; [reflexivity|]. cbn [filter]. rewrite (H y (or_introl eq_refl)). apply IH. intros x Hx. apply H. now right. Qed.
Lemma filter_every {A} (f : A -> bool) l : (forall x, In x l -> f x = true) -> filter f l = l.
Proof. induction l as [|y l IH]; intro H; [reflexivity|]. cbn [filter]. rewrite (H y (or_introl eq_refl)). f_equal. apply IH. intros x Hx. apply H. now right. Qed.
Lemma sorted_split t n : StronglySorted Z.le t -> t = filter (fun x => (x <? n)%Z) t ++ filter (fun x => negb (x <? n)%Z) t.
Proof.
  induction 1 as [|x t S IH H]; [reflexivity|]. rewrite Forall_forall in H. cbn [filter]. destruct (Z.ltb_spec x n) as [L|L]; cbn [negb].
  - cbn [app]. now rewrite <- IH.
  - rewrite filter_none by (intros y Hy; apply Z.ltb_ge; specialize (H y Hy); lia).
    rewrite filter_every by (intros y Hy; apply negb_true_iff, Z.ltb_ge; specialize (H y Hy); lia). reflexivity.
Qed.
(** the entry found by searchsorted *)
Lemma search_spec t n : StronglySorted Z.le t ->
  match getidx t (searchsorted_Z t n) with
  | Ok r => In r t /\ (n <= r)%Z /\ forall x, In x t -> (n <= x)%Z -> (r <= x)%Z
  | Err _ => forall x, In x t -> (x < n)%Z
  end.
Proof.
  intro S. pose proof (sorted_split t n S) as E. unfold searchsorted_Z. set (lo := filter (fun x => (x <? n)%Z) t) in *. set (hi := filter (fun x => negb (x <? n)%Z) t) in *.
  assert (Hlo : forall x, In x lo -> (x < n)%Z) by (intros x Hx; unfold lo in Hx; apply filter_In in Hx as [_ Hx]; now apply Z.ltb_lt).
  assert (Hhi : forall x, In x hi -> (n <= x)%Z) by (intros x Hx; unfold hi in Hx; apply filter_In in Hx as [_ Hx]; apply negb_true_iff, Z.ltb_ge in Hx; exact Hx).
  clearbody lo hi. subst t. destruct hi as [|r hi].
  - rewrite app_nil_r in *. unfold getidx. replace (Z.of_nat (length lo) <? 0)%Z with false by (symmetry; apply Z.ltb_ge; lia).
    rewrite Z.ltb_irrefl, andb_false_r. exact Hlo.
  - rewrite (getidx_at _ _ 0%Z) by (rewrite app_length; cbn [length]; lia). rewrite app_nth2, Nat.sub_diag by lia. cbn [nth].
    split; [apply in_or_app; right; now left|]. split; [apply Hhi; now left|]. intros x Hx Hn. apply in_app_or in Hx as [Hx|Hx]; [specialize (Hlo x Hx); lia|].
    destruct Hx as [->|Hx]; [lia|]. assert (S2 : StronglySorted Z.le (r :: hi)).
    { clear - S. induction lo as [|y lo IH]; [exact S|]. apply IH. now inversion S. }
    inversion S2 as [|? ? _ F]; subst. rewrite Forall_forall in F. now apply F.
Qed.
Lemma sorted_last t d : StronglySorted Z.le t -> t <> [] -> getidx t (-1) = Ok (last t d) /\ In (last t d) t /\ forall x, In x t -> (x <= last t d)%Z.
Proof.
  intros S Hne. destruct (exists_last Hne) as (l & z & ->). rewrite last_last. split; [|split].
  - unfold getidx. rewrite app_length. cbn [length]. replace (-1 <? 0)%Z with true by reflexivity.
    replace (-1 + Z.of_nat (length l + 1))%Z with (Z.of_nat (length l)) by lia.
    replace ((0 <=? Z.of_nat (length l)) && (Z.of_nat (length l) <? Z.of_nat (length l + 1)))%Z with true by (symmetry; apply andb_true_intro; split; [apply Z.leb_le|apply Z.ltb_lt]; lia).
    rewrite Nat2Z.id, nth_error_app2, Nat.sub_diag by lia. reflexivity.
  - apply in_or_app. right. now left.
  - intros x Hx. apply in_app_or in Hx as [Hx|[->|[]]]; [|lia]. clear Hne. induction l as [|y l IH]; [destruct Hx|].
    inversion S as [|? ? S' F]; subst. destruct Hx as [->|Hx]; [|now apply IH]. rewrite Forall_forall in F. apply F. apply in_or_app. right. now left.
Qed.
Definition pad_state (pw : Z -> Z -> Z -> nat) (s : fftw_pad) : Prop :=
  fp_factors s = default_factors /\ exists m, (1 <= m)%Z /\ fftw_sizes pw default_factors m = Ok (fp_sizes s).
Lemma friendly_one : fftw_friendly 1.
Proof. exists 0%nat, 0%nat, 0%nat, 0%nat, 0%nat, 0%nat. split; [reflexivity|lia]. Qed.
Lemma call_spec pw s n : enough_powers pw -> pad_state pw s ->
  pad_state pw (fst (fftw_call pw s n)) /\
  match snd (fftw_call pw s n) with
  | Ok r => next_friendly n r
  | Err _ => (forall x, fftw_friendly x -> ~ (n <= x <= n + 10000)%Z)
  end.
Proof.
  destruct s as [fs ss]. intros Hpw (Hf & m & Hm & Ht). cbn [fp_factors fp_sizes] in Hf, Ht. destruct (sizes_spec pw m Hpw Hm) as (t & Et & St & It). rewrite Et in Ht. injection Ht as <-.
  assert (Hne : t <> []).
  { intro E. assert (In 1%Z t) by (apply It; split; [exact friendly_one|exact Hm]). rewrite E in H. destruct H. }
  destruct (sorted_last t 0%Z St Hne) as (El & Il & Ml). unfold fftw_call. cbn [fp_factors fp_sizes]. rewrite El.
  destruct (Z.ltb_spec (last t 0%Z) n) as [L|L].
  - assert (1 <= last t 0)%Z by (apply Ml, It; split; [exact friendly_one|exact Hm]).
    rewrite Hf. destruct (sizes_spec pw (n + 10000) Hpw ltac:(lia)) as (t' & Et' & St' & It'). rewrite Et'. cbn [rmap fst snd fp_sizes].
    split; [split; [reflexivity|]; exists (n + 10000)%Z; split; [lia|exact Et']|].
    pose proof (search_spec t' n St') as Sp. destruct (getidx t' (searchsorted_Z t' n)) as [r|e].
    + destruct Sp as (H1 & H2 & H3). apply It' in H1 as [H1 H1']. split; [exact H1|]. split; [exact H2|]. intros x Hx Hn.
      destruct (Z.le_gt_cases x (n + 10000)) as [Le|Gt]; [apply H3; [apply It'; now split|exact Hn]|lia].
    + intros x Hx [A B]. specialize (Sp x (proj2 (It' x) (conj Hx B))). lia.
  - cbn [fst snd fp_sizes fp_factors]. split; [split; [exact Hf|]; eauto|]. pose proof (search_spec t n St) as Sp.
    destruct (getidx t (searchsorted_Z t n)) as [r|e].
    + destruct Sp as (H1 & H2 & H3). destruct (proj1 (It r) H1) as [H1' H1'']. split; [exact H1'|]. split; [exact H2|]. intros x Hx Hn.
      destruct (Z.le_gt_cases x m) as [Le|Gt]; [apply H3; [apply It; now split|exact Hn]|]. specialize (Ml r H1). lia.
    + exfalso. specialize (Sp (last t 0%Z) Il). lia.
Qed.
Lemma after_state pw : enough_powers pw -> forall calls s, pad_state pw s -> pad_state pw (fftw_after pw s calls).
Proof.
  intro Hpw. induction calls as [|n calls IH]; intros s Hs; [exact Hs|]. cbn [fftw_after fold_left]. apply IH.
  now apply call_spec.
Qed.
Lemma init_state pw m : enough_powers pw -> match m with None => True | Some m => (1 <= m)%Z end ->
  exists s, fftw_init pw m default_factors = Ok s /\ pad_state pw s.
Proof.
  intros Hpw Hm. unfold fftw_init. set (k := match m with None => 1%Z | Some m => m end).
  assert (Hk : (1 <= k)%Z) by (unfold k; destruct m; [exact Hm|lia]).
  destruct (sizes_spec pw k Hpw Hk) as (t & Et & _). rewrite Et. cbn [bind]. eexists. split; [reflexivity|]. split; [reflexivity|]. eauto.
Qed.
Lemma fftw_history pw m calls n : enough_powers pw -> match m with None => True | Some m => (1 <= m)%Z end ->
  exists s, fftw_init pw m default_factors = Ok s /\
    match snd (fftw_call pw (fftw_after pw s calls) n) with
    | Ok r => next_friendly n r
    | Err _ => (forall x, fftw_friendly x -> ~ (n <= x <= n + 10000)%Z)
    end.
Proof.
  intros Hpw Hm. destruct (init_state pw m Hpw Hm) as (s & E & Hs). exists s. split; [exact E|]. apply call_spec; [exact Hpw|]. now apply after_state.
Qed.
(** the exact logarithm gives enough powers *)
Lemma count_powers_spec fuel bound e f : (1 <= e)%Z -> (2 <= f)%Z -> forall x, (1 <= x)%Z -> (bound < x * 2 ^ Z.of_nat fuel)%Z ->
  (bound < e * (x * f ^ Z.of_nat (count_powers fuel bound e f x)))%Z.
Proof.
  intros He Hf. induction fuel as [|k IH]; intros x Hx Hb.
  - cbn [count_powers]. change (f ^ Z.of_nat 0)%Z with 1%Z. change (2 ^ Z.of_nat 0)%Z with 1%Z in Hb. nia.
  - cbn [count_powers]. destruct (Z.leb_spec (e * x) bound) as [L|L].
    + rewrite Nat2Z.inj_succ, Z.pow_succ_r by lia. replace (e * (x * (f * f ^ Z.of_nat (count_powers k bound e f (f * x)))))%Z with (e * ((f * x) * f ^ Z.of_nat (count_powers k bound e f (f * x))))%Z by ring.
      apply IH; [nia|]. rewrite Nat2Z.inj_succ, Z.pow_succ_r in Hb by lia. pose proof (pow_pos 2 k ltac:(lia)). nia.
    + change (f ^ Z.of_nat 0)%Z with 1%Z. lia.
Qed.
Lemma exact_enough : enough_powers exact_powers.
Proof.
  intros m e f Hm He Hf. assert (E1 : (1 <= e)%Z) by (cbn [In] in He; lia). assert (F1 : (2 <= f)%Z) by (cbn [In] in Hf; lia).
  unfold exact_powers. pose proof (count_powers_spec (S (Z.to_nat (Z.log2 (m + e)))) (m + e) e f E1 F1 1%Z ltac:(lia)) as H.
  rewrite Z.mul_1_l in H. pose proof (Z.log2_spec (m + e) ltac:(lia)) as [_ S2]. pose proof (Z.log2_nonneg (m + e)).
  rewrite Nat2Z.inj_succ, Z2Nat.id in H by lia. specialize (H S2). lia.
Qed.
(** up to the first gap of more than 10000 some size is always found *)
Definition chain_exps : list (nat * nat * nat * nat * Z) := [(4, 0, 4, 0, 1%Z); (5, 0, 4, 0, 1%Z); 
   (4, 1, 4, 0, 1%Z); (6, 0, 4, 0, 1%Z); (4, 0, 5, 0, 1%Z); (5, 1, 4, 0, 1%Z); (4, 0, 4, 1, 1%Z); 
   (7, 0, 4, 0, 1%Z); (4, 2, 4, 0, 1%Z); (5, 0, 5, 0, 1%Z); (4, 0, 4, 0, 11%Z); (6, 1, 4, 0, 1%Z); 
   (4, 0, 4, 0, 13%Z); (5, 0, 4, 1, 1%Z); (4, 1, 5, 0, 1%Z); (8, 0, 4, 0, 1%Z); (0, 2, 1, 3, 11%Z); 
   (9, 3, 0, 0, 13%Z); (2, 6, 1, 0, 13%Z); (0, 7, 0, 1, 13%Z); (7, 0, 3, 0, 13%Z); (7, 5, 0, 1, 1%Z); 
   (2, 0, 4, 1, 13%Z); (0, 6, 2, 0, 13%Z); (7, 0, 2, 1, 11%Z); (11, 0, 3, 0, 1%Z); (2, 6, 0, 1, 13%Z); 
   (4, 3, 0, 2, 13%Z); (6, 4, 1, 0, 11%Z); (15, 2, 0, 0, 1%Z); (10, 3, 0, 0, 11%Z); (8, 0, 2, 2, 1%Z); 
   (3, 1, 2, 2, 11%Z); (2, 5, 0, 3, 1%Z); (3, 0, 3, 3, 1%Z); (0, 1, 0, 6, 1%Z); (7, 4, 1, 1, 1%Z); 
   (12, 0, 0, 1, 13%Z); (0, 7, 2, 1, 1%Z); (6, 0, 3, 2, 1%Z); (13, 0, 0, 2, 1%Z); (14, 0, 2, 0, 1%Z); 
   (9, 2, 0, 1, 13%Z); (1, 0, 4, 3, 1%Z); (1, 3, 4, 0, 13%Z); (9, 0, 3, 1, 1%Z); (9, 4, 0, 0, 11%Z); 
   (10, 0, 1, 1, 13%Z); (1, 2, 0, 4, 11%Z); (2, 2, 2, 2, 11%Z); (3, 2, 4, 0, 11%Z); (1, 1, 1, 5, 1%Z); 
   (6, 6, 0, 0, 11%Z); (6, 0, 4, 0, 13%Z); (4, 3, 2, 2, 1%Z); (9, 4, 0, 0, 13%Z); (6, 0, 2, 3, 1%Z); 
   (0, 0, 3, 3, 13%Z); (3, 4, 3, 1, 1%Z); (4, 1, 1, 4, 1%Z); (3, 2, 4, 0, 13%Z); (4, 3, 3, 0, 11%Z); 
   (5, 0, 1, 3, 11%Z); (2, 0, 5, 2, 1%Z); (9, 5, 1, 0, 1%Z); (3, 5, 2, 0, 13%Z); (4, 6, 1, 0, 11%Z); 
   (4, 0, 5, 0, 13%Z); (5, 1, 4, 0, 11%Z); (1, 1, 2, 3, 13%Z); (9, 3, 0, 2, 1%Z); (4, 0, 3, 3, 1%Z); 
   (0, 4, 2, 3, 1%Z); (9, 0, 3, 0, 11%Z); (5, 0, 1, 3, 13%Z); (1, 4, 0, 3, 13%Z); (1, 2, 5, 0, 13%Z); 
   (4, 3, 1, 3, 1%Z); (0, 7, 0, 3, 1%Z); (0, 5, 5, 0, 1%Z); (6, 0, 1, 4, 1%Z); (2, 4, 0, 4, 1%Z); 
   (2, 2, 5, 1, 1%Z); (1, 0, 4, 2, 13%Z); (14, 0, 0, 2, 1%Z); (2, 0, 6, 0, 13%Z); (0, 8, 3, 0, 1%Z); 
   (11, 4, 1, 0, 1%Z); (10, 2, 0, 1, 13%Z); (7, 3, 1, 2, 1%Z); (6, 1, 0, 3, 13%Z); (2, 9, 0, 0, 11%Z); 
   (3, 0, 6, 1, 1%Z); (15, 3, 0, 0, 1%Z); (0, 6, 2, 2, 1%Z); (14, 0, 1, 0, 11%Z); (4, 0, 4, 1, 13%Z); 
   (1, 1, 5, 2, 1%Z); (1, 6, 0, 2, 13%Z); (2, 1, 7, 0, 1%Z); (12, 1, 0, 1, 11%Z); (2, 1, 3, 2, 13%Z); 
   (0, 9, 0, 2, 1%Z); (0, 4, 1, 4, 1%Z); (5, 0, 4, 2, 1%Z); (4, 2, 4, 0, 11%Z); (6, 0, 6, 0, 1%Z); 
   (2, 1, 1, 5, 1%Z); (8, 4, 0, 2, 1%Z); (13, 0, 3, 0, 1%Z); (14, 2, 0, 1, 1%Z); (7, 0, 4, 0, 13%Z); 
   (4, 1, 5, 1, 1%Z); (0, 2, 0, 6, 1%Z); (14, 0, 1, 0, 13%Z); (0, 0, 5, 3, 1%Z); (15, 1, 0, 0, 11%Z); 
   (7, 5, 1, 1, 1%Z); (7, 0, 2, 3, 1%Z); (13, 3, 1, 0, 1%Z); (1, 0, 3, 3, 13%Z); (2, 2, 0, 4, 13%Z); 
   (2, 1, 2, 3, 11%Z); (8, 0, 0, 3, 13%Z); (0, 8, 2, 1, 1%Z); (0, 3, 3, 3, 1%Z); (1, 5, 0, 4, 1%Z); 
   (1, 0, 1, 6, 1%Z); (7, 3, 0, 3, 1%Z); (0, 1, 4, 2, 13%Z); (13, 1, 0, 2, 1%Z); (7, 6, 0, 0, 13%Z); 
   (7, 1, 1, 2, 13%Z); (7, 0, 3, 1, 11%Z); (8, 2, 0, 2, 11%Z); (0, 6, 1, 3, 1%Z); (5, 2, 4, 1, 1%Z); 
   (4, 1, 0, 4, 11%Z); (1, 6, 3, 1, 1%Z); (5, 2, 0, 3, 13%Z); (0, 0, 0, 6, 11%Z); (5, 0, 5, 0, 13%Z); 
   (1, 5, 1, 2, 11%Z); (8, 1, 1, 3, 1%Z); (14, 4, 0, 0, 1%Z); (2, 5, 3, 0, 11%Z); (4, 0, 1, 5, 1%Z); 
   (13, 1, 1, 0, 11%Z); (0, 4, 0, 5, 1%Z); (9, 5, 0, 0, 11%Z); (0, 2, 5, 2, 1%Z); (4, 2, 3, 1, 11%Z); 
   (0, 7, 0, 2, 13%Z); (6, 0, 5, 1, 1%Z); (10, 0, 3, 0, 11%Z); (2, 4, 4, 1, 1%Z); (6, 0, 1, 3, 13%Z); 
   (13, 0, 2, 1, 1%Z); (2, 8, 1, 0, 11%Z); (9, 4, 1, 1, 1%Z); (4, 6, 3, 0, 1%Z); (8, 2, 0, 2, 13%Z); 
   (0, 10, 2, 0, 1%Z); (3, 3, 4, 0, 11%Z); (11, 6, 0, 0, 1%Z); (0, 0, 4, 4, 1%Z); (4, 0, 2, 3, 11%Z); 
   (1, 5, 5, 0, 1%Z); (0, 4, 1, 3, 11%Z); (7, 0, 1, 4, 1%Z); (2, 2, 3, 3, 1%Z); (6, 2, 1, 2, 11%Z); 
   (1, 0, 2, 4, 13%Z); (8, 0, 3, 2, 1%Z); (12, 0, 1, 1, 11%Z); (2, 1, 1, 4, 11%Z); (0, 13, 0, 0, 1%Z); 
   (3, 6, 2, 0, 11%Z); (5, 1, 0, 5, 1%Z); (14, 2, 0, 0, 11%Z); (9, 0, 1, 2, 13%Z); (0, 1, 7, 1, 1%Z); 
   (4, 1, 5, 0, 11%Z); (12, 4, 1, 0, 1%Z); (2, 5, 1, 3, 1%Z); (0, 1, 3, 3, 13%Z); (2, 0, 2, 5, 1%Z); 
   (6, 0, 0, 4, 11%Z); (1, 2, 2, 3, 11%Z); (1, 1, 5, 1, 13%Z); (3, 0, 4, 3, 1%Z); (7, 0, 2, 2, 11%Z); 
   (2, 2, 4, 1, 11%Z); (10, 5, 0, 1, 1%Z); (0, 6, 0, 4, 1%Z); (8, 0, 4, 0, 11%Z); (16, 3, 0, 0, 1%Z); 
   (6, 4, 0, 3, 1%Z); (1, 6, 2, 2, 1%Z); (11, 0, 3, 1, 1%Z); (1, 1, 3, 4, 1%Z); (12, 2, 0, 2, 1%Z); 
   (2, 3, 0, 5, 1%Z); (11, 4, 0, 0, 11%Z); (6, 2, 1, 2, 13%Z); (8, 1, 0, 4, 1%Z); (3, 3, 2, 3, 1%Z); 
   (2, 6, 0, 2, 13%Z); (9, 6, 1, 0, 1%Z); (3, 1, 7, 0, 1%Z); (4, 0, 0, 6, 1%Z); (13, 1, 0, 1, 11%Z); 
   (3, 2, 0, 4, 11%Z); (3, 1, 3, 2, 13%Z); (5, 0, 2, 4, 1%Z); (0, 2, 4, 3, 1%Z); (11, 3, 1, 1, 1%Z); 
   (1, 4, 1, 4, 1%Z); (0, 0, 9, 0, 1%Z); (6, 0, 4, 2, 1%Z); (1, 2, 6, 1, 1%Z); (7, 2, 1, 3, 1%Z); 
   (2, 4, 3, 2, 1%Z); (13, 5, 0, 0, 1%Z); (3, 6, 0, 3, 1%Z); (13, 0, 1, 2, 1%Z); (3, 1, 1, 5, 1%Z); 
   (3, 4, 5, 0, 1%Z); (9, 4, 0, 2, 1%Z); (4, 6, 2, 1, 1%Z); (14, 0, 3, 0, 1%Z); (4, 1, 3, 3, 1%Z); 
   (0, 10, 1, 1, 1%Z); (5, 3, 0, 4, 1%Z); (0, 5, 2, 3, 1%Z)]%nat.
Definition chain_size (p : nat * nat * nat * nat * Z) : Z :=
  let '(a, b, c, d, e) := p in (e * (2 ^ Z.of_nat a * (3 ^ Z.of_nat b * (5 ^ Z.of_nat c * (7 ^ Z.of_nat d * 1)))))%Z.
Fixpoint small_gaps (x : Z) (l : list Z) : bool :=
  match l with [] => true | y :: r => ((x <? y) && (y <=? x + 10001))%Z && small_gaps y r end.
Lemma small_gaps_spec l : forall x n, small_gaps x l = true -> (x < n)%Z -> (n <= last l x)%Z -> exists y, In y l /\ (n <= y <= n + 10000)%Z.
Proof.
  induction l as [|y l IH]; intros x n H Hx Hn; [cbn [last] in Hn; lia|]. cbn [small_gaps] in H. apply andb_prop in H as [H1 H]. apply andb_prop in H1 as [H0 H1].
  apply Z.ltb_lt in H0. apply Z.leb_le in H1. destruct (Z.le_gt_cases n y) as [L|G]; [exists y; split; [now left|lia]|].
  destruct (IH y n H G) as (z & Hz & B).
  - destruct l as [|w l]; [cbn [last] in *; lia|]. replace (last (w :: l) y) with (last (y :: w :: l) x); [exact Hn|].
    clear. revert w. induction l as [|v l IH]; intro w; [reflexivity|]. specialize (IH v). cbn [last] in *. exact IH.
  - exists z. split; [now right|exact B].
Qed.
Lemma chain_friendly : Forall (fun p => In (snd p) [1; 11; 13]%Z) chain_exps.
Proof. apply Forall_forall. intros p Hp. assert (H : forallb (fun p => mem_Z (snd p) [1; 11; 13]%Z) chain_exps = true) by (vm_compute; reflexivity).
  rewrite forallb_forall in H. specialize (H p Hp). cbn [mem_Z] in H. cbn [In]. rewrite !orb_true_iff, !Z.eqb_eq in H. intuition congruence.
Qed.
Lemma friendly_near n : (n <= 2083725)%Z -> exists x, fftw_friendly x /\ (n <= x <= n + 10000)%Z \/ (n < -9999)%Z.
Proof.
  intro Hn. destruct (Z.lt_ge_cases n (-9999)) as [L|G]; [exists 0%Z; now right|].
  destruct (Z.le_gt_cases n 1) as [L1|G1]; [exists 1%Z; left; split; [exact friendly_one|lia]|].
  destruct (small_gaps_spec (map chain_size chain_exps) 1%Z n) as (y & Hy & B); [vm_compute; reflexivity|lia| |].
  - replace (last (map chain_size chain_exps) 1%Z) with 2083725%Z by (vm_compute; reflexivity). exact Hn.
  - exists y. left. split; [|exact B]. apply in_map_iff in Hy as ([[[[a b] c] d] e] & <- & Hp). apply friendly_split. exists e, a, b, c, d. split; [|reflexivity].
    pose proof chain_friendly as F. rewrite Forall_forall in F. apply (F _ Hp).
Qed.
Lemma call_low pw s n : enough_powers pw -> pad_state pw s -> (n <= 1)%Z -> snd (fftw_call pw s n) = Ok 1%Z.
Proof.
  destruct s as [fs ss]. intros Hpw (Hf & m & Hm & Ht) Hn. cbn [fp_factors fp_sizes] in Hf, Ht. destruct (sizes_spec pw m Hpw Hm) as (t & Et & St & It). rewrite Et in Ht. injection Ht as <-.
  assert (I1 : In 1%Z t) by (apply It; split; [exact friendly_one|exact Hm]).
  assert (Hne : t <> []) by (intro E; rewrite E in I1; destruct I1).
  destruct (sorted_last t 0%Z St Hne) as (El & Il & Ml). unfold fftw_call. cbn [fp_factors fp_sizes]. rewrite El. pose proof (Ml 1%Z I1).
  replace (last t 0 <? n)%Z with false by (symmetry; apply Z.ltb_ge; lia). cbn [snd fp_sizes]. pose proof (search_spec t n St) as Sp.
  destruct (getidx t (searchsorted_Z t n)) as [r|e]; [|exfalso; specialize (Sp 1%Z I1); lia].
  destruct Sp as (H1 & _ & H3). apply It in H1 as [H1 _]. apply friendly_pos in H1. specialize (H3 1%Z I1 ltac:(lia)). f_equal. lia.
Qed.
Lemma fftw_no_failure pw m calls n : enough_powers pw -> match m with None => True | Some m => (1 <= m)%Z end -> (n <= 2083725)%Z ->
  exists s r, fftw_init pw m default_factors = Ok s /\ snd (fftw_call pw (fftw_after pw s calls) n) = Ok r /\ next_friendly n r.
Proof.
  intros Hpw Hm Hn. destruct (init_state pw m Hpw Hm) as (s & E & Hs). exists s.
  pose proof (after_state pw Hpw calls s Hs) as Hs'. destruct (call_spec pw _ n Hpw Hs') as [_ H].
  destruct (snd (fftw_call pw (fftw_after pw s calls) n)) as [r|e] eqn:Er; [exists r; split; [exact E|]; now split|].
  exfalso. destruct (Z.le_gt_cases n 1) as [L|G]; [rewrite (call_low pw _ n Hpw Hs' L) in Er; discriminate|].
  destruct (friendly_near n Hn) as (x & [[Hx B]|B]); [exact (H x Hx B)|lia].
Qed.
Lemma padsize_of_power k : (0 <= k)%Z -> fft_padsize_power2 (2 ^ k) = (2 * 2 ^ k)%Z.
Proof.
  intro H. unfold fft_padsize_power2, bit_length. pose proof (Z.pow_pos_nonneg 2 k ltac:(lia) H). destruct (Z.eqb_spec (2 ^ k) 0); [lia|].
  rewrite Z.abs_eq, Z.log2_pow2, Z.shiftl_1_l, Z.pow_add_r by lia. lia.
Qed.

(** product *)
Lemma fold_mul {A} (mul : A -> A -> A) : (forall x y z, mul x (mul y z) = mul (mul x y) z) -> forall l x y, fold_left mul l (mul x y) = mul x (fold_left mul l y).
Proof. intro H. induction l as [|z l IH]; intros x y; [reflexivity|]. cbn [fold_left]. now rewrite <- H, IH. Qed.
Lemma product_parts {A} (mul : A -> A -> A) l m p q : (forall x y z, mul x (mul y z) = mul (mul x y) z) -> product mul l = Ok p -> product mul m = Ok q -> product mul (l ++ m) = Ok (mul p q).
Proof.
  intro H. destruct l as [|x l]; [discriminate|]. destruct m as [|y m]; [discriminate|]. cbn [product app]. intros E F. injection E as <-. injection F as <-.
  rewrite fold_left_app. cbn [fold_left]. now rewrite fold_mul.
Qed.
Lemma product_next {A} (mul : A -> A -> A) l x : product mul (l ++ [x]) = match product mul l with Ok p => Ok (mul p x) | Err _ => Ok x end.
Proof. destruct l as [|y l]; [reflexivity|]. cbn [product app]. now rewrite fold_left_app. Qed.
Lemma product_fails {A} (mul : A -> A -> A) l : (exists e, product mul l = Err e) <-> l = [].
Proof. split; [destruct l; [reflexivity|intros [e E]; discriminate]|intros ->; now exists ValueError]. Qed.
Lemma product_order {A} (mul : A -> A -> A) l m : (forall x y z, mul x (mul y z) = mul (mul x y) z) -> (forall x y, mul x y = mul y x) -> Permutation l m -> product mul l = product mul m.
Proof.
  intros H C P. induction P as [|x l m P IH|x y l|l m k _ IH1 _ IH2].
  - reflexivity.
  - cbn [product]. destruct l as [|y l], m as [|z m]; [reflexivity|now apply Permutation_nil in P|symmetry in P; now apply Permutation_nil in P|].
    cbn [product] in IH. cbn [fold_left]. rewrite !fold_mul by exact H. congruence.
  - cbn [product fold_left]. now rewrite (C x y).
  - congruence.
Qed.
Lemma product_numbers l : l <> [] -> product Z.mul l = Ok (fold_right Z.mul 1%Z l).
Proof.
  destruct l as [|x l]; [congruence|]. intros _. cbn [product fold_right]. f_equal. revert x. induction l as [|y l IH]; intro x; cbn [fold_left fold_right]; [lia|]. rewrite IH. lia.
Qed.
Lemma product_zero n : (0 < n)%nat -> product Z.mul (map Z.of_nat (seq 0 n)) = Ok 0%Z.
Proof. intro H. destruct n; [lia|]. rewrite product_numbers by discriminate. reflexivity. Qed.
Lemma product_factorial n : (0 < n)%nat -> product Z.mul (map Z.of_nat (seq 1 n)) = Ok (Z.of_nat (fact n)).
Proof.
  intro H. rewrite product_numbers by (destruct n; [lia|discriminate]). f_equal. clear H. induction n as [|n IH]; [reflexivity|].
  rewrite seq_S, map_app, fold_right_app. cbn [map fold_right]. replace (Z.of_nat (1 + n) * 1)%Z with (1 * Z.of_nat (S n))%Z by lia.
  assert (G : forall l a b, fold_right Z.mul (a * b)%Z l = (fold_right Z.mul a l * b)%Z) by (induction l as [|x l IHl]; intros a b; cbn [fold_right]; [reflexivity|rewrite IHl; lia]).
  rewrite G, IH. rewrite <- Nat2Z.inj_mul. f_equal. change (fact (S n)) with (S n * fact n)%nat. lia.
Qed.
Lemma moveaxis_scalar {V} (a : nda V) src dst : a_shape a = [] -> (np_moveaxis a src dst = Err ZeroDivisionError <-> src <> [] \/ dst <> []).
Proof.
  intro E. unfold np_moveaxis. rewrite E. cbn [length]. destruct src as [|x src], dst as [|y dst].
  - split; [|intros [H|H]; congruence]. unfold np_transpose. rewrite E. vm_compute. discriminate.
  - split; [right; discriminate|reflexivity].
  - split; [left; discriminate|reflexivity].
  - split; [left; discriminate|reflexivity].
Qed.
