(** max_frac_bounds and the bounds chosen by autocutout (C18). *)
From Coq Require Import Lia Lqa Permutation Setoid.
From Verif Require Import PyBase PyBaseFacts NumpyModel NumpyFacts QSum AxisModel AxisSpec AxisFacts
  NdModel NdFacts FieldModel FieldSpec FieldInvFacts FieldNodedFacts FieldRearrFacts FieldReduceFacts FieldOpFacts FieldIntFacts FieldGridFacts FieldDerivFacts FieldIndexFacts.

Lemma list_max_spec l : l <> [] -> exists m, list_max l = Ok m /\ In m l /\ forall x, In x l -> x <= m.
Proof.
  destruct l as [|x l]; [congruence|]. intros _. cbn [list_max]. eexists. split; [reflexivity|].
  assert (G : forall l m, (fold_left (fun m y => if m <?q y then y else m) l m = m \/ In (fold_left (fun m y => if m <?q y then y else m) l m) l) /\
     m <= fold_left (fun m y => if m <?q y then y else m) l m /\
     forall y, In y l -> y <= fold_left (fun m y => if m <?q y then y else m) l m).
  { clear. induction l as [|a l IH]; intro m; cbn [fold_left]; [split; [auto|]; split; [lra|intros y []]|].
    destruct (IH (if m <?q a then a else m)) as (H1 & H2 & H3). destruct (Qltb_spec m a) as [Hm|Hm].
    - split; [right; destruct H1 as [->|H1]; [left; reflexivity|right; exact H1]|]. split; [lra|].
      intros y [<-|Hy]; [exact H2|now apply H3].
    - split; [destruct H1 as [->|H1]; [left; reflexivity|right; right; exact H1]|]. split; [lra|].
      intros y [<-|Hy]; [lra|now apply H3]. }
  destruct (G l x) as (H1 & H2 & H3). split; [destruct H1 as [->|H1]; [left; reflexivity|right; exact H1]|].
  intros y [<-|Hy]; [exact H2|now apply H3].
Qed.
Lemma filter_first_last (p : nat -> bool) n a i : filter p (seq 0 n) = a :: i ->
  (a <= last (a :: i) a)%nat /\ (last (a :: i) a < n)%nat /\ p a = true /\ p (last (a :: i) a) = true /\
  forall k, (k < n)%nat -> p k = true -> (a <= k <= last (a :: i) a)%nat.
Proof.
  assert (G : forall m s a i, filter p (seq s m) = a :: i ->
    (s <= a <= last (a :: i) a)%nat /\ (last (a :: i) a < s + m)%nat /\ p a = true /\ p (last (a :: i) a) = true /\
    forall k, (s <= k < s + m)%nat -> p k = true -> (a <= k <= last (a :: i) a)%nat).
  { induction m as [|m IH]; intros s a0 i0 H; [discriminate|]. cbn [seq filter] in H. destruct (p s) eqn:E.
    - injection H as <- H. destruct i0 as [|b i0].
      + cbn [last]. split; [lia|]. split; [lia|]. split; [exact E|]. split; [exact E|]. intros k Hk Hpk.
        destruct (Nat.eq_dec k s); [lia|]. exfalso. assert (In k (filter p (seq (S s) m))) by (apply filter_In; split; [apply in_seq; lia|exact Hpk]).
        rewrite H in H0. destruct H0.
      + destruct (IH (S s) b i0 H) as (A1 & A2 & A3 & A4 & A5).
        assert (Lst : last (s :: b :: i0) s = last (b :: i0) b).
        { change (last (s :: b :: i0) s) with (last (b :: i0) s). clear. revert b. induction i0 as [|c i0 IH]; intro b; [reflexivity|].
          change (last (b :: c :: i0) s) with (last (c :: i0) s). change (last (b :: c :: i0) b) with (last (c :: i0) b).
          rewrite IH. clear IH. revert c. induction i0 as [|d i0 IH]; intro c; [reflexivity|].
          change (last (c :: d :: i0) c) with (last (d :: i0) c). change (last (c :: d :: i0) b) with (last (d :: i0) b).
          destruct i0 as [|e i0]; [reflexivity|].
          clear. change (last (e :: i0) c = last (e :: i0) b). revert e. induction i0 as [|x i0 IH]; intro e; [reflexivity|]. apply IH. }
        rewrite Lst. split; [lia|]. split; [lia|]. split; [exact E|]. split; [exact A4|]. intros k Hk Hpk.
        destruct (Nat.eq_dec k s); [lia|]. specialize (A5 k ltac:(lia) Hpk). lia.
    - destruct (IH (S s) a0 i0 H) as (A1 & A2 & A3 & A4 & A5). split; [lia|]. split; [lia|]. split; [exact A3|]. split; [exact A4|].
      intros k Hk Hpk. destruct (Nat.eq_dec k s) as [->|]; [congruence|]. apply A5; [lia|exact Hpk]. }
  intro H. destruct (G n 0%nat a i H) as (A1 & A2 & A3 & A4 & A5). split; [lia|]. split; [lia|]. split; [exact A3|]. split; [exact A4|].
  intros k Hk. apply A5. lia.
Qed.
(** a..b-1 is the smallest interval that holds every index above the fraction *)
Lemma frac_bounds_ok l fr a b : max_frac_bounds l fr = Ok (a, b) ->
  exists m, In m l /\ (forall x, In x l -> x <= m) /\ (0 <= a < b)%Z /\ (b <= Z.of_nat (length l))%Z /\
    m * fr < nth (Z.to_nat a) l 0 /\ m * fr < nth (Z.to_nat (b - 1)) l 0 /\
    forall k, (0 <= k < Z.of_nat (length l))%Z -> m * fr < nth (Z.to_nat k) l 0 -> (a <= k < b)%Z.
Proof.
  unfold max_frac_bounds. intro H. apply bind_ok in H as (m & Hm & H).
  assert (Hl : l <> []) by (intros ->; discriminate). destruct (list_max_spec l Hl) as (m' & E & Hin & Hmax). rewrite Hm in E. injection E as <-.
  exists m. split; [exact Hin|]. split; [exact Hmax|].
  destruct (filter _ _) as [|a0 i0] eqn:E; [discriminate|].
  destruct (filter_first_last _ _ _ _ E) as (A1 & A2 & A3 & A4 & A5). revert H A1 A2 A4 A5. generalize (last (a0 :: i0) a0) as L.
  intros L H A1 A2 A4 A5. injection H as <- <-.
  split; [lia|]. split; [lia|]. rewrite Nat2Z.id. split; [now destruct (Qltb_spec (m * fr) (nth a0 l 0))|].
  split.
  { replace (Z.to_nat _) with L by lia. now destruct (Qltb_spec (m * fr) (nth L l 0)). }
  intros k Hk Hpk. specialize (A5 (Z.to_nat k) ltac:(lia)). cbv beta in A5.
  destruct (Qltb_spec (m * fr) (nth (Z.to_nat k) l 0)); [|lra]. specialize (A5 eq_refl). lia.
Qed.
Lemma frac_bounds_total l fr m : In m l -> (forall x, In x l -> x <= m) -> 0 < m -> fr < 1 -> exists a b, max_frac_bounds l fr = Ok (a, b).
Proof.
  intros Hin Hmax H0 H1. assert (Hl : l <> []) by (intros ->; destruct Hin).
  destruct (list_max_spec l Hl) as (m' & E & Hin' & Hmax'). unfold max_frac_bounds. rewrite E. cbn [bind].
  assert (m' == m) by (specialize (Hmax m' Hin'); specialize (Hmax' m Hin); lra).
  destruct (filter _ _) as [|a i] eqn:Ef; [|eauto]. exfalso.
  apply In_nth with (d := 0) in Hin as (k & Hk & Ek).
  assert (In k (filter (fun k => (m' * fr) <?q nth k l 0) (seq 0 (length l)))).
  { apply filter_In. split; [apply in_seq; lia|]. rewrite Ek. destruct (Qltb_spec (m' * fr) m) as [|N]; [reflexivity|]. exfalso. apply N. nra. }
  rewrite Ef in H2. destruct H2.
Qed.
Lemma cutout_bounds_ok prof fr e f b c : cutout_bounds prof fr = Ok (e, f, (b, c)) ->
  exists m, In m prof /\ (forall x, In x prof -> x <= m) /\
    (0 <= e <= b)%Z /\ (b < c)%Z /\ (c <= f <= Z.of_nat (length prof))%Z /\ (b - e = f - c)%Z /\
    (forall k, (0 <= k < Z.of_nat (length prof))%Z -> m * snd fr < nth (Z.to_nat k) prof 0 -> (b <= k < c)%Z) /\
    m * snd fr < nth (Z.to_nat b) prof 0 /\ m * snd fr < nth (Z.to_nat (c - 1)) prof 0 /\
    (e = 0%Z \/ f = Z.of_nat (length prof) \/
     forall k, (0 <= k < Z.of_nat (length prof))%Z -> m * fst fr < nth (Z.to_nat k) prof 0 -> (e <= k < f)%Z).
Proof.
  unfold cutout_bounds. intro H. apply bind_ok in H as ([a d] & Had & H). apply bind_ok in H as ([b' c'] & Hbc & H).
  destruct (negb _) eqn:E; [discriminate|]. apply negb_false_iff in E. apply andb_prop in E as [E1 E3]. apply andb_prop in E1 as [E1 E2].
  apply Z.leb_le in E1, E2, E3. injection H as <- <- <- <-.
  apply frac_bounds_ok in Had as (m1 & I1 & M1 & R1 & R2 & _ & _ & C1).
  apply frac_bounds_ok in Hbc as (m & Hin & Hmax & R3 & R4 & V1 & V2 & C). exists m. split; [exact Hin|]. split; [exact Hmax|].
  split; [lia|]. split; [lia|]. split; [lia|]. split; [lia|]. split; [exact C|]. split; [exact V1|]. split; [exact V2|].
  assert (Em : m1 == m) by (specialize (Hmax m1 I1); specialize (M1 m Hin); lra).
  assert (D : (b' <= Z.max (d - c') (b' - a) \/ Z.of_nat (length prof) - c' <= Z.max (d - c') (b' - a) \/ (Z.max (d - c') (b' - a) < b' /\ Z.max (d - c') (b' - a) < Z.of_nat (length prof) - c'))%Z) by lia.
  destruct (Z.le_gt_cases b' (Z.of_nat (length prof) - c')) as [Lb|Lb]; destruct D as [D|[D|[D D']]]; try (left; lia); try (right; left; lia);
    right; right; intros k Hk Hv; assert (a <= k < d)%Z by (apply C1; [exact Hk|]; rewrite Em; exact Hv); lia.
Qed.
(** with 0 <= lower <= upper < 1 and something positive, bounds are found *)
Lemma cutout_bounds_total prof fr : (exists x, In x prof /\ 0 < x) -> fst fr <= snd fr -> snd fr < 1 ->
  exists e f b c, cutout_bounds prof fr = Ok (e, f, (b, c)).
Proof.
  intros (x & Hx & Hp) H0 H1. assert (Hl : prof <> []) by (intros ->; destruct Hx).
  destruct (list_max_spec prof Hl) as (m & _ & Hin & Hmax). assert (0 < m) by (specialize (Hmax x Hx); lra).
  destruct (frac_bounds_total prof (fst fr) m Hin Hmax H) as (a & d & E1); [lra|].
  destruct (frac_bounds_total prof (snd fr) m Hin Hmax H) as (b & c & E2); [exact H1|].
  unfold cutout_bounds. rewrite E1, E2. cbn [bind].
  apply frac_bounds_ok in E1 as (m1 & I1 & M1 & R1 & R2 & V1 & V2 & C1). apply frac_bounds_ok in E2 as (m2 & I2 & M2 & R3 & R4 & V3 & V4 & C2).
  assert (m1 == m) by (specialize (M1 m Hin); specialize (Hmax m1 I1); lra).
  assert (m2 == m) by (specialize (M2 m Hin); specialize (Hmax m2 I2); lra).
  assert (B : (a <= b < d)%Z) by (apply C1; [lia|]; nra).
  assert (B' : (a <= c - 1 < d)%Z) by (apply C1; [lia|]; nra).
  replace ((a <=? b)%Z && (b <=? c)%Z && (c <=? d)%Z) with true.
  - cbn [negb]. eauto 8.
  - symmetry. rewrite !andb_true_iff, !Z.leb_le. lia.
Qed.
(** * The field *)
Lemma field_map_total {V W} (op : V -> W) (f : field V) : consistent f -> (length (f_shape f) <= 3)%nat ->
  field_map op f = Ok (mkField (np_map op (f_data f)) (mkLayer (f_axes f) (f_ats f) (f_tao f) (l_name (f_top f)) (l_unit (f_top f))) []).
Proof.
  intros Hf H3. pose proof (consistent_map f Hf) as Hm. destruct Hf as (L & _). apply field_of_total; [exact Hm|lia].
Qed.
Lemma lists_fibre_self sh i : in_shape sh i = true -> lists_fibre sh [] i [i] .
Proof.
  intro H. split; [repeat constructor; intros []|]. assert (E : others (length sh) [] = seq 0 (length sh)).
  { unfold others. rewrite (filter_ext _ (fun _ => true)) by reflexivity. induction (seq 0 (length sh)) as [|x l IH]; [reflexivity|]. cbn [filter]. now rewrite IH. }
  assert (G : forall j, in_shape sh j = true -> entries_at 0%Z j (others (length sh) []) = j).
  { intros j Hj. apply in_shape_length in Hj. rewrite E, <- Hj. apply map_nth_seq. }
  intro j. split; [intros [<-|[]]; auto|]. intros [H1 H2]. rewrite G in H2 by exact H1. now left.
Qed.
Lemma profile_nth f k : nth 0 (f_shape f) 0%Z = k -> (length (f_shape f) = 1)%nat -> (0 <= k)%Z ->
  exists prof, profile f = Ok prof /\ length prof = Z.to_nat k /\ forall i, (0 <= i < k)%Z -> nth (Z.to_nat i) prof 0 = a_at (f_data f) [i].
Proof.
  intros Hk L H0. unfold profile. change 0%Z with (Z.of_nat 0) at 1. rewrite (getidx_at (f_shape f) 0 0%Z) by lia. rewrite Hk. cbn [bind].
  eexists. split; [reflexivity|]. assert (Lz : length (zrange k) = Z.to_nat k) by (unfold zrange; now rewrite map_length, seq_length).
  split; [now rewrite map_length|].
  intros i Hi. rewrite (nth_indep _ 0 (a_at (f_data f) [0%Z])) by (rewrite map_length, Lz; lia).
  rewrite (map_nth (fun i => a_at (f_data f) [i])). f_equal. f_equal. unfold zrange.
  rewrite (nth_indep _ 0%Z (Z.of_nat 0)) by (rewrite map_length, seq_length; lia). rewrite map_nth, seq_nth by lia. lia.
Qed.
(** the profile along axis k of a one or two dimensional field *)
Lemma profile_total spl f k : consistent f -> nonempty (f_shape f) -> (length (f_shape f) <= 2)%nat -> (k < length (f_shape f))%nat ->
  exists fa fm prof, field_map qabs f = Ok fa /\
    mean_others spl (Z.of_nat k) (zlist (Z.to_nat (dims (f_shape f)))) fa = Ok fm /\ profile fm = Ok prof /\ projection f k prof.
Proof.
  intros Hf Hne H2 Hk. rewrite (nonempty_dims _ Hne), Nat2Z.id. rewrite (field_map_total qabs f Hf ltac:(lia)).
  set (fa := mkField _ _ _). exists fa.
  assert (Ca : consistent fa).
  { pose proof (consistent_map f Hf) as Hm. destruct Hf as (L & _ & L2 & L3). apply map_consistent; assumption. }
  assert (Sa : f_shape fa = f_shape f) by reflexivity.
  assert (Va : forall j, a_at (f_data fa) j = qabs (a_at (f_data f) j)) by reflexivity. clearbody fa.
  assert (Hn : forall m, (m < length (f_shape f))%nat -> (0 < nth m (f_shape f) 0)%Z) by (intros m Hm'; apply (proj1 (Forall_nth _ _) Hne); exact Hm').
  destruct (f_shape f) as [|n1 [|n2 [|]]] eqn:Es; cbn [length] in *; try lia.
  - assert (k = 0%nat) as -> by lia. cbn [length]. change (zlist 1) with [0%Z]. cbn [mean_others Z.of_nat]. change (0 =? 0)%Z with true. cbv iota.
    specialize (Hn 0%nat ltac:(lia)). cbn in Hn.
    destruct (profile_nth fa n1) as (prof & E & Lp & Vp); [now rewrite Sa|now rewrite Sa|lia|]. exists fa, prof.
    split; [reflexivity|]. split; [reflexivity|]. split; [exact E|]. unfold projection. rewrite Es. split; [exact Lp|].
    cbn [nth length]. intros i Hi. exists [[i]]. split.
    + change (others 1 [0%nat]) with (@nil nat). apply (lists_fibre_self [n1]). cbn [in_shape]. rewrite andb_true_r. apply andb_true_iff. split; [apply Z.leb_le|apply Z.ltb_lt]; lia.
    + rewrite (Vp i Hi), Va. cbn [map]. rewrite qsum_cons, qsum_nil. change (inject_Z (Z.of_nat (length [[i]]))) with 1. field.
  - set (o := (1 - k)%nat).
    assert (M : exists fm, mean_others spl (Z.of_nat k) (zlist 2) fa = field_reduce spl rmean fa (AxInt (Z.of_nat o)) false /\
       field_reduce spl rmean fa (AxInt (Z.of_nat o)) false = Ok fm /\ f_shape fm = [nth k [n1; n2] 0%Z] /\
       forall idx, in_shape (f_shape fm) idx = true -> exists js, lists_fibre [n1; n2] [o] idx js /\ a_at (f_data fm) idx = rmean (map (a_at (f_data fa)) js)).
    { destruct (reduce_drops spl rmean fa (AxInt (Z.of_nat o)) [o] Ca) as (g & Eg & Sg & _ & _ & _ & _ & _ & Vg).
      { rewrite Sa. cbn. lia. } { exact I. } { rewrite Sa. cbn [axisarg_positions length mapM]. rewrite py_pos_nat by (unfold o; lia). reflexivity. } { discriminate. }
      exists g. split.
      - change (zlist 2) with [0; 1]%Z. cbn [mean_others]. assert (k = 0 \/ k = 1)%nat as [-> | ->] by lia.
        + change (0 =? Z.of_nat 0)%Z with true. change (1 =? Z.of_nat 0)%Z with false. cbv iota. change (Z.of_nat o) with 1%Z.
          destruct (field_reduce _ _ _ _ _); reflexivity.
        + change (0 =? Z.of_nat 1)%Z with false. change (1 =? Z.of_nat 1)%Z with true. cbv iota. change (Z.of_nat o) with 0%Z.
          destruct (field_reduce _ _ _ _ _); reflexivity.
      - split; [exact Eg|]. rewrite Sa in Sg, Vg. split; [|exact Vg]. rewrite Sg. assert (k = 0 \/ k = 1)%nat as [-> | ->] by lia; reflexivity. }
    destruct M as (fm & E1 & E2 & Sm & Vm). cbn [length]. rewrite E1, E2.
    destruct (profile_nth fm (nth k [n1; n2] 0%Z)) as (prof & E & Lp & Vp).
    { now rewrite Sm. } { now rewrite Sm. } { specialize (Hn k Hk). lia. }
    exists fm, prof. split; [reflexivity|]. split; [reflexivity|]. split; [exact E|]. unfold projection. rewrite Es. split; [exact Lp|].
    intros i Hi. destruct (Vm [i]) as (js & F & V).
    { rewrite Sm. cbn [in_shape]. rewrite andb_true_r. apply andb_true_iff. split; [apply Z.leb_le|apply Z.ltb_lt]; lia. }
    exists js. split.
    + replace (others (length [n1; n2]) [k]) with [o] by (assert (k = 0 \/ k = 1)%nat as [-> | ->] by lia; reflexivity). exact F.
    + rewrite (Vp i Hi), V. unfold rmean. rewrite map_length. rewrite (map_ext _ _ Va). reflexivity.
Qed.
Lemma qsum_nonneg_pos l : (forall x, In x l -> 0 <= x) -> 0 <= qsum l /\ ((exists x, In x l /\ 0 < x) -> 0 < qsum l).
Proof.
  induction l as [|a l IH]; intro H.
  - rewrite qsum_nil. split; [lra|]. intros (x & [] & _).
  - rewrite qsum_cons. destruct IH as [H1 H2]; [intros x Hx; apply H; now right|]. assert (0 <= a) by (apply H; now left).
    split; [lra|]. intros (x & [<-|Hx] & Hp); [lra|]. specialize (H2 (ex_intro _ x (conj Hx Hp))). lra.
Qed.
Lemma others_compl n k : (k < n)%nat -> others n (others n [k]) = [k].
Proof.
  intro H. unfold others at 1. rewrite (filter_ext_in _ (fun i => Nat.eqb i k)).
  - clear - H. assert (G : forall m s, (s <= k < s + m)%nat -> filter (fun i => Nat.eqb i k) (seq s m) = [k]).
    { assert (Z0 : forall m s, (k < s)%nat -> filter (fun i => Nat.eqb i k) (seq s m) = []).
      { induction m as [|m IH]; intros s Hs; [reflexivity|]. cbn [seq filter]. destruct (Nat.eqb_spec s k); [lia|]. apply IH. lia. }
      induction m as [|m IH]; intros s Hs; [lia|]. cbn [seq filter]. destruct (Nat.eqb_spec s k) as [->|]; [now rewrite Z0 by lia|]. apply IH. lia. }
    apply G. lia.
  - intros i Hi. apply in_seq in Hi. destruct (Nat.eqb_spec i k) as [->|E].
    + apply negb_true_iff. apply not_true_is_false. intro B. apply existsb_exists in B as (x & Hx & Ex). apply Nat.eqb_eq in Ex as <-.
      apply others_In in Hx as [_ Hx]. apply Hx. now left.
    + apply negb_false_iff. apply existsb_exists. exists i. split; [|apply Nat.eqb_refl]. apply others_In. split; [lia|]. intros [->|[]]. lia.
Qed.
Lemma projection_pos f k prof j : projection f k prof -> nonempty (f_shape f) -> (k < length (f_shape f))%nat ->
  in_shape (f_shape f) j = true -> ~ a_at (f_data f) j == 0 -> exists x, In x prof /\ 0 < x.
Proof.
  intros [Lp H] Hne Hk Hj Hz. pose proof (in_shape_nth _ _ k 0%Z 0%Z Hj Hk) as Hi.
  destruct (H (nth k j 0%Z) Hi) as (js & [Nd F] & V). exists (nth (Z.to_nat (nth k j 0%Z)) prof 0). split; [apply nth_In; lia|].
  rewrite V. assert (Hin : In j js).
  { apply F. split; [exact Hj|]. rewrite others_compl by exact Hk. reflexivity. }
  assert (Lj : (0 < length js)%nat) by (destruct js; [destruct Hin|cbn; lia]).
  assert (Hq : 0 < qsum (map (fun j => qabs (a_at (f_data f) j)) js)).
  { apply qsum_nonneg_pos.
    - intros x Hx. apply in_map_iff in Hx as (y & <- & _). unfold qabs. destruct (Qleb_spec 0 (a_at (f_data f) y)); lra.
    - exists (qabs (a_at (f_data f) j)). split; [apply in_map_iff; eauto|]. unfold qabs. destruct (Qleb_spec 0 (a_at (f_data f) j)); [|lra].
      destruct (Qle_lt_or_eq _ _ q); [assumption|]. exfalso. apply Hz. now symmetry. }
  apply Qlt_shift_div_l; [|lra]. change 0 with (inject_Z 0). rewrite <- Zlt_Qlt. lia.
Qed.
(** the slices chosen *)
Definition cut_slice (iv : cuts) (k : nat) : slice := mkslice (Some (fst (fst (cut_of iv k)))) (Some (snd (fst (cut_of iv k)))) None.
Definition cut_window (iv : cuts) (k : nat) : Z * Z * Q :=
  let '((e, ff), (b, c)) := cut_of iv k in (Z.of_nat k, (ff - e)%Z, 1 - inject_Z (c - b) / inject_Z (ff - e)).
Lemma cutout_slices_total spl fr f iv : consistent f -> nonempty (f_shape f) -> (length (f_shape f) <= 2)%nat ->
  forall ks slices, length slices = length (f_shape f) ->
  (forall k, In k ks -> (k < length (f_shape f))%nat) ->
  (forall k, In k ks -> forall prof fa fm, field_map qabs f = Ok fa ->
    mean_others spl (Z.of_nat k) (zlist (Z.to_nat (dims (f_shape f)))) fa = Ok fm -> profile fm = Ok prof ->
    cutout_bounds prof fr = Ok (fst (fst (cut_of iv k)), snd (fst (cut_of iv k)), snd (cut_of iv k))) ->
  exists sls, cutout_slices spl fr f (map Z.of_nat ks) slices = Ok (sls, map (cut_window iv) ks) /\
    length sls = length slices /\
    forall k d, (k < length slices)%nat -> nth k sls d = if existsb (Nat.eqb k) ks then cut_slice iv k else nth k slices d.
Proof.
  intros Hf Hne H2. induction ks as [|k ks IH]; intros slices Ls Hks Hb; cbn [map cutout_slices].
  - exists slices. split; [reflexivity|]. split; [reflexivity|]. reflexivity.
  - destruct (profile_total spl f k Hf Hne H2 (Hks k (or_introl eq_refl))) as (fa & fm & prof & E1 & E2 & E3 & _).
    rewrite E1. cbn [bind]. rewrite E2. cbn [bind]. rewrite E3. cbn [bind].
    rewrite (Hb k (or_introl eq_refl) prof fa fm E1 E2 E3). cbn [bind].
    pose proof (Hks k (or_introl eq_refl)) as Hk.
    destruct (snd (cut_of iv k)) as [b c] eqn:Ebc.
    rewrite (setidx_at slices k) by lia. cbn [bind].
    destruct (IH (upd slices k (cut_slice iv k))) as (sls & Es & Lsl & Vs).
    { now rewrite upd_length. } { intros x Hx. apply Hks. now right. } { intros x Hx. apply Hb. now right. }
    fold (cut_slice iv k). rewrite Es. cbn [bind]. exists sls. split; [|split].
    + unfold cut_window at 2. destruct (cut_of iv k) as [[e ff] [b' c']]. cbn [fst snd] in *. injection Ebc as -> ->. reflexivity.
    + rewrite Lsl. apply upd_length.
    + intros x d Hx. rewrite Vs by (now rewrite upd_length). cbn [existsb]. destruct (Nat.eqb_spec x k) as [->|E]; cbn [orb].
      * destruct (existsb _ ks); [reflexivity|]. now rewrite nth_upd_same by lia.
      * destruct (existsb _ ks); [reflexivity|]. now rewrite nth_upd_other by congruence.
Qed.
(** slicing one axis by integers *)
Lemma part_slice spl ax e ff : axis_proper ax -> (0 <= e < ff)%Z -> (ff <= ax_len ax)%Z ->
  exists r, axis_slice spl ax (mkslice (Some e) (Some ff) None) = Ok r /\ axis_part ax e ff r /\ axis_proper r /\
    sel_of (ax_len ax) (inr (mkslice (Some e) (Some ff) None)) = Ok (SRange e 1 (ff - e)).
Proof.
  intros Hp He Hf. pose proof (proper_counted ax Hp) as Hc.
  assert (Hg : getslice (ax_grid ax) (mkslice (Some e) (Some ff) None) = Ok (sublist (Z.to_nat e) (Z.to_nat ff) (ax_grid ax))).
  { rewrite getslice_fwd by auto. cbn [lo_bound hi_bound]. rewrite !adjust_bound_nonneg by lia. do 2 f_equal; lia. }
  assert (Lg : length (sublist (Z.to_nat e) (Z.to_nat ff) (ax_grid ax)) = Z.to_nat (ff - e)).
  { unfold sublist. rewrite firstn_length, skipn_length. lia. }
  destruct (int_slice_total spl ax (Some e) (Some ff) None _ Hp (or_introl eq_refl) (proj1 He) Hg) as (r & Er).
  { intro E. rewrite E in Lg. cbn in Lg. lia. }
  pose proof Er as Er'. rewrite axis_getitem_int_slice in Er'. destruct (axis_slice spl ax _) as [r'|] eqn:Es; [|discriminate].
  injection Er' as ->. exists r. split; [reflexivity|].
  destruct (axis_slice_sound spl ax (Some e) (Some ff) None r Hp (or_introl eq_refl) (proj1 He) Es) as (Hij & Hg' & Hn & N1 & N2 & Hpr).
  cbn [lo_bound hi_bound] in Hn. rewrite !adjust_bound_nonneg in Hn by lia.
  assert (Gr : ax_grid r = sublist (Z.to_nat e) (Z.to_nat ff) (ax_grid ax)) by congruence.
  split; [|split; [exact Hpr|]].
  - split; [rewrite (proper_counted r Hpr), Gr, Lg; lia|]. split; [exact N1|]. split; [exact N2|]. split; intros i Hi.
    + rewrite Gr. unfold sublist. rewrite nth_firstn by lia. rewrite nth_skipn. f_equal. lia.
    + rewrite Hn. unfold sublist. rewrite nth_firstn by lia. rewrite nth_skipn. f_equal. lia.
  - unfold sel_of, slice_indices. cbn [s_step s_start s_stop]. change (1 =? 0)%Z with false. cbv iota. cbn [bind].
    change (1 <? 0)%Z with false. cbv iota. unfold range_len. change (1 <? 0)%Z with false. cbv iota.
    rewrite Hc in *. rewrite !adjust_bound_nonneg by lia. rewrite !Z.min_l by lia. destruct (Z.ltb_spec e ff); [|lia]. rewrite Z.div_1_r. do 2 f_equal. lia.
Qed.
Definition slice_for (ax : axis) (p : slice * (Z * Z)) : Prop :=
  (fst p = mkslice (Some (fst (snd p))) (Some (snd (snd p))) None /\ (0 <= fst (snd p) < snd (snd p))%Z /\ (snd (snd p) <= ax_len ax)%Z) \/
  (fst p = full_slice /\ snd p = (0%Z, ax_len ax)).
Lemma full_part spl ax : axis_proper ax -> exists r, axis_slice spl ax full_slice = Ok r /\ axis_part ax 0 (ax_len ax) r /\ axis_proper r.
Proof.
  intro Hp. destruct (proper_full spl ax Hp) as (r & E & (S1 & S2 & S3 & S4 & _ & _ & S7) & Hr). exists r. split; [exact E|]. split; [|exact Hr].
  split; [unfold ax_len; lia|]. split; [congruence|]. split; [congruence|]. split; intros i Hi; rewrite Z.add_0_r; congruence.
Qed.
Lemma slice_for_part spl ax p : axis_proper ax -> slice_for ax p ->
  exists r, axis_slice spl ax (fst p) = Ok r /\ axis_part ax (fst (snd p)) (snd (snd p)) r /\ axis_proper r /\
    sel_of (ax_len ax) (inr (fst p)) = Ok (SRange (fst (snd p)) 1 (snd (snd p) - fst (snd p))).
Proof.
  destruct p as [sl [e ff]]. unfold slice_for. cbn [fst snd]. intros Hp [(-> & H1 & H2)|[-> E]].
  - now apply part_slice.
  - injection E as -> ->. destruct (full_part spl ax Hp) as (r & E & H1 & H2). exists r. split; [exact E|]. split; [exact H1|]. split; [exact H2|].
    rewrite full_sel by (rewrite (proper_counted ax Hp); lia). do 2 f_equal. lia.
Qed.
Lemma parts_select spl axes ps : Forall axis_proper axes -> Forall2 slice_for axes ps ->
  exists news, mapM (fun p => normalize_slice (fst p) (snd p)) (combine axes (map key_of_slice (map fst ps))) = Ok (map inr (map fst ps)) /\
    mapM (sub_axis spl) (combine axes (map inr (map fst ps))) = Ok (map Some news) /\
    sels_of (map ax_len axes) (map inr (map fst ps)) = Ok (map (fun p => SRange (fst (snd p)) 1 (snd (snd p) - fst (snd p))) ps) /\
    Forall2 (fun ap r => axis_part (fst ap) (fst (snd (snd ap))) (snd (snd (snd ap))) r) (combine axes ps) news /\ Forall axis_proper news.
Proof.
  intros Hp H. induction H as [|ax p axes ps H0 H IH]; [exists []; repeat split; constructor|].
  apply Forall_inv in Hp as Hp0. apply Forall_inv_tail in Hp. destruct (IH Hp) as (news & E1 & E2 & E3 & E4 & E5).
  destruct (slice_for_part spl ax p Hp0 H0) as (r & F1 & F2 & F3 & F4). exists (r :: news).
  cbn [map combine mapM fst snd]. rewrite key_of_slice_norm. cbn [bind]. rewrite E1. split; [reflexivity|].
  unfold sub_axis at 1. cbn [fst snd]. rewrite F1. cbn [rmap bind]. rewrite E2. split; [reflexivity|].
  cbn [sels_of]. rewrite F4. cbn [bind]. rewrite E3. split; [reflexivity|]. split; constructor; assumption.
Qed.
Lemma somes_some {A} (l : list A) : somes (map Some l) = l.
Proof. induction l as [|x l IH]; [reflexivity|]. cbn [map somes]. now rewrite IH. Qed.
Lemma retained_all n (l : list axis) : length l = n -> retained n (map Some l) = seq 0 n.
Proof.
  intro L. unfold retained. rewrite (filter_ext_in _ (fun _ => true)).
  - induction (seq 0 n) as [|x s IH]; [reflexivity|]. cbn [filter]. now rewrite IH.
  - intros i Hi. apply in_seq in Hi. rewrite nth_error_map. destruct (nth_error l i) eqn:E; [reflexivity|]. reflexivity.
Qed.
Lemma range_shape ps : sel_shape (map (fun p : slice * (Z * Z) => SRange (fst (snd p)) 1 (snd (snd p) - fst (snd p))) ps) = map (fun p => (snd (snd p) - fst (snd p))%Z) ps.
Proof. induction ps as [|p ps IH]; [reflexivity|]. cbn [map sel_shape]. now rewrite IH. Qed.
Lemma range_index ps : forall idx, length idx = length ps ->
  sel_index (map (fun p : slice * (Z * Z) => SRange (fst (snd p)) 1 (snd (snd p) - fst (snd p))) ps) idx = map2 (fun i (p : slice * (Z * Z)) => (i + fst (snd p))%Z) idx ps.
Proof.
  induction ps as [|p ps IH]; intros [|i idx] L; try discriminate; [reflexivity|]. cbn [map sel_index map2]. rewrite IH by (cbn in L; lia). f_equal. lia.
Qed.
Lemma apply_windows_total win d iv : (forall m a, length (win m a) = Z.to_nat m) -> forall ks a, length (a_shape a) = d ->
  (forall k, In k ks -> (k < d)%nat /\ nth k (a_shape a) 0%Z = (snd (fst (cut_of iv k)) - fst (fst (cut_of iv k)))%Z /\ (0 <= nth k (a_shape a) 0)%Z) ->
  exists b, apply_windows win d (map (cut_window iv) ks) a = Ok b /\ a_shape b = a_shape a /\
    forall idx, in_shape (a_shape a) idx = true -> a_at b idx == a_at a idx * window_at win iv ks idx.
Proof.
  intro Hw. induction ks as [|k ks IH]; intros a La H; cbn [map apply_windows].
  - exists a. split; [reflexivity|]. split; [reflexivity|]. intros idx _. cbn [window_at fold_right]. ring.
  - destruct (H k (or_introl eq_refl)) as (Hk & Hn & H0). unfold cut_window at 1. cbn [window_at fold_right].
    destruct (cut_of iv k) as [[e ff] [b c]] eqn:Ec. cbn [fst snd] in Hn. rewrite py_pos_nat by exact Hk. cbn [bind].
    set (w := win (ff - e)%Z _). subst d.
    destruct (np_along_op_r Qmult w a k Hk) as (a' & Ea & Sa & Va); [unfold w; rewrite Hw; lia|].
    rewrite Ea. cbn [bind]. destruct (IH a') as (b' & Eb & Sb & Vb); [now rewrite Sa|rewrite Sa; intros x Hx; apply H; now right|].
    exists b'. split; [exact Eb|]. split; [congruence|]. intros idx Hi. rewrite Vb by (now rewrite Sa). rewrite (Va idx Hi).
    fold (window_at win iv ks idx). ring.
Qed.
Lemma dedup_NoDup l : NoDup l -> dedup_Z l = l.
Proof.
  induction 1 as [|x l Hx _ IH]; [reflexivity|]. cbn [dedup_Z]. rewrite IH. destruct (mem_Z x l) eqn:E; [|reflexivity].
  exfalso. apply Hx. clear - E. induction l as [|y l IH]; [discriminate|]. cbn [mem_Z] in E. apply orb_prop in E as [E|E].
  - apply Z.eqb_eq in E. now left.
  - right. now apply IH.
Qed.

Lemma autocutout_total spl win f g axes ks fr :
  field_squeeze spl f = Ok g -> consistent g -> f_inner g = [] -> Forall axis_proper (f_axes g) -> nonempty (f_shape g) ->
  (length (f_shape g) <= 2)%nat -> (forall m a, length (win m a) = Z.to_nat m) ->
  NoDup ks -> (forall k, In k ks -> (k < length (f_shape g))%nat) ->
  axes = Some (map Z.of_nat ks) \/ axes = None /\ ks = seq 0 (length (f_shape g)) ->
  fst fr <= snd fr -> snd fr < 1 -> (exists j, in_shape (f_shape g) j = true /\ ~ a_at (f_data g) j == 0) ->
  exists h iv, field_autocutout spl win f axes fr = Ok h /\ length iv = length (f_shape g) /\
    (forall k, (k < length (f_shape g))%nat ->
       let '((e, ff), (b, c)) := cut_of iv k in
       axis_part (nth k (f_axes g) axis0) e ff (nth k (f_axes h) axis0) /\
       (~ In k ks -> (e, ff) = (0, nth k (f_shape g) 0)%Z) /\
       (In k ks -> (0 <= e <= b)%Z /\ (b < c)%Z /\ (c <= ff <= nth k (f_shape g) 0)%Z /\
          exists prof m, projection g k prof /\ In m prof /\ (forall x, In x prof -> x <= m) /\
            forall i, (0 <= i < nth k (f_shape g) 0)%Z -> m * snd fr < nth (Z.to_nat i) prof 0 -> (b <= i < c)%Z)) /\
    f_shape h = map (fun x => (snd (fst x) - fst (fst x))%Z) iv /\
    (forall idx, in_shape (f_shape h) idx = true ->
       a_at (f_data h) idx == a_at (f_data g) (map2 (fun i x => (i + fst (fst x))%Z) idx iv) * window_at win iv ks idx).
Proof.
  intros Hs Hg Hi Hp Hne H2 Hw Nd Hks Hax F1 F2 (j & Hj & Hz).
  set (n := length (f_shape g)) in *. pose proof (consistent_map g Hg) as Hm. pose proof Hg as (L & _ & L2 & L3). fold n in L, L2, L3.
  (* the intervals *)
  assert (B : forall k, (k < n)%nat -> exists x : (Z * Z) * (Z * Z), exists prof, projection g k prof /\
     (forall prof' fa fm, field_map qabs g = Ok fa -> mean_others spl (Z.of_nat k) (zlist (Z.to_nat (dims (f_shape g)))) fa = Ok fm ->
        profile fm = Ok prof' -> prof' = prof) /\ cutout_bounds prof fr = Ok (fst (fst x), snd (fst x), snd x)).
  { intros k Hk. destruct (profile_total spl g k Hg Hne H2 Hk) as (fa & fm & prof & E1 & E2 & E3 & Pr).
    destruct (cutout_bounds_total prof fr (projection_pos g k prof j Pr Hne Hk Hj Hz) F1 F2) as (e & ff & b & c & E).
    exists ((e, ff), (b, c)), prof. split; [exact Pr|]. split; [|exact E]. intros prof' fa' fm' X1 X2 X3. congruence. }
  assert (IV : exists iv : cuts, length iv = n /\ forall k, (k < n)%nat ->
     (In k ks -> exists prof, projection g k prof /\
       (forall prof' fa fm, field_map qabs g = Ok fa -> mean_others spl (Z.of_nat k) (zlist (Z.to_nat (dims (f_shape g)))) fa = Ok fm ->
          profile fm = Ok prof' -> prof' = prof) /\
       cutout_bounds prof fr = Ok (fst (fst (cut_of iv k)), snd (fst (cut_of iv k)), snd (cut_of iv k))) /\
     (~ In k ks -> fst (cut_of iv k) = (0, nth k (f_shape g) 0)%Z)).
  { clear - B. assert (G : forall m, (m <= n)%nat -> exists iv : cuts, length iv = m /\ forall k, (k < m)%nat ->
     (In k ks -> exists prof, projection g k prof /\
       (forall prof' fa fm, field_map qabs g = Ok fa -> mean_others spl (Z.of_nat k) (zlist (Z.to_nat (dims (f_shape g)))) fa = Ok fm ->
          profile fm = Ok prof' -> prof' = prof) /\
       cutout_bounds prof fr = Ok (fst (fst (cut_of iv k)), snd (fst (cut_of iv k)), snd (cut_of iv k))) /\
     (~ In k ks -> fst (cut_of iv k) = (0, nth k (f_shape g) 0)%Z)).
    { induction m as [|m IH]; intro Hm; [exists []; split; [reflexivity|]; intros; lia|].
      destruct IH as (iv & Liv & V); [lia|]. destruct (B m ltac:(lia)) as (x & HB).
      destruct (in_dec Nat.eq_dec m ks) as [Y|N].
      - exists (iv ++ [x]). split; [rewrite app_length; cbn; lia|]. intros k Hk. unfold cut_of. destruct (Nat.eq_dec k m) as [->|Ne].
        + rewrite app_nth2, Liv, Nat.sub_diag by lia. cbn [nth]. split; [auto|contradiction].
        + rewrite app_nth1 by lia. apply V. lia.
      - exists (iv ++ [((0, nth m (f_shape g) 0), (0, 0))%Z]). split; [rewrite app_length; cbn; lia|]. intros k Hk. unfold cut_of. destruct (Nat.eq_dec k m) as [->|Ne].
        + rewrite app_nth2, Liv, Nat.sub_diag by lia. cbn [nth]. split; [contradiction|auto].
        + rewrite app_nth1 by lia. apply V. lia. }
    exact (G n (le_n n)). }
  destruct IV as (iv & Liv & V).
  destruct (cutout_slices_total spl fr g iv Hg Hne H2 ks (repeat full_slice n)) as (sls & Es & Lsl & Vs).
  { apply repeat_length. } { exact Hks. }
  { intros k Hk prof fa fm X1 X2 X3. destruct (V k (Hks k Hk)) as [V1 _]. destruct (V1 Hk) as (prof' & _ & U & E). now rewrite (U prof fa fm X1 X2 X3). }
  rewrite repeat_length in Lsl, Vs.
  set (ps := combine sls (map fst iv)).
  assert (Lps : length ps = n) by (unfold ps; rewrite combine_length, map_length; lia).
  assert (Nps : forall k, (k < n)%nat -> nth k ps (full_slice, (0, 0)%Z) = (nth k sls full_slice, fst (cut_of iv k))).
  { intros k Hk. unfold ps. rewrite combine_nth by (rewrite map_length; lia). f_equal. unfold cut_of.
    change (0, 0)%Z with (fst ((0, 0), (0, 0))%Z) at 1. apply map_nth. }
  assert (Msl : map fst ps = sls).
  { apply nth_ext with (d := full_slice) (d' := full_slice); [rewrite map_length; lia|]. intros k Hk. rewrite map_length in Hk.
    change full_slice with (fst (full_slice, (0, 0)%Z)) at 1. rewrite map_nth, Nps by lia. reflexivity. }
  assert (Miv : map snd ps = map fst iv).
  { apply nth_ext with (d := (0, 0)%Z) (d' := (0, 0)%Z); [rewrite !map_length; lia|]. intros k Hk. rewrite map_length in Hk.
    change (0, 0)%Z with (snd (full_slice, (0, 0)%Z)) at 1. rewrite map_nth, Nps by lia. cbn [snd]. unfold cut_of.
    change (0, 0)%Z with (fst ((0, 0), (0, 0))%Z) at 3. now rewrite map_nth. }
  assert (Bd : forall k, In k ks -> let x := cut_of iv k in
     (0 <= fst (fst x) <= fst (snd x))%Z /\ (fst (snd x) < snd (snd x))%Z /\ (snd (snd x) <= snd (fst x) <= nth k (f_shape g) 0)%Z /\
     exists prof m, projection g k prof /\ In m prof /\ (forall x, In x prof -> x <= m) /\
       forall i, (0 <= i < nth k (f_shape g) 0)%Z -> m * snd fr < nth (Z.to_nat i) prof 0 -> (fst (snd x) <= i < snd (snd x))%Z).
  { intros k Hk x. destruct (V k (Hks k Hk)) as [V1 _]. destruct (V1 Hk) as (prof & Pr & _ & E). fold x in E. destruct x as [[e ff] [b c]]. cbn [fst snd] in *.
    apply cutout_bounds_ok in E as (m & I1 & I2 & R1 & R2 & R3 & _ & C & _). pose proof Pr as [Lp _].
    assert (Hnk : (0 < nth k (f_shape g) 0)%Z) by (apply (proj1 (Forall_nth _ _) Hne); now apply Hks).
    assert (Zl : Z.of_nat (length prof) = nth k (f_shape g) 0%Z) by lia. rewrite Zl in *.
    split; [exact R1|]. split; [exact R2|]. split; [exact R3|]. exists prof, m. auto. }
  assert (Fp : Forall2 slice_for (f_axes g) ps).
  { assert (G : forall l1 l2, length l1 = length l2 -> (forall k, (k < length l1)%nat -> slice_for (nth k l1 axis0) (nth k l2 (full_slice, (0, 0)%Z))) -> Forall2 slice_for l1 l2).
    { clear. induction l1 as [|a l1 IH]; intros [|b l2] L H; try discriminate; constructor; [apply (H 0%nat); cbn; lia|]. apply IH; [cbn in L; lia|].
      intros k Hk. apply (H (S k)). cbn. lia. }
    apply G; [congruence|]. intros k Hk. rewrite L in Hk. rewrite Nps by exact Hk. rewrite Vs by exact Hk.
    assert (Hl : ax_len (nth k (f_axes g) axis0) = nth k (f_shape g) 0%Z).
    { rewrite <- Hm. change 0%Z with (ax_len axis0). now rewrite map_nth. }
    destruct (existsb (Nat.eqb k) ks) eqn:Ek.
    - apply existsb_exists in Ek as (x & Hx & Ex). apply Nat.eqb_eq in Ex as <-. destruct (Bd k Hx) as (R1 & R2 & R3 & _). left. cbn [fst snd].
      split; [reflexivity|]. rewrite Hl. lia.
    - right. cbn [fst snd]. split; [apply nth_repeat|]. rewrite Hl. apply V; [exact Hk|]. intro Hin. apply not_true_iff_false in Ek. apply Ek.
      apply existsb_exists. exists k. split; [exact Hin|apply Nat.eqb_refl]. }
  destruct (parts_select spl (f_axes g) ps Hp Fp) as (news & E1 & E2 & E3 & E4 & E5). rewrite Msl in *.
  assert (Ln : length news = n) by (apply Forall2_len in E4; rewrite combine_length in E4; lia).
  assert (Hpart : forall k, (k < n)%nat -> axis_part (nth k (f_axes g) axis0) (fst (fst (cut_of iv k))) (snd (fst (cut_of iv k))) (nth k news axis0)).
  { intros k Hk.
    assert (G : forall (R : axis * (slice * (Z * Z)) -> axis -> Prop) l1 l2 d1 d2, Forall2 R l1 l2 -> (k < length l1)%nat -> R (nth k l1 d1) (nth k l2 d2)).
    { clear. intros R l1 l2 d1 d2 H. revert k. induction H as [|a b l1 l2 H0 H IH]; intros [|k] Hk; cbn in *; try lia; [exact H0|]. apply IH. lia. }
    specialize (G _ _ _ (axis0, (full_slice, (0, 0)%Z)) axis0 E4). rewrite combine_length in G. specialize (G ltac:(lia)).
    rewrite combine_nth in G by lia. rewrite Nps in G by exact Hk. exact G. }
  rewrite Hm in E3.
  pose proof (getitem_sels spl g (map key_of_slice sls) (map inr sls) (map Some news)
    (map (fun p : slice * (Z * Z) => SRange (fst (snd p)) 1 (snd (snd p) - fst (snd p))) ps) Hg Hi Hne) as G. rewrite map_length in G. fold n in G.
  specialize (G Lsl E1 E2 E3). rewrite somes_some, retained_all, seq_length in G by exact Ln.
  assert (Shp : sel_shape (map (fun p : slice * (Z * Z) => SRange (fst (snd p)) 1 (snd (snd p) - fst (snd p))) ps) = map ax_len news).
  { rewrite range_shape. apply nth_ext with (d := 0%Z) (d' := 0%Z); [rewrite !map_length; lia|]. intros k Hk. rewrite map_length in Hk.
    change 0%Z with (ax_len axis0) at 2. rewrite map_nth.
    change 0%Z with ((fun p : slice * (Z * Z) => (snd (snd p) - fst (snd p))%Z) (full_slice, (0, 0)%Z)) at 1. rewrite map_nth. rewrite Nps by lia. cbn [snd].
    destruct (Hpart k ltac:(lia)) as (E & _). now rewrite E. }
  specialize (G Shp ltac:(lia) ltac:(lia)). cbv zeta in G.
  assert (Siv : sel_shape (map (fun p : slice * (Z * Z) => SRange (fst (snd p)) 1 (snd (snd p) - fst (snd p))) ps) = map (fun x => (snd (fst x) - fst (fst x))%Z) iv).
  { rewrite range_shape. rewrite <- (map_map (@snd slice (Z * Z)) (fun q : Z * Z => (snd q - fst q)%Z)), Miv, map_map. reflexivity. }
  assert (Hax' : (match axes with None => zlist n | Some l => l end) = map Z.of_nat ks) by (destruct Hax as [->|[-> ->]]; reflexivity).
  unfold field_autocutout. rewrite Hs. cbn [bind]. rewrite (nonempty_dims _ Hne), Nat2Z.id. fold n. rewrite Hax'.
  rewrite dedup_NoDup by (apply FinFun.Injective_map_NoDup; [exact Nat2Z.inj|exact Nd]). rewrite Nat.eqb_refl. cbn [negb].
  rewrite Es. cbn [bind]. rewrite G. cbn [bind f_data].
  set (A := mkarr _ _).
  destruct (apply_windows_total win n iv Hw ks A) as (b & Eb & Sb & Vb).
  { unfold A. cbn [a_shape]. rewrite Siv, map_length. exact Liv. }
  { intros k Hk. pose proof (Hks k Hk) as Hk'. split; [exact Hk'|]. unfold A. cbn [a_shape]. rewrite Siv.
    change 0%Z with ((fun x : (Z * Z) * (Z * Z) => (snd (fst x) - fst (fst x))%Z) ((0, 0), (0, 0))%Z) at 1 3. rewrite map_nth. fold (cut_of iv k).
    split; [reflexivity|]. destruct (Bd k Hk) as (R1 & R2 & R3 & _). lia. }
  rewrite Eb. cbn [bind]. unfold f_shape at 1. cbn [f_data]. rewrite Sb, (proj2 (idx_eqb_eq _ _) eq_refl).
  eexists. exists iv. split; [reflexivity|]. split; [exact Liv|]. split; [|split].
  - intros k Hk. specialize (Hpart k Hk). destruct (V k Hk) as [_ V2]. pose proof (Bd k) as Bk. unfold f_axes at 2. cbn [f_top l_axes].
    destruct (cut_of iv k) as [[e ff] [b0 c0]]. cbn [fst snd] in *. split; [exact Hpart|]. split; [exact V2|exact Bk].
  - unfold f_shape at 1. cbn [f_data]. rewrite Sb. exact Siv.
  - unfold f_shape at 1. cbn [f_data]. intros idx Hidx. rewrite Sb in Hidx. rewrite (Vb idx Hidx). apply Qmult_comp; [|reflexivity].
    unfold A. cbn [a_at]. rewrite range_index.
    + assert (M2 : forall (X Y : Type) (h : Y -> X) (op : Z -> X -> Z) idx l, map2 (fun i y => op i (h y)) idx l = map2 op idx (map h l)).
      { clear. intros X Y h op. induction idx as [|i idx IH]; intros [|y l]; try reflexivity. cbn [map2 map]. now rewrite IH. }
      rewrite (M2 _ _ (@snd slice (Z * Z)) (fun i q => (i + fst q)%Z)), Miv.
      rewrite (M2 _ _ (@fst (Z * Z) (Z * Z)) (fun i q => (i + fst q)%Z)). reflexivity.
    + apply in_shape_length in Hidx. unfold A in Hidx. cbn [a_shape] in Hidx. rewrite Siv, map_length in Hidx. lia.
Qed.
(** the same from the field itself *)
Lemma autocutout_field spl win f axes ks fr :
  consistent f -> Forall axis_proper (f_axes f) -> f_inner f = [] -> nonempty (f_shape f) -> (length (long_dims (f_shape f)) <= 2)%nat ->
  (forall m a, length (win m a) = Z.to_nat m) -> NoDup ks -> (forall k, In k ks -> (k < length (long_dims (f_shape f)))%nat) ->
  axes = Some (map Z.of_nat ks) \/ axes = None /\ ks = seq 0 (length (long_dims (f_shape f))) ->
  fst fr <= snd fr -> snd fr < 1 -> (exists j, in_shape (f_shape f) j = true /\ ~ a_at (f_data f) j == 0) ->
  exists g h iv, squeezed f g /\ field_autocutout spl win f axes fr = Ok h /\ length iv = length (f_shape g) /\
    (forall k, (k < length (f_shape g))%nat ->
       let '((e, ff), (b, c)) := cut_of iv k in
       axis_part (nth k (f_axes g) axis0) e ff (nth k (f_axes h) axis0) /\
       (~ In k ks -> (e, ff) = (0, nth k (f_shape g) 0)%Z) /\
       (In k ks -> (0 <= e <= b)%Z /\ (b < c)%Z /\ (c <= ff <= nth k (f_shape g) 0)%Z /\
          exists prof m, projection g k prof /\ In m prof /\ (forall x, In x prof -> x <= m) /\
            forall i, (0 <= i < nth k (f_shape g) 0)%Z -> m * snd fr < nth (Z.to_nat i) prof 0 -> (b <= i < c)%Z)) /\
    f_shape h = map (fun x => (snd (fst x) - fst (fst x))%Z) iv /\
    (forall idx, in_shape (f_shape h) idx = true ->
       a_at (f_data h) idx == a_at (f_data g) (map2 (fun i x => (i + fst (fst x))%Z) idx iv) * window_at win iv ks idx).
Proof.
  intros Hf Hp Hi Hne H2 Hw Nd Hks Hax F1 F2 (j & Hj & Hz).
  destruct (squeeze_total spl f Hf Hp Hi Hne ltac:(lia)) as (g & Es & Sq & Hg & Hpg & Hig). pose proof Sq as (Sg & _ & Vg & _).
  assert (Lg : length (f_shape g) = length (long_dims (f_shape f))) by (rewrite Sg; unfold entries_at; apply map_length).
  assert (Hkeep : forall k, In k (long_dims (f_shape f)) -> (k < length (f_shape f))%nat).
  { intros k Hk. unfold long_dims in Hk. apply filter_In in Hk as [Hk _]. apply in_seq in Hk. lia. }
  assert (Hng : nonempty (f_shape g)).
  { rewrite Sg. unfold nonempty, entries_at. apply Forall_forall. intros x Hx. apply in_map_iff in Hx as (k & <- & Hk).
    apply (proj1 (Forall_nth _ _) Hne). now apply Hkeep. }
  rewrite <- Lg in *.
  destruct (autocutout_total spl win f g axes ks fr Es Hg Hig Hpg Hng H2 Hw Nd Hks Hax F1 F2) as (h & iv & R).
  { exists (entries_at 0%Z j (long_dims (f_shape f))). rewrite (Vg j Hj), Sg. split; [|exact Hz]. now apply in_shape_entries. }
  exists g, h, iv. destruct R as (R1 & R2 & R3 & R4 & R5). auto 8.
Qed.
