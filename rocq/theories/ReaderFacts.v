(** Lemmas about the readers. *)
From Coq Require Import QArith Qfield Lqa String Ascii List ZArith Bool Lia Sorted Permutation.
From Verif Require Import PyBase PyBaseFacts NumpyModel NumpyFacts AxisModel AxisSpec AxisFacts NdModel NdFacts FieldModel ReaderModel ReaderSpec.
Import ListNotations.
Local Open Scope Z_scope.

(** * Series *)
Lemma getidx_nonneg {X} (l : list X) k x : nth_error l k = Some x -> getidx l (Z.of_nat k) = Ok x.
Proof. intro H. apply getidx_some. exists k. split; [|exact H]. apply py_pos_nat. apply nth_error_Some. congruence. Qed.
Lemma getidx_range {X} (l : list X) i : 0 <= i < Z.of_nat (length l) -> getidx l i = match nth_error l (Z.to_nat i) with Some x => Ok x | None => Err IndexError end.
Proof.
  intro H. destruct (nth_error l (Z.to_nat i)) eqn:E; [|apply nth_error_None in E; lia]. rewrite <- (getidx_nonneg l (Z.to_nat i) x E). f_equal. lia.
Qed.
Lemma series_at {F D} (op : F -> res D) files k f : nth_error files k = Some f ->
  sim_int (series op files) (Z.of_nat k) = op f /\ sim_int (series op files) (Z.of_nat k - Z.of_nat (length files)) = op f /\
  sim_int (series op files) (Z.of_nat k - 2 * Z.of_nat (length files)) = op f.
Proof.
  intro E. assert (L : (k < length files)%nat) by (apply nth_error_Some; congruence). unfold sim_int, series. cbn [sim_len sim_dump].
  assert (G : forall j, (j = Z.of_nat k \/ j = Z.of_nat k - Z.of_nat (length files)) -> getidx files j = Ok f).
  { intros j [-> | ->].
    - now apply getidx_nonneg.
    - unfold getidx. destruct (Z.ltb_spec (Z.of_nat k - Z.of_nat (length files)) 0); [|lia]. replace (Z.of_nat k - Z.of_nat (length files) + Z.of_nat (length files)) with (Z.of_nat k) by lia.
      destruct (Z.leb_spec 0 (Z.of_nat k)); [|lia]. destruct (Z.ltb_spec (Z.of_nat k) (Z.of_nat (length files))); [|lia]. cbn. rewrite Nat2Z.id, E. reflexivity. }
  split; [|split].
  - destruct (Z.ltb_spec (Z.of_nat k) 0); [lia|]. destruct (Z.leb_spec (Z.of_nat (length files)) (Z.of_nat k)); [lia|]. rewrite G by now left. reflexivity.
  - destruct (Z.ltb_spec (Z.of_nat k - Z.of_nat (length files)) 0); [|lia]. replace (Z.of_nat k - Z.of_nat (length files) + Z.of_nat (length files)) with (Z.of_nat k) by lia.
    destruct (Z.leb_spec (Z.of_nat (length files)) (Z.of_nat k)); [lia|]. rewrite G by now left. reflexivity.
  - destruct (Z.ltb_spec (Z.of_nat k - 2 * Z.of_nat (length files)) 0); [|lia]. replace (Z.of_nat k - 2 * Z.of_nat (length files) + Z.of_nat (length files)) with (Z.of_nat k - Z.of_nat (length files)) by lia.
    destruct (Z.leb_spec (Z.of_nat (length files)) (Z.of_nat k - Z.of_nat (length files))); [lia|]. rewrite G by now right. reflexivity.
Qed.
Lemma getidx_out {X} (l : list X) i : i < - Z.of_nat (length l) \/ Z.of_nat (length l) <= i -> getidx l i = Err IndexError.
Proof.
  intro H. unfold getidx. destruct (Z.ltb_spec i 0).
  - destruct (Z.leb_spec 0 (i + Z.of_nat (length l))); [lia|reflexivity].
  - destruct (Z.leb_spec 0 i); [|reflexivity]. destruct (Z.ltb_spec i (Z.of_nat (length l))); [lia|reflexivity].
Qed.
Lemma series_out {F D} (op : F -> res D) files i : Z.of_nat (length files) <= i \/ i < - 2 * Z.of_nat (length files) -> sim_int (series op files) i = Err IndexError.
Proof.
  intro H. unfold sim_int, series. cbn [sim_len sim_dump]. destruct (Z.ltb_spec i 0).
  - destruct (Z.leb_spec (Z.of_nat (length files)) (i + Z.of_nat (length files))); [reflexivity|]. rewrite getidx_out by lia. reflexivity.
  - destruct (Z.leb_spec (Z.of_nat (length files)) i); [reflexivity|lia].
Qed.
Lemma mapM_take {F D} (op : F -> res D) files idx : Forall (fun i => 0 <= i < Z.of_nat (length files)) idx ->
  mapM (sim_int (series op files)) idx = mapM op (take_idx files idx).
Proof.
  induction 1 as [|i idx Hi _ IH]; [reflexivity|]. cbn [mapM take_idx]. destruct (nth_error files (Z.to_nat i)) as [f|] eqn:E; [|apply nth_error_None in E; lia].
  destruct (series_at op files _ f E) as (S0 & _). rewrite Z2Nat.id in S0 by lia. rewrite S0, IH. reflexivity.
Qed.
Lemma series_slice {F D} (op : F -> res D) files sl : sim_slice (series op files) sl = let! l := getslice files sl in mapM op l.
Proof.
  unfold sim_slice, getslice. cbn [series sim_len]. destruct (slice_indices sl (Z.of_nat (length files))) as [[[a b] s]|e] eqn:E; [|reflexivity]. cbn [bind].
  apply mapM_take. eapply slice_indices_valid; [lia|exact E].
Qed.
Lemma mapM_Ok {X} (l : list X) : mapM Ok l = Ok l.
Proof. induction l as [|x l IH]; [reflexivity|]. cbn [mapM]. rewrite IH. reflexivity. Qed.
Lemma iter_series {F D} (op : F -> res D) : forall files pre, (forall f, In f files -> op f <> Err IndexError) ->
  iter_from (series op (pre ++ files)) (S (length files)) (Z.of_nat (length pre)) = mapM op files.
Proof.
  induction files as [|f files IH]; intros pre H.
  - cbn [iter_from mapM length]. rewrite series_out by (rewrite app_length; cbn; lia). reflexivity.
  - cbn [mapM length]. change (iter_from (series op (pre ++ f :: files)) (S (S (length files))) (Z.of_nat (length pre)))
      with (match sim_int (series op (pre ++ f :: files)) (Z.of_nat (length pre)) with
            | Ok d => let! r := iter_from (series op (pre ++ f :: files)) (S (length files)) (Z.of_nat (length pre) + 1) in Ok (d :: r)
            | Err IndexError => Ok [] | Err e => Err e end).
    destruct (series_at op (pre ++ f :: files) (length pre) f) as (S0 & _).
    { rewrite nth_error_app2, Nat.sub_diag by lia. reflexivity. }
    rewrite S0. destruct (op f) as [d|e] eqn:E.
    + cbn [bind]. specialize (IH (pre ++ [f])). rewrite <- app_assoc in IH. cbn [app] in IH. rewrite app_length in IH. cbn [length] in IH.
      replace (Z.of_nat (length pre + 1)) with (Z.of_nat (length pre) + 1) in IH by lia. rewrite IH by (intros; apply H; now right). reflexivity.
    + cbn [bind]. destruct e; try reflexivity. exfalso. now apply (H f (or_introl eq_refl)).
Qed.
Lemma series_list {F D} (op : F -> res D) files : (forall f, In f files -> op f <> Err IndexError) -> sim_list (series op files) = mapM op files.
Proof. intro H. unfold sim_list. cbn [series sim_len]. rewrite Nat2Z.id. exact (iter_series op files [] H). Qed.
Lemma series_times {F D T} (op : F -> res D) (time : D -> res T) files : (forall f, In f files -> op f <> Err IndexError) ->
  sim_times time (series op files) = let! l := mapM op files in mapM time l.
Proof. intro H. unfold sim_times. rewrite series_list by exact H. reflexivity. Qed.

(** * Strings *)
Lemma cmp_refl s : String.compare s s = Eq.
Proof. induction s as [|c s IH]; [reflexivity|]. cbn. rewrite IH. unfold Ascii.compare. now rewrite N.compare_refl. Qed.
Lemma asc_cmp a b : Ascii.compare a b = N.compare (N_of_ascii a) (N_of_ascii b).
Proof. reflexivity. Qed.
Lemma cmp_trans : forall a b c, String.compare a b = Lt -> String.compare b c = Lt -> String.compare a c = Lt.
Proof.
  induction a as [|x a IH]; intros [|y b] [|z c]; cbn [String.compare]; try congruence. rewrite !asc_cmp. intros H1 H2.
  destruct (N.compare_spec (N_of_ascii x) (N_of_ascii y)) as [E1|E1|E1]; try discriminate; destruct (N.compare_spec (N_of_ascii y) (N_of_ascii z)) as [E2|E2|E2]; try discriminate.
  - rewrite E1, E2, N.compare_refl. eapply IH; eassumption.
  - rewrite E1. apply N.compare_lt_iff in E2. now rewrite E2.
  - rewrite <- E2. apply N.compare_lt_iff in E1. now rewrite E1.
  - assert (E : (N_of_ascii x < N_of_ascii z)%N) by lia. apply N.compare_lt_iff in E. now rewrite E.
Qed.
Lemma leb_sle a b : String.leb a b = true <-> sle a b.
Proof. unfold String.leb, sle. destruct (String.compare a b); split; congruence. Qed.
Lemma sle_total a b : sle a b \/ sle b a.
Proof. unfold sle. rewrite (String.compare_antisym a b). destruct (String.compare b a); cbn; (left; congruence) || (right; congruence). Qed.
Lemma sle_antisym a b : sle a b -> sle b a -> a = b.
Proof. unfold sle. rewrite (String.compare_antisym a b). destruct (String.compare b a) eqn:E; cbn; intros; try congruence. now apply String.compare_eq_iff in E. Qed.
Lemma sle_trans a b c : sle a b -> sle b c -> sle a c.
Proof.
  unfold sle. intros H1 H2. destruct (String.compare a b) eqn:E1; [apply String.compare_eq_iff in E1; subst; exact H2| |congruence].
  destruct (String.compare b c) eqn:E2; [apply String.compare_eq_iff in E2; subst; congruence| |congruence]. rewrite (cmp_trans _ _ _ E1 E2). congruence.
Qed.
Lemma insert_str_perm x l : Permutation (insert_str x l) (x :: l).
Proof. induction l as [|y l IH]; [reflexivity|]. cbn. destruct (String.leb x y); [reflexivity|]. rewrite IH. apply perm_swap. Qed.
Lemma sort_str_perm l : Permutation (sort_str l) l.
Proof. induction l as [|x l IH]; [reflexivity|]. cbn. rewrite insert_str_perm. now constructor. Qed.
Lemma insert_str_sorted x l : StronglySorted sle l -> StronglySorted sle (insert_str x l).
Proof.
  induction 1 as [|y l S IH F]; cbn; [repeat constructor|]. destruct (String.leb x y) eqn:E.
  - apply leb_sle in E. constructor; [constructor; assumption|]. constructor; [exact E|]. eapply Forall_impl; [|exact F]. intros z. now apply sle_trans.
  - constructor; [exact IH|]. assert (Y : sle y x) by (destruct (sle_total x y) as [H|H]; [apply leb_sle in H; congruence|exact H]).
    eapply Permutation_Forall; [symmetry; apply insert_str_perm|]. now constructor.
Qed.
Lemma sort_str_sorted l : StronglySorted sle (sort_str l).
Proof. induction l as [|x l IH]; [constructor|]. cbn. now apply insert_str_sorted. Qed.
Lemma sorted_perm_eq : forall l m, StronglySorted sle l -> StronglySorted sle m -> Permutation l m -> l = m.
Proof.
  induction l as [|x l IH]; intros m S1 S2 P.
  - symmetry. now apply Permutation_nil.
  - destruct m as [|y m]; [apply Permutation_sym, Permutation_nil in P; discriminate|]. inversion S1 as [|? ? S1' F1]; inversion S2 as [|? ? S2' F2]; subst.
    assert (E : x = y).
    { apply sle_antisym.
      - assert (I : In y (x :: l)) by (eapply Permutation_in; [symmetry; exact P|now left]). destruct I as [-> | I]; [unfold sle; rewrite cmp_refl; discriminate|]. rewrite Forall_forall in F1. now apply F1.
      - assert (I : In x (y :: m)) by (eapply Permutation_in; [exact P|now left]). destruct I as [-> | I]; [unfold sle; rewrite cmp_refl; discriminate|]. rewrite Forall_forall in F2. now apply F2. }
    subst y. f_equal. apply IH; [assumption..|]. now apply Permutation_cons_inv in P.
Qed.

(** * Zero-padded numbers *)
Lemma digit_cmp a b : (a < 10)%nat -> (b < 10)%nat -> Ascii.compare (ascii_of_nat (48 + a)) (ascii_of_nat (48 + b)) = Nat.compare a b.
Proof. intros Ha Hb. do 10 (destruct a as [|a]; [do 10 (destruct b as [|b]; [reflexivity|]); lia|]). lia. Qed.
Lemma cmp_app p : forall a b, String.compare (p ++ a) (p ++ b) = String.compare a b.
Proof. induction p as [|c p IH]; intros a b; [reflexivity|]. cbn. rewrite asc_cmp, N.compare_refl. apply IH. Qed.
Lemma pow10 w : (0 < 10 ^ w)%nat.
Proof. apply Nat.neq_0_lt_0, Nat.pow_nonzero. discriminate. Qed.
Lemma padded_lt suf : forall w n m, (n < 10 ^ w)%nat -> (m < 10 ^ w)%nat -> (n < m)%nat -> String.compare (padded w n ++ suf) (padded w m ++ suf) = Lt.
Proof.
  induction w as [|w IH]; intros n m Hn Hm L; [cbn in *; lia|]. cbn [padded append String.compare]. assert (P := pow10 w). change (10 ^ S w)%nat with (10 * 10 ^ w)%nat in *.
  assert (A : (n / 10 ^ w < 10)%nat) by (apply Nat.div_lt_upper_bound; lia). assert (B : (m / 10 ^ w < 10)%nat) by (apply Nat.div_lt_upper_bound; lia).
  rewrite digit_cmp by assumption. assert (D : (n / 10 ^ w <= m / 10 ^ w)%nat) by (apply Nat.div_le_mono; lia).
  destruct (Nat.compare_spec (n / 10 ^ w) (m / 10 ^ w)) as [E|E|E]; [|reflexivity|lia].
  assert (Dn := Nat.div_mod n (10 ^ w)). assert (Dm := Nat.div_mod m (10 ^ w)). rewrite E in Dn. apply IH; [apply Nat.mod_upper_bound; lia..|]. lia.
Qed.
Lemma padded_order pre suf w ns l : (forall n, In n ns -> (n < 10 ^ w)%nat) -> StronglySorted lt ns ->
  Permutation l (map (fun n => (pre ++ padded w n ++ suf)%string) ns) -> sort_str l = map (fun n => (pre ++ padded w n ++ suf)%string) ns.
Proof.
  intros B S P. apply sorted_perm_eq; [apply sort_str_sorted| |now rewrite sort_str_perm]. clear P l. induction S as [|n ns S IH F]; [constructor|]. cbn [map]. constructor.
  - apply IH. intros; apply B; now right.
  - rewrite Forall_forall in *. intros s I. apply in_map_iff in I as (m & <- & I). unfold sle. rewrite cmp_app, padded_lt; [discriminate|apply B; now left|apply B; now right|now apply F].
Qed.

(** * Lines *)
Lemma plain_tl c s : plain (String c s) -> c <> lf /\ c <> cr /\ plain s.
Proof. intro H. destruct (H 0%nat c eq_refl). split; [assumption|]. split; [assumption|]. intros i d E. exact (H (S i) d E). Qed.
Lemma app_assoc_s a b c : ((a ++ b) ++ c = a ++ (b ++ c))%string.
Proof. induction a as [|x a IH]; [reflexivity|]. cbn. now rewrite IH. Qed.
Lemma app_nil_s a : (a ++ "" = a)%string.
Proof. induction a as [|x a IH]; [reflexivity|]. cbn. now rewrite IH. Qed.
Lemma neq_eqb c d : c <> d -> Ascii.eqb c d = false.
Proof. intro H. now apply Ascii.eqb_neq. Qed.
Lemma lines_plain : forall s cur rest, plain s -> lines_of cur (s ++ String lf rest) = (cur ++ s)%string :: lines_of "" rest.
Proof.
  induction s as [|c s IH]; intros cur rest H.
  - cbn [append lines_of]. rewrite Ascii.eqb_refl. now rewrite app_nil_s.
  - apply plain_tl in H as (H1 & _ & H2). cbn [append lines_of]. rewrite (neq_eqb _ _ H1), IH by exact H2. now rewrite app_assoc_s.
Qed.
Lemma lines_last : forall s cur, plain s -> (cur ++ s)%string <> ""%string -> lines_of cur s = [(cur ++ s)%string].
Proof.
  induction s as [|c s IH]; intros cur H N.
  - rewrite app_nil_s in *. cbn. destruct cur; [congruence|reflexivity].
  - apply plain_tl in H as (H1 & _ & H2). cbn [lines_of]. rewrite (neq_eqb _ _ H1). rewrite IH; [now rewrite app_assoc_s|exact H2|]. rewrite app_assoc_s. exact N.
Qed.
Lemma newlines_plain : forall s rest, plain s -> universal_newlines (s ++ rest) = (s ++ universal_newlines rest)%string.
Proof.
  induction s as [|c s IH]; intros rest H; [reflexivity|]. apply plain_tl in H as (_ & H1 & H2). cbn [append universal_newlines]. rewrite (neq_eqb _ _ H1), IH by exact H2. reflexivity.
Qed.
Lemma newlines_text e names rest : e = String lf "" \/ e = String cr (String lf "") -> (forall n, In n names -> plain n) ->
  universal_newlines (text_of e names ++ rest) = (text_of (String lf "") names ++ universal_newlines rest)%string.
Proof.
  intros E H. induction names as [|n names IH]; [reflexivity|]. cbn [text_of fold_right]. fold (text_of e names). fold (text_of (String lf "") names). rewrite !app_assoc_s, newlines_plain by (apply H; now left).
  rewrite <- (IH (fun m I => H m (or_intror I))). f_equal. destruct E as [-> | ->]; cbn [append universal_newlines]; rewrite ?Ascii.eqb_refl.
  - replace (Ascii.eqb lf cr) with false by reflexivity. reflexivity.
  - reflexivity.
Qed.
Lemma lines_text names rest : (forall n, In n names -> plain n) -> lines_of "" (text_of (String lf "") names ++ rest) = names ++ lines_of "" rest.
Proof.
  induction names as [|n names IH]; intro H; [reflexivity|]. cbn [text_of fold_right app]. fold (text_of (String lf "") names). rewrite !app_assoc_s. cbn [append]. rewrite lines_plain by (apply H; now left).
  rewrite IH by (intros; apply H; now right). reflexivity.
Qed.
Lemma visit_lines e dir names last : e = String lf "" \/ e = String cr (String lf "") -> (forall n, In n names -> plain n) -> plain last ->
  visit_files dir (text_of e names ++ last) = map (path_join dir) (names ++ match last with EmptyString => [] | _ => [last] end).
Proof.
  intros E H L. unfold visit_files. rewrite newlines_text by assumption. assert (U : universal_newlines last = last) by (rewrite <- (app_nil_s last) at 1; rewrite newlines_plain by exact L; cbn; apply app_nil_s).
  rewrite U, lines_text by exact H. do 2 f_equal. destruct last as [|c last]; [reflexivity|]. rewrite lines_last; [reflexivity|exact L|discriminate].
Qed.
