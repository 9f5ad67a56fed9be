(** Lemmas on reversing axes which are not proper (C07). *)
From Coq Require Import Lia Lqa.
From Verif Require Import PyBase PyBaseFacts NumpyModel NumpyFacts AxisModel AxisSpec AxisFacts AxisInterpFacts.

Lemma reversed_any spl ax r : axis_reversed spl ax = Ok r ->
  ax_grid r = rev (ax_grid ax) /\ ax_node r = rev (ax_node ax) /\ ax_name r = ax_name ax /\ ax_unit r = ax_unit ax /\ ax_n r = Z.of_nat (length (ax_grid ax)) /\
  fst (ax_extent r) = last (ax_node ax) 0 /\ snd (ax_extent r) = hd 0 (ax_node ax).
Proof.
  unfold axis_reversed. rewrite !getslice_rev. cbn [bind]. unfold mk_axis. intro H. apply bind_ok in H as (u & _ & H). apply bind_ok in H as (u' & _ & H).
  cbn [bind] in H. apply bind_ok in H as (g' & H3 & H). apply bind_ok in H3 as ([] & _ & H4). injection H4 as <-.
  destruct (rev (ax_node ax)) as [|g0 gr] eqn:E; [discriminate|]. cbn [bind] in H. injection H as <-. cbn [ax_grid ax_node ax_name ax_unit ax_n ax_extent fst snd]. do 4 (split; [reflexivity|]). split; [now rewrite rev_length|].
  assert (E' : ax_node ax = rev (g0 :: gr)) by (rewrite <- E; now rewrite rev_involutive). rewrite E'. cbn [rev]. split; [now rewrite last_last|].
  assert (X : forall (l : list Q) d a, last (l ++ [a]) d = a) by (intros; apply last_last).
  destruct gr as [|b gr _] using rev_ind; [reflexivity|]. change (g0 :: gr ++ [b])%list with ((g0 :: gr) ++ [b])%list. rewrite rev_app_distr. cbn [rev app hd]. destruct (gr ++ [b])%list eqn:Eb; [destruct gr; discriminate Eb|]. rewrite <- Eb, X. reflexivity.
Qed.
Lemma reversed_twice_any spl ax r rr : axis_reversed spl ax = Ok r -> axis_reversed spl r = Ok rr -> ax_grid rr = ax_grid ax /\ ax_node rr = ax_node ax /\ ax_name rr = ax_name ax /\ ax_unit rr = ax_unit ax.
Proof.
  intros H1 H2. apply reversed_any in H1 as (A1 & A2 & A3 & A4 & _). apply reversed_any in H2 as (B1 & B2 & B3 & B4 & _). rewrite B1, B2, B3, B4, A1, A2, A3, A4, !rev_involutive. auto.
Qed.
(** on ascending nodes *)
Lemma monotone_rev l : negb (monotonicity l =? 0)%Z = true -> negb (monotonicity (rev l) =? 0)%Z = true.
Proof. intro H. destruct (monotone_cases l H) as [Si|Si]; [apply sdecr_monotone, sincr_rev, Si|apply sincr_monotone, sdecr_rev, Si]. Qed.
Lemma nth_tl {A} (l : list A) i d : nth i (tl l) d = nth (S i) l d.
Proof. destruct l; [now destruct i|reflexivity]. Qed.
Lemma nth_removelast {A} (l : list A) i d : (S i < length l)%nat -> nth i (removelast l) d = nth i l d.
Proof.
  destruct l as [|b l] using rev_ind; [cbn; lia|]. intro H. rewrite removelast_last. rewrite app_length in H. cbn in H. rewrite app_nth1 by lia. reflexivity.
Qed.
Lemma removelast_length {A} (l : list A) : length (removelast l) = pred (length l).
Proof. destruct l as [|b l] using rev_ind; [reflexivity|]. rewrite removelast_last, app_length. cbn. lia. Qed.
Lemma ascending_reversed spl nm un gn g ax : length gn = S (length g) -> sincr gn -> mk_axis spl nm un (Some gn) (Some g) None None = Ok ax -> exists r, axis_reversed spl ax = Ok r.
Proof.
  intros L Si H. destruct (mk_axis_inv _ _ _ _ _ _ H) as (Hc & M1 & M2 & Eg & En). unfold axis_reversed. rewrite !getslice_rev, Eg, En. cbn [bind].
  unfold mk_axis, check_monotone. rewrite (monotone_rev _ M1), (monotone_rev _ M2). cbn [guard bind].
  assert (Hc' : check_compatible (rev g) (rev gn) = Ok tt).
  { unfold check_compatible in *. assert (T : length (tl gn) = length g) by (destruct gn; cbn in *; lia). assert (R : length (removelast gn) = length g) by (rewrite removelast_length; lia).
    assert (T' : length (rev g) = length (tl (rev gn))) by (assert (X := rev_length gn); destruct (rev gn); cbn in *; rewrite rev_length; lia). assert (R' : length (rev g) = length (removelast (rev gn))) by (rewrite removelast_length, !rev_length; lia).
    rewrite np_broadcast2_same in Hc |- * by (exact R' || (rewrite R; reflexivity)). cbn [bind] in *. destruct (np_all (map2 _ (rev g) _)) eqn:A; [reflexivity|]. cbn [negb]. rewrite np_broadcast2_same by exact T'. cbn [bind].
    destruct (np_all (map2 _ (rev g) (tl _))) eqn:B; [|reflexivity]. exfalso. rewrite (np_all_map2_iff (fun a b => a <?q b) _ _ T') in B.
    assert (Lo : forall i, (i < length g)%nat -> nth i g 0 < nth i gn 0).
    { intros i Li. specialize (B (length g - 1 - i)%nat). rewrite rev_length in B. specialize (B ltac:(lia)). rewrite nth_tl, !rev_nth in B by lia. apply Qltb_lt in B. replace (length g - S (length g - 1 - i))%nat with i in B by lia. replace (length gn - S (S (length g - 1 - i)))%nat with i in B by lia. exact B. }
    destruct g as [|x g0] eqn:G; [destruct gn as [|? [|? ?]]; cbn in *; try lia; discriminate A|]. rewrite <- G in *.
    destruct (np_all (map2 _ g (removelast gn))) eqn:Ab.
    - rewrite np_all_map2_iff in Ab by now rewrite R. assert (L0 : (0 < length g)%nat) by (rewrite G; cbn; lia). specialize (Ab 0%nat L0). apply Qltb_lt in Ab. rewrite nth_removelast in Ab by lia. specialize (Lo 0%nat L0). lra.
    - cbn [negb] in Hc. rewrite np_broadcast2_same in Hc by now rewrite T. cbn [bind] in Hc. destruct (np_all (map2 _ g (tl gn))) eqn:Be; [discriminate Hc|]. rewrite (proj2 (np_all_map2_iff _ _ _ (eq_sym T))) in Be; [discriminate|].
      intros i Li. apply Qltb_lt. rewrite nth_tl. apply Qlt_trans with (nth i gn 0); [apply Lo, Li|apply Si; lia]. }
  rewrite Hc'. cbn [bind]. destruct (rev gn) eqn:E; [apply (f_equal (@length Q)) in E; rewrite rev_length in E; cbn in E; lia|]. cbn [bind]. eexists. reflexivity.
Qed.
(** on descending nodes *)
Lemma descending_refused : exists ax, mk_axis chord_spline "" "" (Some [3; 2; 1]) (Some [5 # 2; 1 # 2]) None None = Ok ax /\ axis_reversed chord_spline ax = Err ValueError.
Proof. eexists. split; reflexivity. Qed.
