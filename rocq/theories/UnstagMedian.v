(** The median (C87). *)
From Coq Require Import Reals List ZArith Lra Lia Permutation Sorting.Sorted.
From Verif Require Import PyBase PyBaseFacts NumpyModel NdModel NdFacts FieldModel FieldIntFacts CplxModel FftModel FftSpec UnstagModel UnstagSpec UnstagFacts.
Import ListNotations.
Local Open Scope R_scope.

Lemma rinsert_perm x l : Permutation (rinsert x l) (x :: l).
Proof. induction l as [|y r IH]; cbn [rinsert]; [reflexivity|]. destruct (Rleb x y); [reflexivity|]. rewrite IH. apply perm_swap. Qed.
Lemma rsort_perm l : Permutation (rsort l) l.
Proof. induction l as [|x l IH]; [reflexivity|]. unfold rsort in *. cbn [fold_right]. rewrite rinsert_perm. now rewrite IH. Qed.
Lemma Rleb_false a b : Rleb a b = false <-> b < a.
Proof. unfold Rleb. destruct (Rle_dec a b); split; intro; try congruence; try reflexivity; lra. Qed.
Lemma rinsert_sorted x l : StronglySorted Rle l -> StronglySorted Rle (rinsert x l).
Proof.
  induction l as [|y r IH]; intro H; cbn [rinsert]; [constructor; constructor|]. inversion H as [|? ? Hr Hy]; subst. destruct (Rleb x y) eqn:E.
  - apply Rleb_true in E. constructor; [exact H|]. constructor; [exact E|]. eapply Forall_impl; [|exact Hy]. intros z Hz. cbn in Hz. lra.
  - apply Rleb_false in E. constructor; [now apply IH|]. rewrite Forall_forall in *. intros z Iz. apply (Permutation_in _ (rinsert_perm x r)) in Iz. destruct Iz as [<-|Iz]; [lra|now apply Hy].
Qed.
Lemma rsort_sorted l : StronglySorted Rle (rsort l).
Proof. induction l as [|x l IH]; [constructor|]. unfold rsort in *. cbn [fold_right]. now apply rinsert_sorted. Qed.
Lemma count_perm p l l' : Permutation l l' -> count p l = count p l'.
Proof.
  unfold count. induction 1; cbn [filter]; [reflexivity|destruct (p x); cbn [length]; congruence|destruct (p x), (p y); reflexivity|congruence].
Qed.
Lemma count_none p l : (forall x, In x l -> p x = false) -> count p l = 0%nat.
Proof. unfold count. induction l as [|x l IH]; intro H; [reflexivity|]. cbn [filter]. rewrite H by now left. apply IH. intros; apply H; now right. Qed.
Lemma count_sorted p s : (forall x y, x <= y -> p y = true -> p x = true) -> StronglySorted Rle s -> forall k, (k < length s)%nat -> (k < count p s)%nat <-> p (nth k s 0) = true.
Proof.
  intros Mono H. induction H as [|x s Hs IH Hx]; intros k L; [cbn in L; lia|]. unfold count in *. cbn [filter]. destruct (p x) eqn:E.
  - destruct k as [|k]; cbn [nth length]; [split; [intros _; exact E|lia]|]. cbn in L. rewrite <- (IH k) by lia. lia.
  - assert (Z : length (filter p s) = 0%nat) by (apply count_none; rewrite Forall_forall in Hx; intros y Iy; destruct (p y) eqn:Py; [|reflexivity]; rewrite (Mono x y (Hx y Iy) Py) in E; discriminate).
    rewrite Z. split; [lia|]. intro Q. exfalso. destruct k as [|k]; cbn [nth] in Q; [congruence|]. cbn in L. apply (IH k) in Q; [|lia]. rewrite Z in Q. lia.
Qed.
Lemma count_split (p : R -> bool) l : (count p l + count (fun x => negb (p x)) l = length l)%nat.
Proof. unfold count. induction l as [|x l IH]; [reflexivity|]. cbn [filter length]. destruct (p x); cbn [negb length]; lia. Qed.
Lemma count_same p q l : (forall x, p x = q x) -> count p l = count q l.
Proof. intro H. unfold count. induction l as [|x l IH]; [reflexivity|]. cbn [filter]. rewrite <- H. destruct (p x); cbn [length]; now rewrite IH. Qed.
Lemma medians l z : l <> [] -> is_median z l <-> nth ((length l - 1) / 2) (rsort l) 0 <= z <= nth (length l / 2) (rsort l) 0.
Proof.
  intro N. assert (P := rsort_perm l). assert (Ls := Permutation_length P). assert (Sr := rsort_sorted l). set (s := rsort l) in *. set (n := length l) in *.
  assert (N0 : (0 < n)%nat) by (unfold n; destruct l; [congruence|cbn; lia]).
  assert (B1 : ((n - 1) / 2 < n)%nat) by (apply Nat.div_lt_upper_bound; lia). assert (B2 : (n / 2 < n)%nat) by (apply Nat.div_lt_upper_bound; lia).
  unfold is_median. fold n. rewrite <- !(count_perm _ _ _ P).
  assert (H1 : (n <= 2 * count (fun x => Rleb x z) s)%nat <-> nth ((n - 1) / 2) s 0 <= z).
  { rewrite <- Rleb_true. rewrite <- (count_sorted (fun x => Rleb x z) s); [|intros x y Q; rewrite !Rleb_true; lra|exact Sr|lia].
    set (c := count _ s). assert (D := Nat.div_mod (n - 1) 2 ltac:(lia)). assert (M := Nat.mod_upper_bound (n - 1) 2 ltac:(lia)). lia. }
  assert (H2 : (n <= 2 * count (fun x => Rleb z x) s)%nat <-> z <= nth (n / 2) s 0).
  { assert (Sp := count_split (fun x => negb (Rleb z x)) s). rewrite (count_same (fun x => negb (negb (Rleb z x))) (fun x => Rleb z x)) in Sp by (intro; apply Bool.negb_involutive).
    assert (C := count_sorted (fun x => negb (Rleb z x)) s). assert (C' : forall k, (k < length s)%nat -> (k < count (fun x => negb (Rleb z x)) s)%nat <-> negb (Rleb z (nth k s 0)) = true).
    { apply C; [|exact Sr]. intros x y Q. rewrite !Bool.negb_true_iff, !Rleb_false. lra. }
    specialize (C' (n / 2)%nat ltac:(lia)). set (c := count (fun x => Rleb z x) s) in *. set (c' := count (fun x => negb (Rleb z x)) s) in *.
    rewrite Bool.negb_true_iff, Rleb_false in C'. assert (D := Nat.div_mod n 2 ltac:(lia)). assert (M := Nat.mod_upper_bound n 2 ltac:(lia)).
    split; intro Q.
    - destruct (Rle_dec z (nth (n / 2) s 0)) as [|F]; [assumption|]. exfalso. assert (X : (n / 2 < c')%nat) by (apply C'; lra). lia.
    - assert (X : ~ (n / 2 < c')%nat) by (intro X; apply C' in X; lra). lia. }
  tauto.
Qed.
Lemma rmedian_middle l : l <> [] -> middle (rmedian l) l.
Proof.
  intro N. exists (nth ((length l - 1) / 2) (rsort l) 0), (nth (length l / 2) (rsort l) 0). split; [|intro z; now apply medians].
  unfold rmedian. set (n := length l). destruct (Nat.even n) eqn:E.
  - apply Nat.even_spec in E as [k E]. assert (k <> 0%nat) by (intros ->; unfold n in E; destruct l; [congruence|cbn in E; lia]).
    replace ((n - 1) / 2)%nat with (n / 2 - 1)%nat; [reflexivity|]. rewrite E. replace (2 * k)%nat with (k * 2)%nat by lia. rewrite Nat.div_mul by lia. apply (Nat.div_unique _ _ _ 1); lia.
  - assert (O : Nat.odd n = true) by (unfold Nat.odd; now rewrite E). apply Nat.odd_spec in O as [k O]. rewrite O.
    replace ((2 * k + 1 - 1) / 2)%nat with k by (apply (Nat.div_unique _ _ _ 0); lia). replace ((2 * k + 1) / 2)%nat with k by (apply (Nat.div_unique _ _ _ 1); lia). lra.
Qed.
(** * The origin which is chosen *)
Lemma unstagger_default spl sh es : linear_spline spl -> comparable sh es ->
  exists o, length o = length sh /\ unstagger_fields spl (map e_field es) None = unstagger_fields spl (map e_field es) (Some o) /\
    forall a, (a < length sh)%nat ->
      if (2 <? length es)%nat then middle (nth a o 0) (map (fun e => u_x0 (e_grid e a)) es) else forall e, nth_error es 0 = Some e -> nth a o 0 = u_x0 (e_grid e a).
Proof.
  intros Sp Cm. assert (Rd := unstagger_reads spl sh es Cm). destruct Cm as (L1 & N & St & _). set (n := length sh) in *. 
  assert (X : exists e0 r, es = e0 :: r) by (destruct es as [|e0 r]; [congruence|eauto]). destruct X as (e0 & r & Ees).
  destruct (2 <? length es)%nat eqn:E2.
  - exists (median_rows (map (positions n) es)). split; [|split; [rewrite !Rd; reflexivity|]].
    + unfold median_rows. rewrite map_length, seq_length, Ees. cbn [map hd]. unfold positions. rewrite map_length. apply seq_length.
    + intros a L. unfold median_rows.
      assert (Ln : length (hd [] (map (positions n) es)) = n) by (rewrite Ees; cbn [map hd]; unfold positions; rewrite map_length; apply seq_length). rewrite Ln.
      rewrite (nth_indep _ 0 (rmedian (map (fun r => nth 0 r 0) (map (positions n) es)))) by (rewrite map_length, seq_length; exact L).
      rewrite (map_nth (fun a => rmedian (map (fun r => nth a r 0) (map (positions n) es)))), seq_nth by exact L. cbn [plus]. rewrite map_map.
      rewrite (map_ext _ (fun e => u_x0 (e_grid e a))).
      * apply rmedian_middle. rewrite Ees. discriminate.
      * intro e. unfold positions. rewrite (nth_indep _ 0 (u_x0 (e_grid e 0%nat))) by (rewrite map_length, seq_length; exact L). rewrite (map_nth (fun a => u_x0 (e_grid e a))), seq_nth by exact L. reflexivity.
  - exists (hd [] (map (positions n) es)). split; [|split; [rewrite !Rd; reflexivity|]]; rewrite Ees; cbn [map hd nth_error]; [unfold positions; rewrite map_length; apply seq_length|].
    intros a L e [= <-]. unfold positions. rewrite (nth_indep _ 0 (u_x0 (e_grid e0 0%nat))) by (rewrite map_length, seq_length; exact L). rewrite (map_nth (fun a => u_x0 (e_grid e0 a))), seq_nth by exact L. reflexivity.
Qed.
