(** Proofs about Axis objects in a program (C115). *)
From Coq Require Import Lia.
From Verif Require Import PyBase PyBaseFacts NumpyModel NdModel NdFacts AxisModel AxisObjModel AxisObjSpec.

Lemma mk_axis_labels spl name unit gn g ext n a : mk_axis spl name unit gn g ext n = Ok a -> ax_name a = name /\ ax_unit a = unit.
Proof.
  unfold mk_axis. intro H. apply bind_ok in H. destruct H as (? & _ & H). apply bind_ok in H. destruct H as (? & _ & H). apply bind_ok in H. destruct H as (nodes & _ & H).
  apply bind_ok in H. destruct H as (gr & _ & H). destruct nodes as [|n0 nodes]; [discriminate H|]. apply bind_ok in H. destruct H as (? & _ & H). apply bind_ok in H. destruct H as (? & _ & H).
  injection H as <-. split; reflexivity.
Qed.

(** the map from values to indices of an axis *)
Definition map_of (a : axis) (m : list Q * list Q) : Prop :=
  length (ax_node a) = S (length (ax_grid a)) /\ fst m = interleave (ax_node a) (ax_grid a) /\
  np_linspace (- qhalf) (inject_Z (ax_n a) - qhalf) (Z.of_nat (length (interleave (ax_node a) (ax_grid a)))) = Ok (snd m).
(** an object b which was made as m says; P: nobody has written to any array *)
Definition intact (w : world) (b : aobj) (a : axis) : Prop :=
  array_at w (b_node b) = ax_node a /\ array_at w (b_grid b) = ax_grid a /\
  (forall x, b_linear b = Some x -> h_islinear (ax_node a) = Ok x) /\ (forall m, b_map b = Some m -> map_of a m).
Definition locked (w : world) (p : nat) : Prop := exists l, nth_error (w_arrays w) p = Some (l, false).
Definition there (w : world) (p : nat) : Prop := exists x, nth_error (w_arrays w) p = Some x.
Record fits (P : Prop) (w : world) (b : aobj) (m : maker) : Prop := mkfits {
  f_name : b_name b = k_name m; f_unit : b_unit b = k_unit m;
  f_extent : b_extent b = ax_extent (k_axis m); f_n : b_n b = ax_n (k_axis m);
  f_node : there w (b_node b); f_grid : there w (b_grid b);
  f_locked : k_sealed m = true -> locked w (b_node b) /\ locked w (b_grid b);
  f_intact : k_sealed m = true \/ P -> intact w b (k_axis m) }.

Lemma fits_weaken (P P' : Prop) w b m : (P' -> P) -> fits P w b m -> fits P' w b m.
Proof. intros H []. constructor; auto. intros [S|S]; apply f_intact0; auto. Qed.
(** more arrays *)
Lemma array_more w x p : there w p -> array_at (mkworld (w_arrays w ++ x) (w_objs w)) p = array_at w p.
Proof. intros (y & H). unfold array_at. cbn [w_arrays]. rewrite nth_error_app1 by (apply nth_error_Some; congruence). reflexivity. Qed.
Lemma there_more w x p o : there w p -> there (mkworld (w_arrays w ++ x) o) p.
Proof. intros (y & H). exists y. cbn [w_arrays]. rewrite nth_error_app1 by (apply nth_error_Some; congruence). exact H. Qed.
Lemma locked_more w x p o : locked w p -> locked (mkworld (w_arrays w ++ x) o) p.
Proof. intros (y & H). exists y. cbn [w_arrays]. rewrite nth_error_app1 by (apply nth_error_Some; congruence). exact H. Qed.
Lemma fits_more P w x o b m : fits P w b m -> fits P (mkworld (w_arrays w ++ x) o) b m.
Proof.
  intros []. constructor; auto.
  - now apply there_more.
  - now apply there_more.
  - intro S. destruct (f_locked0 S). split; now apply locked_more.
  - intro S. destruct (f_intact0 S) as (A & B & C & D). split; [|split; [|split; assumption]].
    + change (array_at (mkworld (w_arrays w ++ x) (w_objs w)) (b_node b) = ax_node (k_axis m)). now rewrite array_more.
    + change (array_at (mkworld (w_arrays w ++ x) (w_objs w)) (b_grid b) = ax_grid (k_axis m)). now rewrite array_more.
Qed.
(** other objects *)
Lemma fits_objs P w o b m : fits P w b m -> fits P (mkworld (w_arrays w) o) b m.
Proof. intros []. constructor; auto. Qed.

Lemma all_more P w x o : forall bs ms, Forall2 (fits P w) bs ms -> Forall2 (fits P (mkworld (w_arrays w ++ x) o)) bs ms.
Proof. induction 1; constructor; auto. now apply fits_more. Qed.
Lemma all_objs P w o : forall bs ms, Forall2 (fits P w) bs ms -> Forall2 (fits P (mkworld (w_arrays w) o)) bs ms.
Proof. induction 1; constructor; auto. now apply fits_objs. Qed.
Lemma all_weaken (P P' : Prop) w bs ms : (P' -> P) -> Forall2 (fits P w) bs ms -> Forall2 (fits P' w) bs ms.
Proof. intro H. induction 1; constructor; auto. now apply (fits_weaken P). Qed.
Lemma F2_nth {A B} (R : A -> B -> Prop) l l' k x : Forall2 R l l' -> nth_error l k = Some x -> exists y, nth_error l' k = Some y /\ R x y.
Proof. intro H. revert k. induction H as [|a b l l' r _ IH]; intros [|k] E; try discriminate E; [injection E as <-; exists b; split; [reflexivity|exact r]|exact (IH k E)]. Qed.
Lemma F2_none {A B} (R : A -> B -> Prop) l l' k : Forall2 R l l' -> nth_error l k = None -> nth_error l' k = None.
Proof. intro H. revert k. induction H as [|a b l l' r _ IH]; intros [|k] E; try discriminate E; try reflexivity; exact (IH k E). Qed.
Lemma F2_upd {A B} (R : A -> B -> Prop) f l l' k x : Forall2 R l l' -> (forall y, nth_error l' k = Some y -> R x (f y)) -> Forall2 R (upd l k x) (change f k l').
Proof. intro H. revert k. induction H as [|a b l l' r H IH]; intros [|k] E; cbn [upd change]; constructor; auto. Qed.
Lemma change_id {A} k (l : list A) : change (fun x => x) k l = l.
Proof. revert k. induction l as [|x l IH]; intros [|k]; cbn [change]; congruence. Qed.
Lemma change_none {A} f k (l : list A) : nth_error l k = None -> change f k l = l.
Proof. revert k. induction l as [|x l IH]; intros [|k] H; cbn [change]; auto; [discriminate H|]. f_equal. now apply IH. Qed.

(** ** one query *)
Lemma is_linear_fits P w b m force : fits P w b m -> fits P w (fst (is_linear w b force)) m /\ (k_sealed m = true \/ P -> snd (is_linear w b force) = islinear (k_axis m)).
Proof.
  intros F. unfold is_linear, islinear. replace (b_n b <? 3)%Z with (ax_n (k_axis m) <? 3)%Z by (now rewrite (f_n _ _ _ _ F)). destruct (ax_n (k_axis m) <? 3)%Z; [split; [exact F|reflexivity]|].
  assert (Q : k_sealed m = true \/ P -> forall x, b_linear b = Some x -> h_islinear (ax_node (k_axis m)) = Ok x) by (intro S; destruct (f_intact _ _ _ _ F S) as (_ & _ & L & _); exact L).
  assert (N : k_sealed m = true \/ P -> array_at w (b_node b) = ax_node (k_axis m)) by (intro S; destruct (f_intact _ _ _ _ F S) as (L & _); exact L).
  assert (K : fits P w (fst (match h_islinear (array_at w (b_node b)) with
           | Ok x => (mkobj (b_name b) (b_unit b) (b_node b) (b_grid b) (b_extent b) (b_n b) (Some x) (b_map b), Ok x)
           | Err e => (b, Err e) end)) m /\ (k_sealed m = true \/ P -> snd (match h_islinear (array_at w (b_node b)) with
           | Ok x => (mkobj (b_name b) (b_unit b) (b_node b) (b_grid b) (b_extent b) (b_n b) (Some x) (b_map b), Ok x)
           | Err e => (b, Err e) end) = h_islinear (ax_node (k_axis m)))).
  { destruct (h_islinear (array_at w (b_node b))) as [x|e] eqn:E; cbn [fst snd].
    - split; [|intro S; rewrite <- (N S); congruence]. destruct F. constructor; auto. intro S. destruct (f_intact0 S) as (A & B & C & D). split; [exact A|]. split; [exact B|]. split; [|exact D].
      cbn [b_linear]. intros y Y. injection Y as <-. rewrite <- (N S). exact E.
    - split; [exact F|intro S; rewrite <- (N S); congruence]. }
  destruct (b_linear b) as [x|] eqn:L; [|exact K]. destruct force; [exact K|]. split; [exact F|]. intro S. symmetry. exact (Q S x eq_refl).
Qed.
Lemma inverse_map_fits P w b m : fits P w b m -> fits P w (fst (inverse_map w b)) m /\ (k_sealed m = true \/ P ->
  (length (ax_node (k_axis m)) <> S (length (ax_grid (k_axis m))) -> snd (inverse_map w b) = Err ValueError) /\
  (length (ax_node (k_axis m)) = S (length (ax_grid (k_axis m))) -> snd (inverse_map w b) = let! idx := np_linspace (- qhalf) (inject_Z (ax_n (k_axis m)) - qhalf) (Z.of_nat (length (interleave (ax_node (k_axis m)) (ax_grid (k_axis m))))) in Ok (interleave (ax_node (k_axis m)) (ax_grid (k_axis m)), idx))).
Proof.
  intro F. unfold inverse_map. destruct (b_map b) as [mp|] eqn:M.
  - split; [exact F|]. intro S. destruct (f_intact _ _ _ _ F S) as (_ & _ & _ & D). destruct (D mp M) as (L & A & B). split; [congruence|]. intros _. rewrite B. cbn [bind snd]. destruct mp as [g i]. cbn [fst snd] in *. congruence.
  - cbv zeta. split.
    + destruct (negb _) eqn:L; [exact F|]. destruct (np_linspace _ _ _) as [idx|e] eqn:E; [|exact F]. cbn [fst]. destruct F. constructor; auto. intro S. destruct (f_intact0 S) as (A & B & C & D).
      split; [exact A|]. split; [exact B|]. split; [exact C|]. cbn [b_map]. intros y Y. injection Y as <-. apply Bool.negb_false_iff, Nat.eqb_eq in L. rewrite A, B, f_n0 in *. split; [exact L|]. split; [reflexivity|exact E].
    + intro S. destruct (f_intact _ _ _ _ F S) as (A & B & _). rewrite A, B, (f_n _ _ _ _ F). split; intro L.
      * apply Nat.eqb_neq in L. rewrite L. reflexivity.
      * apply Nat.eqb_eq in L. rewrite L. cbn [negb]. destruct (np_linspace _ _ _); reflexivity.
Qed.
Lemma to_index_fits P w b m v : fits P w b m -> fits P w (fst (to_index w b v)) m /\ (k_sealed m = true \/ P -> snd (to_index w b v) = value_to_index (k_axis m) v).
Proof.
  intro F. unfold to_index, value_to_index. destruct (is_linear_fits P w b m false F) as (F1 & L). destruct (is_linear w b false) as [b1 [[|]|e]]; cbn [fst snd] in *.
  - split; [exact F1|]. intro S. rewrite <- (L S). cbn [bind]. unfold value_to_index_linear, shows. cbn [ax_extent ax_n]. rewrite (f_extent _ _ _ _ F1), (f_n _ _ _ _ F1). reflexivity.
  - destruct (inverse_map_fits P w b1 m F1) as (F2 & I). destruct (inverse_map w b1) as [b2 [mp|e]]; cbn [fst snd] in *.
    + split; [exact F2|]. intro S. rewrite <- (L S). cbn [bind]. unfold value_to_index_nonlinear. destruct (I S) as (I1 & I2). destruct (Nat.eqb_spec (length (ax_node (k_axis m))) (Datatypes.S (length (ax_grid (k_axis m))))) as [E|E].
      * cbn [negb]. specialize (I2 E). destruct (np_linspace _ _ _) as [idx|e]; [|discriminate I2]. cbn [bind] in *. injection I2 as ->. cbn [fst snd]. rewrite (f_extent _ _ _ _ F2). reflexivity.
      * specialize (I1 E). discriminate I1.
    + split; [exact F2|]. intro S. rewrite <- (L S). cbn [bind]. unfold value_to_index_nonlinear. destruct (I S) as (I1 & I2). destruct (Nat.eqb_spec (length (ax_node (k_axis m))) (Datatypes.S (length (ax_grid (k_axis m))))) as [E|E].
      * cbn [negb]. specialize (I2 E). destruct (np_linspace _ _ _) as [idx|e']; [discriminate I2|]. cbn [bind] in *. congruence.
      * specialize (I1 E). cbn [negb]. congruence.
  - split; [exact F1|]. intro S. rewrite <- (L S). reflexivity.
Qed.
Lemma spacing_fits P w b m : fits P w b m -> fits P w (fst (node_spacing w b)) m /\ (k_sealed m = true \/ P -> snd (node_spacing w b) = spacing (k_axis m)).
Proof.
  intro F. unfold node_spacing, spacing. destruct (is_linear_fits P w b m false F) as (F1 & L). destruct (is_linear w b false) as [b1 [[|]|e]]; cbn [fst snd] in *.
  - split; [exact F1|]. intro S. rewrite <- (L S). cbn [bind negb]. destruct (f_intact _ _ _ _ F1 S) as (A & _). rewrite A. reflexivity.
  - split; [exact F1|]. intro S. rewrite <- (L S). reflexivity.
  - split; [exact F1|]. intro S. rewrite <- (L S). reflexivity.
Qed.

(** ** one statement *)
Lemma write_all (P P' : Prop) w p i v bs ms : (P' -> False) -> Forall2 (fits P w) bs ms -> Forall2 (fits P' (fst (write w p i v))) bs ms.
Proof.
  intros NP. unfold write. destruct (nth_error (w_arrays w) p) as [[l [|]]|] eqn:E; [|intro H; apply (all_weaken P); [tauto|exact H]|intro H; apply (all_weaken P); [tauto|exact H]].
  destruct (setidx l i v) as [l'|e]; [|intro H; apply (all_weaken P); [tauto|exact H]]. cbn [fst]. intro H. induction H as [|b m bs ms F _ IH]; constructor; auto. clear IH.
  assert (TH : forall q, there w q -> there (mkworld (upd (w_arrays w) p (l', true)) (w_objs w)) q).
  { intros q (x & X). unfold there. cbn [w_arrays]. destruct (Nat.eq_dec p q) as [<-|N].
    - exists (l', true). rewrite nth_error_upd, Nat.eqb_refl. assert (B : (p < length (w_arrays w))%nat) by (apply nth_error_Some; congruence). apply Nat.ltb_lt in B. now rewrite B.
    - exists x. rewrite nth_error_upd. replace (Nat.eqb q p) with false by (symmetry; apply Nat.eqb_neq; congruence). exact X. }
  assert (LK : forall q, locked w q -> nth_error (upd (w_arrays w) p (l', true)) q = nth_error (w_arrays w) q).
  { intros q (x & X). rewrite nth_error_upd. replace (Nat.eqb q p) with false; [reflexivity|]. symmetry. apply Nat.eqb_neq. intro N. subst. congruence. }
  destruct F. constructor; auto.
  - intro S. destruct (f_locked0 S) as (A & B). unfold locked. cbn [w_arrays]. split; [rewrite (LK _ A); exact A|rewrite (LK _ B); exact B].
  - intros [S|S]; [|contradiction]. destruct (f_locked0 S) as (A & B). destruct (f_intact0 (or_introl S)) as (C & D & R). unfold intact, array_at. cbn [w_arrays]. rewrite (LK _ A), (LK _ B). split; [exact C|]. split; [exact D|exact R].
Qed.

Lemma made_shape spl w o l (P P' : Prop) : Forall2 (fits P w) (w_objs w) l -> (P' -> P) -> (is_write o = true -> ~ P') -> Forall2 (fits P' (fst (step spl w o))) (w_objs (fst (step spl w o))) (made_by spl l o).
Proof.
  intros H PP WP. assert (H' := all_weaken P P' w _ _ PP H).
  assert (SAME : forall bs ms w', Forall2 (fits P' w) bs ms -> w_arrays w' = w_arrays w -> Forall2 (fits P' w') bs ms).
  { intros bs ms [ar ob] F E. cbn in E. subst. now apply all_objs. }
  assert (PUT : forall k b b' f, nth_error (w_objs w) k = Some b -> (forall m, fits P' w b m -> fits P' w b' (f m)) -> Forall2 (fits P' (put w k b')) (w_objs (put w k b')) (change f k l)).
  { intros k b b' f B F. apply (SAME _ _ (put w k b')); [|reflexivity]. cbn [put w_objs]. apply F2_upd; [exact H'|]. intros m M. apply F. destruct (F2_nth _ _ _ k b H' B) as (m' & M' & R). rewrite M in M'. now injection M' as <-. }
  destruct o as [name unit gn g ext n|k|k|k s|k s|k i v|k i v|k force|k|k v]; cbn [step made_by is_write] in *.
  - unfold new. destruct (mk_axis spl name unit gn g ext n) as [a|e] eqn:E; [|exact H']. destruct (mk_axis_labels _ _ _ _ _ _ _ _ E) as (EN & EU). cbn [fst w_objs].
    apply Forall2_app; [now apply all_more|]. constructor; [|constructor].
    assert (A0 : nth_error (w_arrays w ++ [(ax_node a, false); (ax_grid a, false)]) (length (w_arrays w)) = Some (ax_node a, false)) by (rewrite nth_error_app2, Nat.sub_diag by lia; reflexivity).
    assert (A1 : nth_error (w_arrays w ++ [(ax_node a, false); (ax_grid a, false)]) (S (length (w_arrays w))) = Some (ax_grid a, false)) by (rewrite nth_error_app2 by lia; replace (S (length (w_arrays w)) - length (w_arrays w))%nat with 1%nat by lia; reflexivity).
    constructor; cbn [b_name b_unit b_node b_grid b_extent b_n b_linear b_map k_axis k_sealed k_name k_unit]; auto.
    + eexists. exact A0.
    + eexists. exact A1.
    + intros _. split; eexists; [exact A0|exact A1].
    + intros _. unfold intact, array_at. cbn [w_arrays b_node b_grid b_linear b_map]. rewrite A0, A1. repeat split; discriminate.
  - destruct (nth_error (w_objs w) k) as [b|] eqn:B; unfold again.
    + destruct (F2_nth _ _ _ k b H' B) as (m & M & R). rewrite M. cbn [shallow fst w_objs]. apply Forall2_app; [now apply all_objs|]. constructor; [|constructor]. apply fits_objs. destruct R. constructor; auto.
      intro S. destruct (f_intact0 S) as (X & Y & Z & _). split; [exact X|]. split; [exact Y|]. split; [exact Z|]. discriminate.
    + rewrite (F2_none _ _ _ k H' B). exact H'.
  - destruct (nth_error (w_objs w) k) as [b|] eqn:B; unfold again.
    + destruct (F2_nth _ _ _ k b H' B) as (m & M & R). rewrite M. cbn [deep fst w_objs]. apply Forall2_app; [now apply all_more|]. constructor; [|constructor].
      set (x := [(array_at w (b_node b), true); (array_at w (b_grid b), true)]).
      assert (A0 : nth_error (w_arrays w ++ x) (length (w_arrays w)) = Some (array_at w (b_node b), true)) by (rewrite nth_error_app2, Nat.sub_diag by lia; reflexivity).
      assert (A1 : nth_error (w_arrays w ++ x) (S (length (w_arrays w))) = Some (array_at w (b_grid b), true)) by (rewrite nth_error_app2 by lia; replace (S (length (w_arrays w)) - length (w_arrays w))%nat with 1%nat by lia; reflexivity).
      destruct R. constructor; cbn [state b_name b_unit b_node b_grid b_extent b_n b_linear b_map unsealed k_axis k_sealed k_name k_unit]; auto.
      * eexists. exact A0.
      * eexists. exact A1.
      * discriminate.
      * intros [S|S]; [discriminate S|]. destruct (f_intact0 (or_intror S)) as (X & Y & Z & _). unfold intact, array_at at 1 2. cbn [w_arrays b_node b_grid b_linear b_map]. rewrite A0, A1. split; [exact X|]. split; [exact Y|]. split; [exact Z|discriminate].
    + rewrite (F2_none _ _ _ k H' B). exact H'.
  - destruct (nth_error (w_objs w) k) as [b|] eqn:B; [|rewrite change_none by exact (F2_none _ _ _ k H' B); exact H']. cbn [fst]. apply (PUT k b _ (fun m => renamed m s) B). intros m []. constructor; auto.
  - destruct (nth_error (w_objs w) k) as [b|] eqn:B; [|rewrite change_none by exact (F2_none _ _ _ k H' B); exact H']. cbn [fst]. apply (PUT k b _ (fun m => reunited m s) B). intros m []. constructor; auto.
  - destruct (nth_error (w_objs w) k) as [b|] eqn:B; [|exact H']. assert (K := write_all P P' w (b_grid b) i v _ _ (WP eq_refl) H). replace (w_objs (fst (write w (b_grid b) i v))) with (w_objs w); [exact K|].
    unfold write. destruct (nth_error (w_arrays w) (b_grid b)) as [[q [|]]|]; try reflexivity. destruct (setidx q i v); reflexivity.
  - destruct (nth_error (w_objs w) k) as [b|] eqn:B; [|exact H']. assert (K := write_all P P' w (b_node b) i v _ _ (WP eq_refl) H). replace (w_objs (fst (write w (b_node b) i v))) with (w_objs w); [exact K|].
    unfold write. destruct (nth_error (w_arrays w) (b_node b)) as [[q [|]]|]; try reflexivity. destruct (setidx q i v); reflexivity.
  - destruct (nth_error (w_objs w) k) as [b|] eqn:B; [|exact H']. cbn [fst]. rewrite <- (change_id k l). apply (PUT k b _ (fun m => m) B). intros m F. exact (proj1 (is_linear_fits P' w b m force F)).
  - destruct (nth_error (w_objs w) k) as [b|] eqn:B; [|exact H']. cbn [fst]. rewrite <- (change_id k l). apply (PUT k b _ (fun m => m) B). intros m F. exact (proj1 (spacing_fits P' w b m F)).
  - destruct (nth_error (w_objs w) k) as [b|] eqn:B; [|exact H']. cbn [fst]. rewrite <- (change_id k l). apply (PUT k b _ (fun m => m) B). intros m F. exact (proj1 (to_index_fits P' w b m v F)).
Qed.
Lemma run_fits spl h : Forall2 (fits (no_writes h) (run spl h)) (w_objs (run spl h)) (made spl h).
Proof.
  induction h as [|o h IH] using rev_ind; [constructor|]. unfold run, made. rewrite !fold_left_app. cbn [fold_left]. fold (run spl h) (made spl h).
  apply (made_shape spl (run spl h) o (made spl h) (no_writes h)); [exact IH| |].
  - intros N x X. apply N. apply in_or_app. now left.
  - intros W N. rewrite (N o) in W; [discriminate W|]. apply in_or_app. right. now left.
Qed.
(** ** the theorems *)
Lemma object_made spl h k : (exists b, nth_error (w_objs (run spl h)) k = Some b) <-> exists m, nth_error (made spl h) k = Some m.
Proof.
  assert (F := run_fits spl h). split.
  - intros (b & B). destruct (F2_nth _ _ _ k b F B) as (m & M & _). eauto.
  - intros (m & M). destruct (nth_error (w_objs (run spl h)) k) as [b|] eqn:B; [eauto|]. rewrite (F2_none _ _ _ k F B) in M. discriminate M.
Qed.
Lemma made_at spl h k m : nth_error (made spl h) k = Some m -> exists b, nth_error (w_objs (run spl h)) k = Some b /\ fits (no_writes h) (run spl h) b m.
Proof.
  intro M. destruct (proj2 (object_made spl h k) (ex_intro _ m M)) as (b & B). exists b. split; [exact B|]. destruct (F2_nth _ _ _ k b (run_fits spl h) B) as (m' & M' & R). rewrite M in M'. now injection M' as <-.
Qed.
Lemma answers spl h k m : nth_error (made spl h) k = Some m -> k_sealed m = true \/ no_writes h ->
  (forall force, snd (step spl (run spl h) (Islinear k force)) = rmap Bool (islinear (k_axis m))) /\ snd (step spl (run spl h) (Spacing k)) = rmap Num (spacing (k_axis m)) /\ (forall v, snd (step spl (run spl h) (Index k v)) = rmap Num (value_to_index (k_axis m) v)).
Proof.
  intros M S. destruct (made_at spl h k m M) as (b & B & F). cbn [step]. rewrite B. cbn [snd]. split; [intro force|split; [|intro v]]; f_equal.
  - exact (proj2 (is_linear_fits _ _ _ _ force F) S).
  - exact (proj2 (spacing_fits _ _ _ _ F) S).
  - exact (proj2 (to_index_fits _ _ _ _ v F) S).
Qed.
Lemma points_kept spl h k m : nth_error (made spl h) k = Some m -> exists b, nth_error (w_objs (run spl h)) k = Some b /\ ax_name (shows (run spl h) b) = k_name m /\ ax_unit (shows (run spl h) b) = k_unit m /\ (k_sealed m = true \/ no_writes h -> same_points (shows (run spl h) b) (k_axis m)).
Proof.
  intro M. destruct (made_at spl h k m M) as (b & B & F). exists b. split; [exact B|]. destruct F. split; [exact f_name0|]. split; [exact f_unit0|]. intro S. destruct (f_intact0 S) as (X & Y & _).
  unfold same_points, shows. cbn [ax_node ax_grid ax_extent ax_n]. auto.
Qed.
Lemma writes_refused spl h k m i v : nth_error (made spl h) k = Some m -> k_sealed m = true ->
  step spl (run spl h) (WriteGrid k i v) = (run spl h, Err ValueError) /\ step spl (run spl h) (WriteNode k i v) = (run spl h, Err ValueError).
Proof.
  intros M S. destruct (made_at spl h k m M) as (b & B & F). cbn [step]. rewrite B. destruct (f_locked _ _ _ _ F S) as ((x & X) & (y & Y)). unfold write. rewrite X, Y. split; reflexivity.
Qed.
