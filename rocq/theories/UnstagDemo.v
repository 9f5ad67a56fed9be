(** adjust_stagger_to, concrete staggered fields, and fields which stay staggered (C87). *)
From Coq Require Import Reals String List ZArith Lra Lia.
From Verif Require Import PyBase PyBaseFacts NumpyModel NdModel NdFacts FieldModel FieldIntFacts CplxModel CplxFacts FftModel FftSpec FftAxes FftFacts FftDemo FftWaveSpec UnstagModel UnstagSpec UnstagFacts UnstagMedian.
Import ListNotations.
Local Open Scope R_scope.

Lemma adjust_ok spl sh f U st other V t : linear_spline spl -> staggered sh f U st -> (1 <= length sh)%nat -> staggered sh (mksf false other) V t ->
  let o := fun a => u_x0 (V a) in near (length sh) o U \/ within_two (length sh) o U -> exists g, adjust_stagger_to spl f other = Ok g /\ unstaggered sh o f U st g.
Proof.
  intros Sp S L T o H. unfold adjust_stagger_to. rewrite (stag_first sh (mksf false other) V t T : first_points other = _). cbn [bind].
  assert (Cm : comparable sh [mkentry f U st]).
  { split; [exact L|]. split; [discriminate|]. split; [intros e [<-|[]]; exact S|]. intros e e' a [<-|[]] [<-|[]] _. reflexivity. }
  assert (Rd := unstagger_reads spl sh _ Cm (Some (map o (seq 0 (length sh))))). cbn [map e_field bind] in Rd. fold o. rewrite Rd.
  destruct (unstagger_given spl sh _ Sp Cm o) as (gs & E & W); [intros e [<-|[]]; exact H|]. cbn [map e_field] in E. rewrite E. cbn [bind].
  inversion W as [|x y l l' W1 W2 E1 E2]; subst. inversion W2; subst. exists y. split; [reflexivity|exact W1].
Qed.

(** a field with one axis *)
Definition line (u : uni) (data : Z -> C) : sfield := mksf true (field1 "x" "m" u false None data).
Lemma line_ok u data : proper u -> staggered [Z.of_nat (u_n u)] (line u data) (fun _ => u) false.
Proof. intro P. destruct (field1_ok "x" "m" u false None data P) as (A & B & D). split; [exact A|]. split; [reflexivity|]. split; [exact B|exact D]. Qed.
Definition left_grid := mkuni 4 0 1.
Definition right_grid := mkuni 4 (/ 2) 1.
Definition pair (d1 d2 : Z -> C) : list entry := [mkentry (line left_grid d1) (fun _ => left_grid) false; mkentry (line right_grid d2) (fun _ => right_grid) false].
Lemma pair_ok d1 d2 : comparable [4%Z] (pair d1 d2).
Proof.
  assert (P1 : proper left_grid) by (split; cbn; [lia|lra]). assert (P2 : proper right_grid) by (split; cbn; [lia|lra]).
  split; [cbn; lia|]. split; [discriminate|]. split.
  - intros e [<-|[<-|[]]]; [exact (line_ok left_grid d1 P1)|exact (line_ok right_grid d2 P2)].
  - intros e e' a [<-|[<-|[]]] [<-|[<-|[]]] _; reflexivity.
Qed.
Lemma pair_near : near 1 (fun a => nth a [0] 0) (fun _ => left_grid) /\ ~ near 1 (fun a => nth a [0] 0) (fun _ => right_grid) /\ within_two 1 (fun a => nth a [0] 0) (fun _ => right_grid).
Proof.
  split; [|split].
  - intros a L. replace a with 0%nat by lia. cbn [nth left_grid u_x0]. rewrite Rminus_diag_eq, Rabs_R0 by reflexivity. lra.
  - intro H. specialize (H 0%nat ltac:(lia)). cbn [nth right_grid u_x0] in H. rewrite Rabs_left in H by lra. rewrite Rabs_right in H by lra. lra.
  - intros a L. replace a with 0%nat by lia. cbn [nth right_grid u_x0 u_dx]. rewrite Rabs_left by lra. lra.
Qed.

(** * Grids of nanometres *)
Definition nm : R := / 1000000000.
Definition tiny_left := mkuni 4 0 nm.
Definition tiny_right := mkuni 4 (nm / 2) nm.
Lemma nm_pos : 0 < nm < / 100000000. Proof. unfold nm. lra. Qed.
Lemma tiny_stays spl d1 d2 : linear_spline spl -> unstagger_fields spl [line tiny_left d1; line tiny_right d2] None = Ok [line tiny_left d1; line tiny_right d2].
Proof.
  intro Sp. assert (N := nm_pos). assert (P1 : proper tiny_left) by (split; cbn; [lia|lra]). assert (P2 : proper tiny_right) by (split; cbn; [lia|lra]).
  set (es := [mkentry (line tiny_left d1) (fun _ => tiny_left) false; mkentry (line tiny_right d2) (fun _ => tiny_right) false]).
  assert (Cm : comparable [4%Z] es).
  { split; [cbn; lia|]. split; [discriminate|]. split.
    - intros e [<-|[<-|[]]]; [exact (line_ok tiny_left d1 P1)|exact (line_ok tiny_right d2 P2)].
    - intros e e' a [<-|[<-|[]]] [<-|[<-|[]]] _; reflexivity. }
  destruct (unstagger_default spl [4%Z] es Sp Cm) as (o & Lo & E & Ho). change [line tiny_left d1; line tiny_right d2] with (map e_field es). rewrite E.
  assert (O0 : nth 0 o 0 = 0) by (apply (Ho 0%nat ltac:(cbn; lia) (mkentry (line tiny_left d1) (fun _ => tiny_left) false)); reflexivity).
  assert (Nr : forall e, In e es -> near 1 (fun a => nth a o 0) (e_grid e)).
  { intros e [<-|[<-|[]]] a La; replace a with 0%nat by lia; rewrite O0; cbn [e_grid tiny_left tiny_right u_x0].
    - rewrite Rminus_diag_eq, Rabs_R0 by reflexivity. lra.
    - rewrite Rabs_left by lra. rewrite Rabs_right by lra. lra. }
  destruct (unstagger_to_origin spl [4%Z] es o Sp Cm Lo) as (gs & Eg & W); [intros e I; left; exact (Nr e I)|]. rewrite Eg. f_equal.
  inversion W as [|e1 g1 l1 l1' W1 W2 Q1 Q2]; subst. inversion W2 as [|e2 g2 l2 l2' W3 W4 Q3 Q4]; subst. inversion W4; subst.
  cbn [map e_field]. rewrite (proj1 W1 (Nr _ (or_introl eq_refl))), (proj1 W3 (Nr _ (or_intror (or_introl eq_refl)))). reflexivity.
Qed.
(** grids of different spacing are taken for equal *)
Definition coarse := mkuni 4 0 (2 * nm).
Lemma spacing_ignored spl d1 d2 : unstagger_fields spl [line tiny_left d1; line coarse d2] None = Ok [line tiny_left d1; line coarse d2].
Proof.
  assert (N := nm_pos). assert (P1 : proper tiny_left) by (split; cbn; [lia|lra]). assert (P2 : proper coarse) by (split; cbn; [lia|lra]).
  assert (S1 := line_ok tiny_left d1 P1). assert (S2 := line_ok coarse d2 P2). cbn [u_n tiny_left coarse Z.of_nat Pos.of_succ_nat Pos.succ] in S1, S2.
  unfold unstagger_fields. cbn [forallb]. rewrite (stag_linear _ _ _ _ S1), (stag_linear _ _ _ _ S2).
  replace (shape_eqb (a_shape (rf_data (sf_field (line tiny_left d1)))) (a_shape (rf_data (sf_field (line tiny_left d1))))) with true by reflexivity.
  replace (shape_eqb (a_shape (rf_data (sf_field (line coarse d2)))) (a_shape (rf_data (sf_field (line tiny_left d1))))) with true by reflexivity.
  cbn [andb guard bind mapM]. rewrite (stag_spacing _ _ _ _ S1), (stag_spacing _ _ _ _ S2). cbn [bind length seq map forallb tiny_left coarse u_dx].
  assert (C1 : all_close [nm] [nm] = true) by (cbn; now rewrite rclose_refl).
  assert (C2 : all_close [nm] [2 * nm] = true) by (cbn; rewrite (proj2 (rclose_true nm (2 * nm))); [reflexivity|]; rewrite Rabs_left by lra; rewrite Rabs_right by lra; lra).
  rewrite C1, C2. cbn [andb guard bind]. rewrite (stag_first _ _ _ _ S1), (stag_first _ _ _ _ S2). cbn [bind length seq map Nat.ltb Nat.leb hd tiny_left coarse u_x0].
  assert (C3 : all_close [0] [0] = true) by (cbn; now rewrite rclose_refl).
  assert (O1 : unstagger_one spl [nm] [0] (line tiny_left d1) = Ok (line tiny_left d1)).
  { unfold unstagger_one. rewrite (stag_first _ _ _ _ S1). cbn [bind length seq map broadcast_row Nat.eqb tiny_left u_x0]. now rewrite C3. }
  assert (O2 : unstagger_one spl [nm] [0] (line coarse d2) = Ok (line coarse d2)).
  { unfold unstagger_one. rewrite (stag_first _ _ _ _ S2). cbn [bind length seq map broadcast_row Nat.eqb coarse u_x0]. now rewrite C3. }
  rewrite O1. cbn [bind]. rewrite O2. reflexivity.
Qed.
