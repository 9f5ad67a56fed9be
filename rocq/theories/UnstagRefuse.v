(** What unstagger_fields refuses (C87). *)
From Coq Require Import Reals List ZArith Lia Lra Bool.
From Verif Require Import PyBase PyBaseFacts NumpyModel NdModel NdFacts FieldModel FieldIntFacts CplxModel CplxFacts FftModel FftSpec FftAxes FftFacts FftWaveSpec UnstagModel UnstagSpec UnstagFacts.
Import ListNotations.
Local Open Scope R_scope.

(** an axis of three or more points one node of which is not where it would be on a uniform axis
    from the first node to the last *)
Definition bent (ax : raxis) : Prop :=
  (3 <= length (ra_grid ax))%nat /\ exists i, (i < length (ra_node ax))%nat /\
    let on_line := hd 0 (ra_node ax) + INR i * ((last (ra_node ax) 0 - hd 0 (ra_node ax)) / INR (length (ra_node ax) - 1)) in
    Rabs (nth i (ra_node ax) 0 - on_line) > / 100000000 + / 100000 * Rabs on_line.
Lemma bent_false ax : bent ax -> rislinear ax = false.
Proof.
  intros (L & i & Li & H). unfold rislinear. destruct (Nat.ltb_spec (length (ra_grid ax)) 3); [lia|]. set (g := rlinspace _ _ _).
  destruct (forallb _ _) eqn:E; [|reflexivity]. rewrite forallb_forall in E.
  assert (I : In (nth i (combine (ra_node ax) g) (0, 0)) (combine (ra_node ax) g)) by (apply nth_In; rewrite combine_length; unfold g, rlinspace; rewrite map_length, seq_length; lia).
  apply E in I. rewrite combine_nth in I by (unfold g, rlinspace; now rewrite map_length, seq_length). cbn [fst snd] in I. apply rclose_true in I.
  assert (G : nth i g 0 = hd 0 (ra_node ax) + INR i * ((last (ra_node ax) 0 - hd 0 (ra_node ax)) / INR (length (ra_node ax) - 1))) by (unfold g, rlinspace; rewrite (nth_indep _ 0 (hd 0 (ra_node ax) + INR 0 * ((last (ra_node ax) 0 - hd 0 (ra_node ax)) / INR (length (ra_node ax) - 1)))) by (rewrite map_length, seq_length; exact Li); rewrite (map_nth (fun i => hd 0 (ra_node ax) + INR i * ((last (ra_node ax) 0 - hd 0 (ra_node ax)) / INR (length (ra_node ax) - 1)))); now rewrite seq_nth by exact Li).
  rewrite G in I. cbv zeta in H. lra.
Qed.
Lemma shapes_refused spl fields origin f g : In f fields -> In g fields -> a_shape (rf_data (sf_field f)) <> a_shape (rf_data (sf_field g)) -> unstagger_fields spl fields origin = Err ValueError.
Proof.
  intros If Ig N. unfold unstagger_fields. set (sh := match fields with f :: _ => _ | [] => _ end). destruct (forallb (fun f => shape_eqb (a_shape (rf_data (sf_field f))) sh) fields) eqn:E; [|reflexivity].
  rewrite forallb_forall in E. exfalso. apply N. assert (A := E f If). assert (B := E g Ig). unfold shape_eqb in A, B.
  destruct (list_eq_dec Z.eq_dec (a_shape (rf_data (sf_field f))) sh); [|discriminate A]. destruct (list_eq_dec Z.eq_dec (a_shape (rf_data (sf_field g))) sh); [congruence|discriminate B].
Qed.
Lemma bent_refused spl fields origin f ax : In f fields -> In ax (rf_axes (sf_field f)) -> bent ax -> unstagger_fields spl fields origin = Err ValueError.
Proof.
  intros If Ia Hb. unfold unstagger_fields. destruct (forallb (fun f0 => shape_eqb _ _) fields); [|reflexivity]. cbn [guard bind].
  destruct (forallb (fun f => forallb rislinear (rf_axes (sf_field f))) fields) eqn:E; [|reflexivity].
  rewrite forallb_forall in E. assert (A := E f If). cbv beta in A. rewrite forallb_forall in A. specialize (A ax Ia). rewrite (bent_false ax Hb) in A. discriminate A.
Qed.
Lemma spacing_refused spl sh es origin e0 e a : (forall e, In e es -> staggered sh (e_field e) (e_grid e) (e_state e)) -> nth_error es 0 = Some e0 -> In e es -> (a < length sh)%nat ->
  Rabs (u_dx (e_grid e0 a) - u_dx (e_grid e a)) > / 100000000 + / 100000 * Rabs (u_dx (e_grid e a)) -> unstagger_fields spl (map e_field es) origin = Err ValueError.
Proof.
  intros St E0 I La H. unfold unstagger_fields. destruct (forallb (fun f0 => shape_eqb _ _) (map e_field es)); [|reflexivity]. cbn [guard bind].
  destruct (forallb (fun f => forallb rislinear (rf_axes (sf_field f))) (map e_field es)); [|reflexivity]. cbn [guard bind].
  destruct es as [|e1 es]; [discriminate E0|]. injection E0 as ->. cbn [map]. rewrite (stag_spacing sh _ _ _ (St e0 (or_introl eq_refl))). cbn [bind].
  change (e_field e0 :: map e_field es) with (map e_field (e0 :: es)).
  rewrite (mapM_entries (fun f => spacings (sf_field f)) (fun e => map (fun a => u_dx (e_grid e a)) (seq 0 (length sh)))) by (intros e' I'; exact (stag_spacing sh _ _ _ (St e' I'))).
  cbn [bind]. destruct (forallb (all_close _) _) eqn:F; [|reflexivity]. rewrite forallb_forall in F.
  assert (X : all_close (map (fun a => u_dx (e_grid e0 a)) (seq 0 (length sh))) (map (fun a => u_dx (e_grid e a)) (seq 0 (length sh))) = true) by (apply F, in_map_iff; exists e; split; [reflexivity|exact I]).
  unfold all_close in X. rewrite combine_map2 in X. rewrite forallb_forall in X.
  specialize (X (u_dx (e_grid e0 a), u_dx (e_grid e a)) ltac:(apply in_map_iff; exists a; split; [reflexivity|apply in_seq; lia])). apply rclose_true in X. cbn [fst snd] in X. lra.
Qed.
