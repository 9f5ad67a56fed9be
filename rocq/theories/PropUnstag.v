(** Properties of the exact shift of sums of plane waves and of unstagger_fields: C23, C87. *)
From Coq Require Import Reals String List ZArith Lra Lia.
From Verif Require Import PyBase NumpyModel NdModel FieldModel CplxModel CplxFacts FftModel FftSpec FftAxes FftFacts FftShift FftDemo FftWaveSpec FftWave UnstagModel UnstagSpec UnstagFacts UnstagMedian UnstagRefuse UnstagDemo.
Import ListNotations.
Local Open Scope R_scope.

(** C23: values which are a sum of plane waves of the frequency grid are, after the shift, the same
    sum of plane waves at the points of the shifted grid, for shifts of any size *)
Theorem C23_band_limited : forall spl f axes s U st ws, linear_spline spl -> consistent f -> axes <> [] -> NoDup axes -> on_grid f axes U -> in_state f axes st ->
  Forall (proper_wave U axes) ws ->
  (forall idx, in_shape (a_shape (rf_data f)) idx = true -> a_at (rf_data f) idx = waves (- sign false st) U (frequencies f U) axes ws idx) ->
  exists G, shift_grid_by spl f (map (fun a => (Z.of_nat a, s a)) axes) = Ok G /\
    forall idx, in_shape (a_shape (rf_data f)) idx = true -> a_at (rf_data G) idx = waves (- sign false st) (fun a => moved_by (s a) (U a)) (frequencies f U) axes ws idx.
Proof. exact shift_waves. Qed.
Print Assumptions C23_band_limited.
(** two waves of different number on three points *)
Example C23_band_limited_case : let ws := [mkwave (fun _ => C1) (fun _ => 2%Z); mkwave (fun _ => RtoC 5) (fun _ => 0%Z)] in
  let V := fun _ : nat => dual None u3 in
  let f := field1 "x" "m" u3 false None (fun i => waves (- sign false false) (fun _ => u3) V [0%nat] ws [i]) in
  consistent f /\ on_grid f [0%nat] (fun _ => u3) /\ in_state f [0%nat] false /\ Forall (proper_wave (fun _ => u3) [0%nat]) ws /\
  forall idx, in_shape (a_shape (rf_data f)) idx = true -> a_at (rf_data f) idx = waves (- sign false false) (fun _ => u3) (frequencies f (fun _ => u3)) [0%nat] ws idx.
Proof.
  intros ws V f. destruct (field1_ok "x" "m" u3 false None (fun i => waves (- sign false false) (fun _ => u3) V [0%nat] ws [i]) u3_proper) as (A & B & D).
  split; [exact A|]. split; [exact B|]. split; [exact D|]. split.
  - repeat constructor; intros; cbn; lia.
  - intros [|i [|j l]] H; cbn in H; try discriminate; try (rewrite Bool.andb_false_r in H; discriminate). reflexivity.
Qed.

(** C87: every field is brought to the given origin: fields which are there already are returned as
    they are, the others get the grid which begins at the origin, and values which are a sum of plane
    waves are that sum at the points of the new grid.  Missing: equality up to the tolerances of
    np.isclose only, see below. *)
Theorem C87_to_origin_partial : forall spl sh es o, linear_spline spl -> comparable sh es -> length o = length sh ->
  (forall e, In e es -> near (length sh) (fun a => nth a o 0) (e_grid e) \/ within_two (length sh) (fun a => nth a o 0) (e_grid e)) ->
  exists gs, unstagger_fields spl (map e_field es) (Some o) = Ok gs /\ Forall2 (fun e g => unstaggered sh (fun a => nth a o 0) (e_field e) (e_grid e) (e_state e) g) es gs.
Proof. exact unstagger_to_origin. Qed.
Print Assumptions C87_to_origin_partial.
Example C87_to_origin_case : linear_spline line_spline /\ comparable [4%Z] (pair (fun _ => C1) (fun i => RtoC (IZR i))) /\
  (near 1 (fun a => nth a [0] 0) (fun _ => left_grid) /\ ~ near 1 (fun a => nth a [0] 0) (fun _ => right_grid) /\ within_two 1 (fun a => nth a [0] 0) (fun _ => right_grid)).
Proof. exact (conj line_spline_ok (conj (pair_ok _ _) pair_near)). Qed.
(** a field which is more than two cells away is refused *)
Theorem C87_too_far : forall spl sh es o e, linear_spline spl -> comparable sh es -> length o = length sh -> In e es ->
  ~ near (length sh) (fun a => nth a o 0) (e_grid e) -> ~ within_two (length sh) (fun a => nth a o 0) (e_grid e) ->
  unstagger_fields spl (map e_field es) (Some o) = Err ValueError.
Proof. exact unstagger_too_far. Qed.
Print Assumptions C87_too_far.
Example C87_too_far_case : ~ near 1 (fun a => nth a [7] 0) (fun _ => left_grid) /\ ~ within_two 1 (fun a => nth a [7] 0) (fun _ => left_grid).
Proof.
  split; intro H; specialize (H 0%nat ltac:(lia)); cbn [nth left_grid u_x0 u_dx] in H; rewrite (Rabs_right (7 - 0)) in H by lra; [rewrite Rabs_R0 in H|]; lra.
Qed.
(** without an origin the fields are brought to the first one, or, from three fields on, to the
    middle of the medians of the positions along each axis *)
Theorem C87_default_origin : forall spl sh es, linear_spline spl -> comparable sh es -> exists o, length o = length sh /\
  unstagger_fields spl (map e_field es) None = unstagger_fields spl (map e_field es) (Some o) /\
  forall a, (a < length sh)%nat -> if (2 <? length es)%nat then middle (nth a o 0) (map (fun e => u_x0 (e_grid e a)) es)
                                   else forall e, nth_error es 0 = Some e -> nth a o 0 = u_x0 (e_grid e a).
Proof. exact unstagger_default. Qed.
Print Assumptions C87_default_origin.
(** adjust_stagger_to brings a field to the grid of another *)
Theorem C87_adjust_partial : forall spl sh f U st other V t, linear_spline spl -> staggered sh f U st -> (1 <= length sh)%nat -> staggered sh (mksf false other) V t ->
  let o := fun a => u_x0 (V a) in near (length sh) o U \/ within_two (length sh) o U -> exists g, adjust_stagger_to spl f other = Ok g /\ unstaggered sh o f U st g.
Proof. exact adjust_ok. Qed.
Print Assumptions C87_adjust_partial.
Example C87_adjust_case : staggered [4%Z] (line left_grid (fun i => RtoC (IZR i))) (fun _ => left_grid) false /\
  staggered [4%Z] (mksf false (field1 "x" "m" right_grid false None (fun _ => C1))) (fun _ => right_grid) false /\ within_two 1 (fun _ => u_x0 right_grid) (fun _ => left_grid).
Proof.
  assert (P1 : proper left_grid) by (split; cbn; [lia|lra]). assert (P2 : proper right_grid) by (split; cbn; [lia|lra]).
  split; [exact (line_ok left_grid _ P1)|]. split; [exact (line_ok right_grid _ P2)|]. intros a L. cbn [left_grid right_grid u_x0 u_dx]. rewrite Rabs_right by lra. lra.
Qed.
(** fields of different shapes, axes which are not uniform and spacings which differ are refused *)
Theorem C87_shapes : forall spl fields origin f g, In f fields -> In g fields -> a_shape (rf_data (sf_field f)) <> a_shape (rf_data (sf_field g)) -> unstagger_fields spl fields origin = Err ValueError.
Proof. exact shapes_refused. Qed.
Print Assumptions C87_shapes.
Theorem C87_not_uniform : forall spl fields origin f ax, In f fields -> In ax (rf_axes (sf_field f)) -> bent ax -> unstagger_fields spl fields origin = Err ValueError.
Proof. exact bent_refused. Qed.
Print Assumptions C87_not_uniform.
Theorem C87_spacings : forall spl sh es origin e0 e a, (forall e, In e es -> staggered sh (e_field e) (e_grid e) (e_state e)) -> nth_error es 0 = Some e0 -> In e es -> (a < length sh)%nat ->
  Rabs (u_dx (e_grid e0 a) - u_dx (e_grid e a)) > / 100000000 + / 100000 * Rabs (u_dx (e_grid e a)) -> unstagger_fields spl (map e_field es) origin = Err ValueError.
Proof. exact spacing_refused. Qed.
Print Assumptions C87_spacings.
Example C87_refused_case : bent (mkra "x"%string "m"%string [0; 1; 10] [0; 1; 2; 10]) /\ Rabs (u_dx left_grid - u_dx (mkuni 4 0 2)) > / 100000000 + / 100000 * Rabs (u_dx (mkuni 4 0 2)).
Proof.
  split.
  - split; [cbn; lia|]. exists 1%nat. split; [cbn; lia|]. cbn [ra_node hd last length nth Nat.sub INR]. rewrite Rabs_left by lra. rewrite Rabs_right by lra. lra.
  - cbn [left_grid u_dx]. rewrite Rabs_left by lra. rewrite Rabs_right by lra. lra.
Qed.
(** fields on grids of nanometres, staggered by half a cell, stay staggered *)
Theorem C87_tiny_refuted : forall spl d1 d2, linear_spline spl ->
  unstagger_fields spl [line tiny_left d1; line tiny_right d2] None = Ok [line tiny_left d1; line tiny_right d2] /\ u_x0 tiny_right - u_x0 tiny_left = u_dx tiny_left / 2 /\ 0 < u_dx tiny_left.
Proof. intros spl d1 d2 Sp. assert (N := nm_pos). split; [exact (tiny_stays spl d1 d2 Sp)|]. cbn. lra. Qed.
Print Assumptions C87_tiny_refuted.
(** and such grids of different spacings are accepted *)
Theorem C87_spacing_refuted : forall spl d1 d2, unstagger_fields spl [line tiny_left d1; line coarse d2] None = Ok [line tiny_left d1; line coarse d2] /\ u_dx coarse = 2 * u_dx tiny_left /\ 0 < u_dx tiny_left.
Proof. intros spl d1 d2. assert (N := nm_pos). split; [exact (spacing_ignored spl d1 d2)|]. cbn. lra. Qed.
Print Assumptions C87_spacing_refuted.
