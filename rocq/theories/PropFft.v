(** Properties of the Fourier transform of fields: C20, C21, C22, C23, C24, C75. *)
From Coq Require Import Reals String List ZArith Lra Lia.
From Verif Require Import PyBase NumpyModel NdModel FieldModel CplxModel CplxFacts FftModel FftSpec FftAxes FftFacts FftLaws FftMore FftShift FftDemo.
Import ListNotations.
Local Open Scope R_scope.

(** C20: the transform is undone by transforming back.  Missing: axes with a single point and
    axes that run backwards, see below. *)
Theorem C20_round_trip_partial : forall spl temporal old f axes U st,
  linear_spline spl -> consistent f -> axes <> [] -> on_grid f axes U -> in_state f axes st ->
  exists F G, fft spl temporal old f (map Z.of_nat axes) = Ok F /\ fft spl temporal old F (map Z.of_nat axes) = Ok G /\ same_field G f.
Proof.
  intros spl temporal old f axes U st Sp Cf N Ug Hs.
  destruct (fft_round spl temporal old f axes U st Sp Cf N Ug Hs) as (F & G & EF & EG & Sm & _). exact (ex_intro _ F (ex_intro _ G (conj EF (conj EG Sm)))).
Qed.
Print Assumptions C20_round_trip_partial.
Example C20_case : linear_spline line_spline /\ consistent (field2 false false) /\ on_grid (field2 false false) [1%nat; 0%nat] U23 /\ in_state (field2 false false) [1%nat; 0%nat] false /\
  consistent (field2 true true) /\ in_state (field2 true true) [1%nat; 0%nat] true.
Proof.
  split; [exact line_spline_ok|]. destruct (field2_ok false false) as (A & B & _ & _ & D & _). destruct (field2_ok true true) as (A2 & _ & _ & _ & D2 & _).
  split; [exact A|]. split; [exact B|]. split; [exact (D eq_refl)|]. split; [exact A2|exact (D2 eq_refl)].
Qed.
(** one point: the data come back divided by (2 pi), the axis of the transform has lost the size of the cell *)
Theorem C20_single_point_refuted : exists f F G, rf_axes f = [mkra "x" "m" [0] [0 - / 2; 0 + / 2]] /\
  rmk_axis line_spline "x" "m" [0] = Ok (mkra "x" "m" [0] [0 - / 2; 0 + / 2]) /\
  fft line_spline false false f [0%Z] = Ok F /\ fft line_spline false false F [0%Z] = Ok G /\ a_at (rf_data G) [0%Z] <> a_at (rf_data f) [0%Z].
Proof. exact point_round. Qed.
Print Assumptions C20_single_point_refuted.
(** an axis that runs backwards comes back running forwards *)
Theorem C20_reversed_refuted : exists F G, rmk_axis line_spline "x" "m" [1; 0] = Ok (mkra "x" "m" [1; 0] [3 / 2; / 2; - / 2]) /\
  fft line_spline false false rev_field [0%Z] = Ok F /\ fft line_spline false false F [0%Z] = Ok G /\
  map ra_grid (rf_axes rev_field) = [[1; 0]] /\ map ra_grid (rf_axes G) = [[1; 2]].
Proof. destruct rev_round as (F & G & H). exact (ex_intro _ F (ex_intro _ G (conj rev_axis H))). Qed.
Print Assumptions C20_reversed_refuted.

(** C21: fft flips the domain of the given axes and of no others, and remembers their origins;
    forward, the axes are renamed *)
Theorem C21_toggle : forall spl temporal old f axes U st,
  linear_spline spl -> consistent f -> axes <> [] -> on_grid f axes U -> in_state f axes st ->
  exists F, fft spl temporal old f (map Z.of_nat axes) = Ok F /\ consistent F /\
    (forall a, (a < ndim f)%nat -> nth_error (rf_ats F) a = if is_named axes a then Some (Some (negb st)) else nth_error (rf_ats f) a) /\
    (forall a, (a < ndim f)%nat -> nth_error (rf_tao F) a = if is_named axes a then Some (Some (u_x0 (U a))) else nth_error (rf_tao f) a) /\
    (st = false -> forall a ax, In a axes -> nth_error (rf_axes f) a = Some ax -> exists ax', nth_error (rf_axes F) a = Some ax' /\
       ra_name ax' = (if String.eqb (ra_name ax) "t" then "w" else "k" ++ ra_name ax)%string /\ ra_unit ax' = ("1/" ++ ra_unit ax)%string).
Proof. exact fft_toggles. Qed.
Print Assumptions C21_toggle.
(** axes in different domains (or in none) cannot be transformed together *)
Theorem C21_mixed : forall spl temporal old f axes U a b,
  linear_spline spl -> consistent f -> on_grid f axes U -> In a axes -> In b axes ->
  nth_error (rf_ats f) a <> Some (Some true) -> nth_error (rf_ats f) b <> Some (Some false) ->
  fft spl temporal old f (map Z.of_nat axes) = Err ValueError.
Proof. exact fft_mixed. Qed.
Print Assumptions C21_mixed.
Example C21_mixed_states_case : nth_error (rf_ats (field2 true false)) 1 <> Some (Some true) /\ nth_error (rf_ats (field2 true false)) 0 <> Some (Some false).
Proof. split; discriminate. Qed.
(** names and units come back unless the letters which are stripped were there before *)
Theorem C21_names_partial : forall spl temporal old f axes U st,
  linear_spline spl -> consistent f -> axes <> [] -> on_grid f axes U -> in_state f axes st -> (forall a ax, In a axes -> nth_error (rf_axes f) a = Some ax -> restorable st ax) ->
  exists F G, fft spl temporal old f (map Z.of_nat axes) = Ok F /\ fft spl temporal old F (map Z.of_nat axes) = Ok G /\
    forall a ax, nth_error (rf_axes f) a = Some ax -> nth_error (rf_axes G) a = Some ax.
Proof.
  intros spl temporal old f axes U st Sp Cf N Ug Hs R.
  destruct (fft_round spl temporal old f axes U st Sp Cf N Ug Hs) as (F & G & EF & EG & _ & Nm & _). exact (ex_intro _ F (ex_intro _ G (conj EF (conj EG (fun a ax E => Nm a ax E (fun I => R a ax I E)))))).
Qed.
Print Assumptions C21_names_partial.
Example C21_names_case : forall a ax, In a [1%nat; 0%nat] -> nth_error (rf_axes (field2 false false)) a = Some ax -> restorable false ax.
Proof. intros a ax _. destruct (field2_ok false false) as (_ & _ & _ & _ & _ & R). apply R. Qed.
Theorem C21_name_refuted : exists F G ax, fft line_spline false false (field1 "kappa" "1/m" u3 false None (fun _ => C1)) [0%Z] = Ok F /\ fft line_spline false false F [0%Z] = Ok G /\
  rf_axes G = [ax] /\ ra_name ax = "appa"%string /\ ra_unit ax = "m"%string.
Proof. destruct (round_name "kappa" "1/m") as (F & G & ax & H). exact (ex_intro _ F (ex_intro _ G (ex_intro _ ax H))). Qed.
Print Assumptions C21_name_refuted.
(** ensure_spatial_domain (b = false) and ensure_frequency_domain (b = true) reach the domain
    from every mixture, and do nothing when it is reached *)
Theorem C21_ensure : forall spl f b U, linear_spline spl -> consistent f -> on_grid f (seq 0 (ndim f)) U ->
  (forall a, (a < ndim f)%nat -> exists s, nth_error (rf_ats f) a = Some (Some s)) ->
  exists G, ensure_domain spl f b = Ok G /\ (forall a, (a < ndim f)%nat -> nth_error (rf_ats G) a = Some (Some b)) /\ ensure_domain spl G b = Ok G /\
    (in_state f (seq 0 (ndim f)) b -> G = f).
Proof. exact ensure_ok. Qed.
Print Assumptions C21_ensure.
Example C21_mixed_case : consistent (field2 true false) /\ on_grid (field2 true false) (seq 0 (ndim (field2 true false))) U23 /\
  (forall a, (a < ndim (field2 true false))%nat -> exists s, nth_error (rf_ats (field2 true false)) a = Some (Some s)).
Proof. destruct (field2_ok true false) as (A & _ & B & D & _). split; [exact A|]. split; [exact B|exact D]. Qed.

(** C22: the integral of |f|^2 is conserved.  Missing: axes with one point. *)
Theorem C22_energy_partial : forall spl temporal old f axes U st,
  linear_spline spl -> consistent f -> axes <> [] -> on_grid f axes U -> in_state f axes st ->
  exists F V, fft spl temporal old f (map Z.of_nat axes) = Ok F /\ on_grid F axes V /\
    total (a_shape (rf_data F)) (fun idx => Cabs2 (a_at (rf_data F) idx)) * volume V (named (ndim f) axes)
    = total (a_shape (rf_data f)) (fun idx => Cabs2 (a_at (rf_data f) idx)) * volume U (named (ndim f) axes).
Proof. exact fft_energy. Qed.
Print Assumptions C22_energy_partial.
Theorem C22_single_point_refuted : exists F k, fft line_spline false false (point_field 0 false None (fun _ => C1) "x" "m") [0%Z] = Ok F /\
  map ra_node (rf_axes (point_field 0 false None (fun _ => C1) "x" "m")) = [[0 - / 2; 0 + / 2]] /\ map ra_node (rf_axes F) = [[k - / 2; k + / 2]] /\
  Cabs2 (a_at (rf_data F) [0%Z]) = / (2 * PI).
Proof. exact point_energy. Qed.
Print Assumptions C22_single_point_refuted.

(** C23: the grid moves by exactly the given distances and nothing else about the axes changes *)
Theorem C23_grid : forall spl f axes s U st, linear_spline spl -> consistent f -> axes <> [] -> NoDup axes -> on_grid f axes U -> in_state f axes st ->
  exists G, shift_grid_by spl f (map (fun a => (Z.of_nat a, s a)) axes) = Ok G /\ a_shape (rf_data G) = a_shape (rf_data f) /\ rf_ats G = rf_ats f /\
    on_grid G axes (fun a => moved_by (s a) (U a)) /\ (forall a, (a < ndim f)%nat -> ~ In a axes -> nth_error (rf_axes G) a = nth_error (rf_axes f) a).
Proof. exact shift_grids. Qed.
Print Assumptions C23_grid.
(** by whole numbers of cells the data are rolled; by zero they stay.  Missing: a remembered
    conjugate origin off the conjugate grid, see below. *)
Theorem C23_whole_cells_partial : forall spl f axes z U st, linear_spline spl -> consistent f -> axes <> [] -> NoDup axes -> on_grid f axes U -> in_state f axes st ->
  (forall a, In a axes -> z a = 0%Z \/ on_lattice f U a) ->
  exists G, shift_grid_by spl f (map (fun a => (Z.of_nat a, IZR (z a) * u_dx (U a))) axes) = Ok G /\
    forall idx idx', in_shape (a_shape (rf_data f)) idx = true -> length idx' = length idx ->
      (forall a, (a < ndim f)%nat -> nth a idx' 0%Z = if is_named axes a then ((nth a idx 0 + z a) mod nth a (a_shape (rf_data f)) 0)%Z else nth a idx 0%Z) ->
      a_at (rf_data G) idx = a_at (rf_data f) idx'.
Proof. exact shift_cells. Qed.
Print Assumptions C23_whole_cells_partial.
Example C23_case : let f := field1 "x" "m" u3 false None (fun i => RtoC (IZR i)) in
  consistent f /\ on_grid f [0%nat] (fun _ => u3) /\ in_state f [0%nat] false /\ on_lattice f (fun _ => u3) 0 /\ in_shape (a_shape (rf_data f)) [2%Z] = true /\ a_at (rf_data f) [2%Z] <> a_at (rf_data f) [((2 + 1) mod 3)%Z].
Proof.
  intro f. destruct (field1_ok "x" "m" u3 false None (fun i => RtoC (IZR i)) u3_proper) as (A & B & D). split; [exact A|]. split; [exact B|]. split; [exact D|]. split; [now left|]. split; [reflexivity|].
  cbn. intro H. injection H as H. lra.
Qed.
Theorem C23_additive : forall spl f axes s t U st, linear_spline spl -> consistent f -> axes <> [] -> NoDup axes -> on_grid f axes U -> in_state f axes st ->
  exists G H D, shift_grid_by spl f (map (fun a => (Z.of_nat a, s a)) axes) = Ok G /\ shift_grid_by spl G (map (fun a => (Z.of_nat a, t a)) axes) = Ok H /\
    shift_grid_by spl f (map (fun a => (Z.of_nat a, s a + t a)) axes) = Ok D /\ same_field H D.
Proof. exact shift_add. Qed.
Print Assumptions C23_additive.
(** shifted by one cell, the value that enters at the end has the opposite sign *)
Theorem C23_origin_refuted : exists f G, (exists x, rf_tao f = [Some x]) /\ f = field1 "x" "m" (mkuni 2 0 1) false (Some (PI / 2)) (fun _ => C1) /\
  shift_grid_by line_spline f [(0%Z, 1)] = Ok G /\ a_at (rf_data G) [1%Z] = RtoC (-1).
Proof. exact off_lattice. Qed.
Print Assumptions C23_origin_refuted.

(** C24: the frequency axis of a uniform axis *)
Theorem C24_conjugate : forall spl temporal old f axes U st,
  linear_spline spl -> consistent f -> axes <> [] -> on_grid f axes U -> in_state f axes st ->
  exists F, fft spl temporal old f (map Z.of_nat axes) = Ok F /\
    forall a, In a axes -> exists ax, nth_error (rf_axes F) a = Some ax /\ length (ra_grid ax) = u_n (U a) /\
      (forall i, (S i < u_n (U a))%nat -> nth (S i) (ra_grid ax) 0 - nth i (ra_grid ax) 0 = 2 * PI / (INR (u_n (U a)) * u_dx (U a))) /\
      (nth a (rf_tao f) None = None -> nth (u_n (U a) / 2) (ra_grid ax) 1 = 0) /\
      (forall x, nth a (rf_tao f) None = Some x -> nth 0 (ra_grid ax) 0 = x) /\
      exists G axg, fft spl temporal old F (map Z.of_nat axes) = Ok G /\ nth_error (rf_axes G) a = Some axg /\ ra_grid axg = grid_of (U a).
Proof. exact conjugate_spec. Qed.
Print Assumptions C24_conjugate.

(** C75: the transform is the sum over plane waves exp(-ikx) dx / sqrt(2 pi) (exp(ikx) on the way
    back; the signs are exchanged by the temporal convention), at the points of the two grids *)
Theorem C75_plane_waves : forall spl temporal old f axes U st, linear_spline spl -> consistent f -> axes <> [] -> on_grid f axes U -> in_state f axes st ->
  let V := fun a => dual (nth a (rf_tao f) None) (U a) in
  exists F, fft spl temporal old f (map Z.of_nat axes) = Ok F /\ a_shape (rf_data F) = a_shape (rf_data f) /\ on_grid F axes V /\
    (forall idx, in_shape (a_shape (rf_data f)) idx = true ->
       a_at (rf_data F) idx = plane_waves_all (sign temporal st) V U (left_out old st V U) (named (ndim f) axes) (a_at (rf_data f)) idx) /\
    (forall a, (a < ndim f)%nat -> ~ In a axes -> nth_error (rf_axes F) a = nth_error (rf_axes f) a).
Proof. exact fft_is. Qed.
Print Assumptions C75_plane_waves.
(** axes cannot be counted from the end *)
Theorem C75_negative_axis_refuted : exists F, fft line_spline false false (field1 "x" "m" u3 false None (fun _ => C1)) [0%Z] = Ok F /\
  fft line_spline false false (field1 "x" "m" u3 false None (fun _ => C1)) [(-1)%Z] = Err KeyError.
Proof. exact negative_axis. Qed.
Print Assumptions C75_negative_axis_refuted.
