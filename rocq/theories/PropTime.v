(** Properties of the time profile at a plane (C92). *)
From Coq Require Import Reals String Ascii List ZArith Lra Lia.
From Verif Require Import PyBase NumpyModel NdModel CplxModel FieldModel FftModel FftSpec FftDemo KspaceModel KspaceSpec TimeModel TimeSpec TimeFacts TimeLaws TimeDemo.
Import ListNotations.
Local Open Scope R_scope.

(** C92: the iterative algorithm for a field of modes: at every time of the new axis the result is the
    wave as it passes the plane, times a phase which is the same at all times; the axis in question
    becomes the times, everything else stays, and no field of the caller is written.
    Missing: the phase is not one, see below. *)
Theorem C92_iterative_partial : forall c spl b value dir t_input remove a s f U, 0 < c -> linear_spline spl -> consistent f -> on_grid f (seq 0 (ndim f)) U -> all_in true f -> remembered f -> nth_error s a = Some f -> (b < ndim f)%nat -> dir = 1 \/ dir = -1 ->
  let X := dual (nth b (rf_tao f) None) (U b) in let v := plane_of value dir X in
  exists s' y r, time_profile_at_plane c spl (Z.of_nat b) value dir t_input "iterative" remove a s = (s', Ok y) /\ nth_error s' y = Some r /\ (forall d, (d < length s)%nat -> nth_error s' d = nth_error s d) /\ (length s <= y)%nat /\
    profile c f b (U b) X v dir t_input remove (- (u_x0 (U b) * v)) r.
Proof. exact iterative_freq. Qed.
Print Assumptions C92_iterative_partial.
Example C92_iterative_case : linear_spline line_spline /\ consistent one_mode /\ on_grid one_mode (seq 0 (ndim one_mode)) (fun _ => u2) /\ all_in true one_mode /\ remembered one_mode /\ (0 < ndim one_mode)%nat.
Proof. split; [exact line_spline_ok|exact one_mode_ok]. Qed.
(** hence the intensity is the one of the wave at the plane, at all times *)
Theorem C92_intensity : forall c f b u x v dir t_input remove phase r idx, profile c f b u x v dir t_input remove phase r -> in_shape (a_shape (rf_data f)) idx = true ->
  Cabs2 (a_at (rf_data r) idx) = Cabs2 (passing c (going (ndim f) b dir remove f) b u v (point (times c dir v t_input x) (nth b idx 0%Z) - t_input) idx).
Proof. exact profile_modulus. Qed.
Print Assumptions C92_intensity.
Example C92_intensity_case : exists r, profile 1 one_mode 0 u2 (dual (Some PI) u2) 7 1 5 None (- (1 * 7)) r.
Proof.
  destruct one_mode_ok as (C & G & A & Rm & L). destruct (iterative_freq 1 line_spline 0 (Some 7) 1 5 None 0 [one_mode] one_mode (fun _ => u2) Rlt_0_1 line_spline_ok C G A Rm eq_refl L (or_introl eq_refl)) as (s' & y & r & _ & _ & _ & _ & P). exists r. exact P.
Qed.
(** a field in space is transformed first, and the dimensions other than the one of the plane are
    transformed back to their own grids *)
Theorem C92_space_partial : forall c spl b value dir t_input remove a s f U, 0 < c -> linear_spline spl -> consistent f -> (2 <= ndim f)%nat -> on_grid f (seq 0 (ndim f)) U -> all_in false f -> nth_error s a = Some f -> (b < ndim f)%nat -> dir = 1 \/ dir = -1 ->
  let K := fun i => dual (nth i (rf_tao f) None) (U i) in let v := plane_of value dir (U b) in let others := other_dims (ndim f) b in let T := times c dir v t_input (U b) in
  exists F s' y r q, fft spl false false f (all_dims f) = Ok F /\ on_grid F (seq 0 (ndim f)) K /\ time_profile_at_plane c spl (Z.of_nat b) value dir t_input "iterative" remove a s = (s', Ok y) /\ nth_error s' y = Some r /\ (forall d, (d < length s)%nat -> nth_error s' d = nth_error s d) /\ (length s <= y)%nat /\
    profile c F b (K b) (U b) v dir t_input remove (- (u_x0 (K b) * v)) q /\
    a_shape (rf_data r) = a_shape (rf_data f) /\ on_grid r others U /\ nth_error (rf_axes r) b = Some (mkra "t" "s" (grid_of T) (node_of T)) /\
    forall idx, in_shape (a_shape (rf_data f)) idx = true -> a_at (rf_data r) idx = plane_waves_all 1 U K (fun _ _ _ => 0) others (a_at (rf_data q)) idx.
Proof. exact iterative_space. Qed.
Print Assumptions C92_space_partial.
Example C92_space_case : consistent square /\ on_grid square (seq 0 (ndim square)) U23 /\ all_in false square /\ (2 <= ndim square)%nat.
Proof. destruct square_ok as (A & B & D). split; [exact A|]. split; [exact B|]. split; [exact D|]. cbn. lia. Qed.
(** the wave at the time of the field and at the points of the grid is the field in space *)
Theorem C92_now : forall c spl b f U, linear_spline spl -> consistent f -> on_grid f (seq 0 (ndim f)) U -> all_in true f -> (b < ndim f)%nat -> let X := dual (nth b (rf_tao f) None) (U b) in
  exists F, fft spl false false f [Z.of_nat b] = Ok F /\ forall idx, in_shape (a_shape (rf_data f)) idx = true -> a_at (rf_data F) idx = passing c f b (U b) (point X (nth b idx 0%Z)) 0 idx.
Proof. exact snapshot. Qed.
Print Assumptions C92_now.
Example C92_now_case : consistent one_mode /\ on_grid one_mode (seq 0 (ndim one_mode)) (fun _ => u2) /\ all_in true one_mode /\ (0 < ndim one_mode)%nat.
Proof. destruct one_mode_ok as (A & B & D & _ & L). split; [exact A|]. split; [exact B|]. split; [exact D|exact L]. Qed.
(** so the profile is not the field at the plane: at the first point of the grid and at the time of the
    field it has the other sign *)
Theorem C92_phase_refuted : exists s' y r F, time_profile_at_plane 1 line_spline 0 None (-1) 0 "iterative" (Some false) 0 [one_mode] = (s', Ok y) /\ nth_error s' y = Some r /\ fft line_spline false false one_mode [0%Z] = Ok F /\
  (exists T, rf_axes r = [T] /\ hd 1 (ra_grid T) = 0) /\ a_at (rf_data r) [0%Z] = Cmul (RtoC (-1)) (a_at (rf_data F) [0%Z]) /\ a_at (rf_data r) [0%Z] <> a_at (rf_data F) [0%Z].
Proof. exact phase_wrong. Qed.
Print Assumptions C92_phase_refuted.
(** refused: fields neither all in space nor all in modes, axes which the field does not have, modes
    whose origin in space is not known, and algorithms which do not exist; no field is written *)
Theorem C92_mixed : forall c spl axis value dir t_input remove a s f alg, wellformed f -> (~ exists st, all_in st f) -> nth_error s a = Some f -> alg = "fourier"%string \/ alg = "iterative"%string -> time_profile_at_plane c spl axis value dir t_input alg remove a s = (s, Err ValueError).
Proof. exact refused_state. Qed.
Print Assumptions C92_mixed.
Example C92_mixed_case : wellformed (field2 true false) /\ ~ exists st, all_in st (field2 true false).
Proof.
  split; [destruct (field2_ok true false) as (A & _ & B & _); split; [exact A|]; split; [exists U23; exact B|]; split; [cbn; lia|]; intros [|[|i]] L; [exists true; reflexivity|exists false; reflexivity|cbn in L; lia]|].
  intros [st H]. assert (H0 := H 0%nat (or_introl eq_refl)). assert (H1 := H 1%nat (or_intror (or_introl eq_refl))). cbn in H0, H1. congruence.
Qed.
Theorem C92_axis : forall c spl b value dir t_input remove a s f st alg, linear_spline spl -> wellformed f -> all_in st f -> nth_error s a = Some f -> (ndim f <= b < 3)%nat -> alg = "fourier"%string \/ alg = "iterative"%string ->
  exists s', time_profile_at_plane c spl (Z.of_nat b) value dir t_input alg remove a s = (s', Err ValueError) /\ (forall d, (d < length s)%nat -> nth_error s' d = nth_error s d).
Proof. exact refused_axis. Qed.
Print Assumptions C92_axis.
Example C92_axis_case : wellformed square /\ all_in false square /\ (ndim square <= 2 < 3)%nat.
Proof.
  destruct square_ok as (A & B & D). split; [|split; [exact D|cbn; lia]]. split; [exact A|]. split; [exists U23; exact B|]. split; [cbn; lia|]. intros [|[|i]] L; [exists false; reflexivity|exists false; reflexivity|cbn in L; lia].
Qed.
Theorem C92_origin : forall c spl b value dir t_input remove a s f U, 0 < c -> linear_spline spl -> consistent f -> on_grid f (seq 0 (ndim f)) U -> all_in true f -> (exists i, (i < ndim f)%nat /\ nth_error (rf_tao f) i = Some None) -> nth_error s a = Some f -> (b < ndim f)%nat -> dir = 1 \/ dir = -1 ->
  exists s', time_profile_at_plane c spl (Z.of_nat b) value dir t_input "iterative" remove a s = (s', Err TypeError) /\ forall d, (d < length s)%nat -> nth_error s' d = nth_error s d.
Proof. exact missing_origin. Qed.
Print Assumptions C92_origin.
Example C92_origin_case : let f := field1 "kx" "1/m" u2 true None (fun _ => C1) in consistent f /\ on_grid f (seq 0 (ndim f)) (fun _ => u2) /\ all_in true f /\ exists i, (i < ndim f)%nat /\ nth_error (rf_tao f) i = Some None.
Proof. intro f. destruct (field1_ok "kx" "1/m" u2 true None (fun _ => C1) u2_proper) as (A1 & A2 & A3). split; [exact A1|]. split; [exact A2|]. split; [exact A3|]. exists 0%nat. split; [cbn; lia|reflexivity]. Qed.
Theorem C92_algorithm : forall c spl axis value dir t_input alg remove a s, alg <> "fourier"%string -> alg <> "iterative"%string -> time_profile_at_plane c spl axis value dir t_input alg remove a s = (s, Err RuntimeError).
Proof. exact refused_algorithm. Qed.
Print Assumptions C92_algorithm.
Example C92_algorithm_case : "Fourier"%string <> "fourier"%string /\ "Fourier"%string <> "iterative"%string.
Proof. split; discriminate. Qed.
(** the default algorithm gives no profile: for one dimension it always fails, for more it divides
    modes which it does not leave out by zero *)
Theorem C92_default_refuted : forall c spl value dir t_input remove a s f st, linear_spline spl -> wellformed f -> all_in st f -> ndim f = 1%nat -> nth_error s a = Some f ->
  exists s', time_profile_at_plane c spl 0 value dir t_input "fourier" remove a s = (s', Err TypeError).
Proof. exact fourier_one. Qed.
Print Assumptions C92_default_refuted.
Example C92_default_case : wellformed one_mode /\ all_in true one_mode /\ ndim one_mode = 1%nat.
Proof.
  destruct one_mode_ok as (A & B & D & _ & L). split; [|split; [exact D|reflexivity]]. split; [exact A|]. split; [exists (fun _ => u2); exact B|]. split; [exact L|]. intros [|i] Li; [exists true; reflexivity|cbn in Li; lia].
Qed.
Theorem C92_zero_refuted : forall spl f U b d dir, linear_spline spl -> consistent f -> on_grid f (seq 0 (ndim f)) U -> all_in false f -> (b < ndim f)%nat -> (d < ndim f)%nat -> d <> b -> nth b (rf_tao f) None = None -> nth d (rf_tao f) None = None ->
  exists F idx, fft spl false false f (all_dims f) = Ok F /\ in_shape (a_shape (rf_data F)) idx = true /\ fourier_mask dir (rf_axes F) (Z.of_nat b) idx = false /\ fourier_divisor (rf_axes F) (Z.of_nat b) idx = 0.
Proof. exact fourier_zero. Qed.
Print Assumptions C92_zero_refuted.
Example C92_zero_case : consistent square /\ on_grid square (seq 0 (ndim square)) U23 /\ all_in false square /\ nth 0 (rf_tao square) None = None /\ nth 1 (rf_tao square) None = None.
Proof. destruct square_ok as (A & B & D). split; [exact A|]. split; [exact B|]. split; [exact D|]. split; reflexivity. Qed.
