(** Theorems about azimuthal modes: C58, C59, C79. *)
From Coq Require Import Reals Lra List ZArith Lia.
From Verif Require Import PyBase NdModel CplxModel ModesModel ModesSpec ModesFacts.
Import ListNotations.
Local Open Scope R_scope.

(** * C58: FBPIC *)
(** the direct expansion is the Fourier series at every angle, for every number of modes *)
Theorem C58_direct raw M Nr Nz thetas : a_shape raw = [Z.of_nat (2 * M + 1); Nr; Nz] -> thetas <> [] ->
  exists a, fb_naiv raw thetas = Ok a /\ a_shape a = [Nr; Z.of_nat (length thetas); Nz] /\ forall r k z t, nth_error thetas k = Some t -> a_at a [r; Z.of_nat k; z] = series_at raw M r z t.
Proof. exact (naiv_ok raw M Nr Nz thetas). Qed.
Print Assumptions C58_direct.
(** the transform gives the same as the direct expansion at its angles, whatever was in memory *)
Theorem C58_agree_partial junk raw M Nr Nz Nt : a_shape raw = [Z.of_nat (2 * M + 1); Nr; Nz] -> (match Nt with None => True | Some n => (n <= Z.of_nat (S M))%Z end) ->
  exists a b, fb_naiv raw (angles (S M)) = Ok a /\ fb_fft junk raw Nt = Ok b /\ a_shape a = [Nr; Z.of_nat (S M); Nz] /\ a_shape b = a_shape a /\
    forall r k z, (k < S M)%nat -> a_at b [r; Z.of_nat k; z] = a_at a [r; Z.of_nat k; z] /\ a_at a [r; Z.of_nat k; z] = series_at raw M r z (angle (S M) k).
Proof. exact (modes_agree junk raw M Nr Nz Nt). Qed.
Print Assumptions C58_agree_partial.
Example C58_case : let raw := mkarr [3; 1; 1]%Z (fun i => IZR (hd 0%Z i)) in a_shape raw = [Z.of_nat (2 * 1 + 1); 1; 1]%Z /\ series_at raw 1 0 0 (angle 2 1) = -1.
Proof. split; [reflexivity|]. unfold angle. replace (2 * PI * INR 1 / INR 2) with PI by (cbn; field). unfold series_at. cbn [rsum]. replace (INR 1 * PI) with PI by (cbn; ring). rewrite cos_PI, sin_PI. cbn. lra. Qed.
(** more angles than modes: only if the memory happens to be zero *)
Theorem C58_more_angles_partial junk raw M Nr Nz N : a_shape raw = [Z.of_nat (2 * M + 1); Nr; Nz] -> (S M <= N)%nat -> (forall r j z, (M < j)%nat -> junk [r; Z.of_nat j; z] = C0) ->
  exists a b, fb_naiv raw (angles N) = Ok a /\ fb_fft junk raw (Some (Z.of_nat N)) = Ok b /\ a_shape a = [Nr; Z.of_nat N; Nz] /\ a_shape b = a_shape a /\
    forall r k z, (k < N)%nat -> a_at b [r; Z.of_nat k; z] = a_at a [r; Z.of_nat k; z].
Proof. exact (more_angles junk raw M Nr Nz N). Qed.
Print Assumptions C58_more_angles_partial.
Theorem C58_more_angles_refuted : exists junk raw a b, a_shape raw = [1; 1; 1]%Z /\ fb_naiv raw (angles 2) = Ok a /\ fb_fft junk raw (Some 2%Z) = Ok b /\ a_at b [0; 0; 0]%Z <> a_at a [0; 0; 0]%Z.
Proof. exact more_angles_junk. Qed.
Print Assumptions C58_more_angles_refuted.
(** an even number of records is no set of modes: both raise, except that two records pass the transform *)
Theorem C58_even junk raw K Nr Nz : a_shape raw = [Z.of_nat (2 * K); Nr; Nz] -> (2 <= K)%nat -> (forall Nt, fb_fft junk raw Nt = Err ValueError) /\ forall t ts, fb_naiv raw (t :: ts) = Err ValueError.
Proof. exact (even_records junk raw K Nr Nz). Qed.
Print Assumptions C58_even.
Theorem C58_two_records_refuted : exists raw, a_shape raw = [2; 1; 1]%Z /\ (forall junk, exists b, fb_fft junk raw None = Ok b) /\ forall t, fb_naiv raw [t] = Err ValueError.
Proof. exact two_records. Qed.
Print Assumptions C58_two_records_refuted.
(** angles asked for: the direct expansion; none: as many as there are modes *)
Theorem C58_electric_angles junk data raw M Nr Nz thetas : data = Ok raw -> a_shape raw = [Z.of_nat (2 * M + 1); Nr; Nz] -> thetas <> [] ->
  exists a, fb_dataE junk data (Some thetas) None = Ok a /\ a_shape a = [Nr; Z.of_nat (length thetas); Nz] /\ forall r k z t, nth_error thetas k = Some t -> a_at a [r; Z.of_nat k; z] = series_at raw M r z t.
Proof. exact (dataE_angles junk data raw M Nr Nz thetas). Qed.
Print Assumptions C58_electric_angles.
Theorem C58_electric_default junk data raw M Nr Nz : data = Ok raw -> a_shape raw = [Z.of_nat (2 * M + 1); Nr; Nz] ->
  exists a, fb_dataE junk data None None = Ok a /\ a_shape a = [Nr; Z.of_nat (S M); Nz] /\ forall r k z, (k < S M)%nat -> a_at a [r; Z.of_nat k; z] = series_at raw M r z (angle (S M) k).
Proof. exact (dataE_default junk data raw M Nr Nz). Qed.
Print Assumptions C58_electric_default.
(** angles next to a number of angles are ignored *)
Theorem C58_both_refuted : exists junk raw a, a_shape raw = [3; 1; 1]%Z /\ fb_dataE junk (Ok raw) (Some [PI]) (Some 2%Z) = Ok a /\ a_shape a = [1; 2; 1]%Z /\ a_at a [0; 0; 0]%Z <> series_at raw 1 0 0 PI.
Proof. exact dataE_both. Qed.
Print Assumptions C58_both_refuted.
(** the magnetic field is never read *)
Theorem C58_magnetic_refuted : forall junk data theta, fb_dataB junk data theta = Err NameError.
Proof. exact (fun _ _ _ => eq_refl). Qed.
Print Assumptions C58_magnetic_refuted.

(** * C59: Smilei *)
Theorem C59_one_angle_partial raw Nm Nx Nr theta : a_shape raw = [Z.of_nat Nm; Nx; Nr] ->
  exists a, sm_naiv raw [theta] = Ok a /\ a_shape a = [1%Z; Nx; Nr] /\ forall x r, a_at a [0%Z; x; r] = complex_series (fun m => a_at raw [Z.of_nat m; x; r]) Nm theta.
Proof. exact (sm_one raw Nm Nx Nr theta). Qed.
Print Assumptions C59_one_angle_partial.
(** for several angles every entry holds the sum over all of them *)
Theorem C59_several_angles_refuted raw Nm Nx Nr thetas : a_shape raw = [Z.of_nat Nm; Nx; Nr] -> thetas <> [] ->
  exists a, sm_naiv raw thetas = Ok a /\ a_shape a = [Z.of_nat (length thetas); Nx; Nr] /\
    forall k x r, a_at a [k; x; r] = fold_right (fun t s => complex_series (fun m => a_at raw [Z.of_nat m; x; r]) Nm t + s) 0 thetas.
Proof. exact (sm_naiv_ok raw Nm Nx Nr thetas). Qed.
Print Assumptions C59_several_angles_refuted.
Theorem C59_two_angles_refuted : exists raw a, a_shape raw = [1; 1; 1]%Z /\ sm_naiv raw [0; 0] = Ok a /\ a_at a [0; 0; 0]%Z <> complex_series (fun m => a_at raw [Z.of_nat m; 0; 0]%Z) 1 0.
Proof. exact sm_two. Qed.
Print Assumptions C59_two_angles_refuted.
(** from the file: interleaved real and imaginary parts, in SI units *)
Theorem C59_file_partial (file : nat -> res (nda R)) unit M Nx Nr data theta : (1 <= M)%nat -> (0 <= Nr)%Z ->
  (forall m, (m < M)%nat -> file m = Ok (data m) /\ a_shape (data m) = [Nx; 2 * Nr]%Z) ->
  exists a, sm_expanded file unit false (seq 0 M) [theta] = Ok a /\ a_shape a = [1%Z; Nx; Nr] /\
    forall x r, a_at a [0%Z; x; r] = complex_series (fun m => (a_at (data m) [x; 2 * r]%Z, a_at (data m) [x; 2 * r + 1]%Z)) M theta * unit.
Proof. exact (sm_expanded_ok file unit M Nx Nr data theta). Qed.
Print Assumptions C59_file_partial.
Example C59_case : let data := fun m : nat => mkarr [1; 4]%Z (fun i => IZR (last i 0%Z) + INR m) in
  (forall m, (m < 2)%nat -> (fun m => Ok (data m)) m = Ok (data m) /\ a_shape (data m) = [1; 2 * 2]%Z) /\
  complex_series (fun m => (a_at (data m) [0; 2 * 1]%Z, a_at (data m) [0; 2 * 1 + 1]%Z)) 2 0 = 5.
Proof. split; [intros; split; reflexivity|]. unfold complex_series. cbn. rewrite !Rmult_0_l, !Rmult_0_r, cos_0, sin_0. lra. Qed.

(** envelope fields hold real numbers *)
Theorem C59_envelope_partial (file : nat -> res (nda R)) unit M Nx Nr data theta : (1 <= M)%nat ->
  (forall m, (m < M)%nat -> file m = Ok (data m) /\ a_shape (data m) = [Nx; Nr]) ->
  exists a, sm_expanded file unit true (seq 0 M) [theta] = Ok a /\ a_shape a = [1%Z; Nx; Nr] /\
    forall x r, a_at a [0%Z; x; r] = rsum M (fun m => a_at (data m) [x; r] * cos (INR m * theta)) * unit.
Proof. exact (sm_envelope_ok file unit M Nx Nr data theta). Qed.
Print Assumptions C59_envelope_partial.
(** data sets of unequal size are not mixed *)
Theorem C59_ragged (file : nat -> res (nda R)) unit modes theta a d0 d1 m0 m1 : sm_expanded file unit true modes theta = Ok a ->
  In m0 modes -> In m1 modes -> file m0 = Ok d0 -> file m1 = Ok d1 -> a_shape d0 = a_shape d1.
Proof. exact (sm_ragged file unit modes theta a d0 d1 m0 m1). Qed.
Print Assumptions C59_ragged.
Example C59_envelope_case : let data := fun m : nat => mkarr [1; 2]%Z (fun i => IZR (last i 0%Z) + INR m) in
  (forall m, (m < 2)%nat -> (fun m => Ok (data m)) m = Ok (data m) /\ a_shape (data m) = [1; 2]%Z) /\ rsum 2 (fun m => a_at (data m) [0; 1]%Z * cos (INR m * 0)) = 3.
Proof. split; [intros; split; reflexivity|]. cbn. rewrite !Rmult_0_r, cos_0. lra. Qed.

(** * C79: the modes used *)
Theorem C79_modes_partial names : names <> [] -> (forall d, In d (map snd names) -> exists n, d = [n]) ->
  exists top, In [top] (map snd names) /\ (forall n, In [n] (map snd names) -> (n <= top)%nat) /\ sm_modes names = (map fst names, seq 0 (S top)).
Proof. exact (modes_single_digit names). Qed.
Print Assumptions C79_modes_partial.
Example C79_case : sm_modes [("El"%string, [0%nat]); ("El"%string, [1%nat]); ("Er"%string, [0%nat])] = (["El"; "El"; "Er"]%string, [0; 1]%nat).
Proof. reflexivity. Qed.
(** with a tenth mode the modes from 1 are lost *)
Theorem C79_modes_refuted : exists names, In [1; 0]%nat (map snd names) /\ (forall k, (k <= 9)%nat -> In [k] (map snd names)) /\ snd (sm_modes names) = [0%nat].
Proof. exact modes_lost. Qed.
Print Assumptions C79_modes_refuted.
