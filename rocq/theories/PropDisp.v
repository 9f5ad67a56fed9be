(** Property theorems about the dispersion relations (C96) and the physical constants (C97). *)
From Coq Require Import Reals Lra Lia.
From Verif Require Import PyBase NdModel FftModel KspaceModel DispModel DispSpec DispFacts.
Local Open Scope R_scope.

(** ** C96 *)
(** For a stable time step there is a frequency for every wave vector.  It obeys the dispersion
    relation of the Yee scheme and is between zero and that of the shortest oscillation in time. *)
Theorem C96_relation : forall c dx dt ks, 0 < c -> 0 < dt -> Forall (fun d => 0 < d) dx -> stable c dx dt ->
  exists w, yee_frequency c dx dt ks = Some w /\ 0 <= w * dt <= PI /\ yee_relation c dx dt ks w.
Proof. exact yee_defined. Qed.
Print Assumptions C96_relation.
(** ... and it is the only one. *)
Theorem C96_unique : forall c dx dt ks w, 0 < c -> 0 < dt -> Forall (fun d => 0 < d) dx -> stable c dx dt -> 0 <= w * dt <= PI -> yee_relation c dx dt ks w -> yee_frequency c dx dt ks = Some w.
Proof. exact yee_is. Qed.
Print Assumptions C96_unique.
Example C96_relation_case : stable 1 [2; 2] 1 /\ Forall (fun d => 0 < d) [2; 2] /\ yee_relation 1 [2; 2] 1 [PI / 2; PI / 2] (PI / 2) /\ 0 <= PI / 2 * 1 <= PI.
Proof.
  pose proof PI_RGT_0. split; [unfold stable; cbn; lra|]. split; [repeat constructor; lra|]. split; [|lra]. unfold yee_relation. cbn [sum_over]. replace (PI / 2 * 1 / 2) with (PI / 4) by lra. replace (PI / 2 * 2 / 2) with (PI / 2) by lra. rewrite sin_PI2, sin_PI4. assert (S2 : (1 / sqrt 2) ^ 2 = / 2) by (unfold Rdiv; rewrite Rpow_mult_distr, pow_inv, pow2_sqrt by lra; lra). cbn [pow] in *. nra.
Qed.
(** Waves which the grid resolves are never faster than light. *)
Theorem C96_slower : forall c dx dt ks w, 0 < c -> 0 < dt -> Forall (fun d => 0 < d) dx -> stable c dx dt -> resolved ks dx -> yee_frequency c dx dt ks = Some w -> w <= c * sqrt (squared ks).
Proof. exact yee_slower. Qed.
Print Assumptions C96_slower.
(** They are slower by at most h^2/24, if h is the largest phase between neighbouring points. *)
Theorem C96_accuracy : forall c dx dt ks w h, 0 < c -> 0 < dt -> Forall (fun d => 0 < d) dx -> stable c dx dt -> Forall2 (fun k d => Rabs k * d <= h) ks dx -> 0 <= h <= PI -> yee_frequency c dx dt ks = Some w -> c * sqrt (squared ks) * (1 - h ^ 2 / 24) <= w.
Proof. exact yee_accuracy. Qed.
Print Assumptions C96_accuracy.
Example C96_slower_case : resolved [1 / 2; -1] [2; 2] /\ Forall2 (fun k d => Rabs k * d <= 2) [1 / 2; -1] [2; 2] /\ exists w, yee_frequency 1 [2; 2] 1 [1 / 2; -1] = Some w.
Proof.
  assert (A : Rabs (1 / 2) = 1 / 2) by (apply Rabs_pos_eq; lra). assert (B : Rabs (-1) = 1) by (rewrite Rabs_left; lra). pose proof PI2_3_2. split; [repeat constructor; rewrite ?A, ?B; lra|]. split; [repeat constructor; rewrite ?A, ?B; lra|].
  destruct (yee_defined 1 [2; 2] 1 [1 / 2; -1]) as (w & E & _); [lra|lra|repeat constructor; lra|unfold stable; cbn; lra|]. now exists w.
Qed.
(** Waves which agree on all points of the grid, also in opposite direction, have one frequency. *)
Theorem C96_alias : forall c dx dt ks ls, Forall (fun d => 0 < d) dx -> length ks = length dx -> length ls = length dx -> (forall i, (i < length dx)%nat -> alias (nth i dx 0) (nth i ks 0) (nth i ls 0)) -> yee_frequency c dx dt ks = yee_frequency c dx dt ls.
Proof. exact yee_alias. Qed.
Print Assumptions C96_alias.
Example C96_alias_case : alias 2 (1 + PI) 1 /\ alias 2 (-3) 3.
Proof. split; [exists 1%Z; left; lra|exists 0%Z; right; lra]. Qed.
(** In one dimension and with the largest stable time step the grid has no dispersion at all. *)
Theorem C96_magic : forall c d k, 0 < c -> 0 < d -> Rabs k * d <= PI -> yee_frequency c [d] (d / c) [k] = Some (c * Rabs k).
Proof. exact yee_magic. Qed.
Print Assumptions C96_magic.
Example C96_magic_case : Rabs (-1) * 3 <= PI.
Proof. rewrite Rabs_left by lra. pose proof PI2_3_2. lra. Qed.
(** What kspace multiplies with are these frequencies; in vacuum c times the length of the wave vector. *)
Theorem C96_mesh : forall c dx dt axes idx w, yee_frequency c dx dt (kvector axes idx) = Some w -> omega_yee c dx dt axes idx = w.
Proof. exact mesh_yee. Qed.
Print Assumptions C96_mesh.
Theorem C96_free : forall c axes idx, omega_free c axes idx = c * sqrt (squared (kvector axes idx)).
Proof. exact mesh_free. Qed.
Print Assumptions C96_free.
Theorem C96_free_zero : forall c ks, 0 < c -> c * sqrt (squared ks) = 0 <-> Forall (fun k => k = 0) ks.
Proof. exact free_zero. Qed.
Print Assumptions C96_free_zero.
Example C96_mesh_case : exists axes idx, kvector axes idx = [5; 0] /\ squared (kvector axes idx) = 25.
Proof. exists [mkra "" "" [3; 5] []; mkra "" "" [0] []], [1; 0]%Z. match goal with |- ?a = _ /\ _ => assert (E : a = [5; 0]) by reflexivity; rewrite E end. split; [reflexivity|]. cbn. ring. Qed.
(** For every time step which is not stable some wave of the grid has no frequency (nan). *)
Theorem C96_unstable_refuted : forall c dx dt, 0 < c -> 0 < dt -> Forall (fun d => 0 < d) dx -> ~ stable c dx dt -> exists ks, resolved ks dx /\ yee_frequency c dx dt ks = None.
Proof. exact yee_unstable. Qed.
Print Assumptions C96_unstable_refuted.
Example C96_unstable_case : ~ stable 1 [1; 1] (9 / 10).
Proof. unfold stable. cbn. lra. Qed.
(** Too few spacings are not noticed: the other components of the wave vector do not count. *)
Theorem C96_truncated_refuted : forall c dx dt ks rest, (length dx <= length ks)%nat -> yee_frequency c dx dt (ks ++ rest) = yee_frequency c dx dt ks.
Proof. exact yee_truncated. Qed.
Print Assumptions C96_truncated_refuted.
Example C96_truncated_case : (length [1] <= length [2])%nat /\ [2] ++ [7] <> [2].
Proof. split; [cbn; lia|discriminate]. Qed.

(** ** C97 *)
Theorem C97_light : pc_epsilon0 * pc_mu0 * pc_c ^ 2 = 1.
Proof. exact light_eps. Qed.
Print Assumptions C97_light.
(** The critical density is proportional to 1/l^2, and less than 0.5 percent below that of the constants
    given in the same class. *)
Theorem C97_ncrit_partial : forall l, l <> 0 -> exists n, ncrit l = Ok n /\ let d := critical_density pc_epsilon0 pc_me pc_qe pc_c l in 995 / 1000 * d < n < 996 / 1000 * d.
Proof. exact ncrit_close. Qed.
Print Assumptions C97_ncrit_partial.
Theorem C97_scaling : forall l, l <> 0 -> exists n, ncrit l = Ok n /\ ncrit_um (l * 10 ^ 6) = Ok n /\ n * l ^ 2 = 111 * 10 ^ 13.
Proof. exact ncrit_scaling. Qed.
Print Assumptions C97_scaling.
(** It is never the exact value. *)
Theorem C97_exact_refuted : forall l n, l <> 0 -> ncrit l = Ok n -> n <> critical_density pc_epsilon0 pc_me pc_qe pc_c l.
Proof. exact ncrit_inexact. Qed.
Print Assumptions C97_exact_refuted.
Theorem C97_zero : ncrit 0 = Err ZeroDivisionError.
Proof. exact ncrit_zero. Qed.
Print Assumptions C97_zero.
Example C97_case : 8 / 10 ^ 7 <> 0 /\ exists n, ncrit (1 / 10 ^ 6) = Ok n /\ n = 111 * 10 ^ 25.
Proof. split; [lra|]. eexists. split; [apply ncrit_eq; lra|]. field. Qed.
(** The constants are those of the SI (CODATA 2018) to seven digits, ... *)
Theorem C97_si : pc_c = si_c /\ agrees (1 / 10 ^ 7) pc_me si_electron_mass /\ agrees (1 / 10 ^ 7) pc_qe si_charge.
Proof. exact constants_si. Qed.
Print Assumptions C97_si.
(** ... except the unit of atomic masses, which is that of the mass of the proton (1.67262192369e-27 kg). *)
Theorem C97_mass_unit_refuted : si_mass_unit * (1007 / 1000) < pc_mass_u /\ agrees (1 / 10 ^ 4) pc_mass_u (167262192369 / 10 ^ 38).
Proof. exact mass_unit_off. Qed.
Print Assumptions C97_mass_unit_refuted.
