(** Theorems about the Tukey window of the compatibility layer: C110. *)
From Coq Require Import Reals Lra Lia List.
From Verif Require Import PyBase TukeyModel TukeySpec TukeyFacts.
Import ListNotations.
Local Open Scope R_scope.

(** N+1 points: the square of a sine up to the fraction alpha/2 from either end, one in between *)
Theorem C110_values : forall N alpha, 0 < alpha < 1 -> (1 <= N)%nat -> exists l, sps_tukey (Z.of_nat (S N)) alpha true = Ok l /\ length l = S N /\
  forall n, (n <= N)%nat -> exists y, nth_error l n = Some y /\ tukey_value alpha N (from_end N n) y.
Proof. exact sps_sym. Qed.
Print Assumptions C110_values.
(** a periodic window of M points is one of M+1 points without the last *)
Theorem C110_periodic : forall M alpha, 0 < alpha < 1 -> (2 <= M)%nat -> exists l, sps_tukey (Z.of_nat M) alpha false = Ok l /\ length l = M /\
  forall n, (n < M)%nat -> exists y, nth_error l n = Some y /\ tukey_value alpha M (from_end M n) y.
Proof. exact sps_periodic. Qed.
Print Assumptions C110_periodic.
Theorem C110_shape : forall N alpha l, 0 < alpha < 1 -> (1 <= N)%nat -> sps_tukey (Z.of_nat (S N)) alpha true = Ok l ->
  (forall y, In y l -> 0 <= y <= 1) /\ rev l = l /\ nth_error l 0 = Some 0 /\
  forall n n' y y', (from_end N n <= from_end N n')%nat -> (n <= N)%nat -> (n' <= N)%nat -> nth_error l n = Some y -> nth_error l n' = Some y' -> y <= y'.
Proof. exact sps_shape. Qed.
Print Assumptions C110_shape.
(** the window of autocutout leaves exactly the ll points in the middle untouched *)
Theorem C110_plateau : forall ll x, (1 <= ll)%nat -> (1 <= x)%nat -> exists l, sps_tukey (Z.of_nat (ll + 2 * x)) (1 - INR ll / INR (ll + 2 * x)) true = Ok l /\ length l = (ll + 2 * x)%nat /\
  forall n y, nth_error l n = Some y -> y = 1 <-> (x <= n < ll + x)%nat.
Proof. exact sps_plateau. Qed.
Print Assumptions C110_plateau.
Theorem C110_ones : forall M alpha sym, (0 <= M)%Z -> (M <= 1)%Z \/ alpha <= 0 -> exists l, sps_tukey M alpha sym = Ok l /\ length l = Z.to_nat M /\ forall y, In y l -> y = 1.
Proof. exact sps_ones. Qed.
Print Assumptions C110_ones.
(** refuted: no window at all for alpha from one on, where a Hann window is documented *)
Theorem C110_hann_refuted : forall M alpha sym, ((M < 0)%Z -> sps_tukey M alpha sym = Err ValueError) /\ ((2 <= M)%Z -> 1 <= alpha -> sps_tukey M alpha sym = Err NameError).
Proof. exact sps_errors. Qed.
Print Assumptions C110_hann_refuted.
(** four points at distances 0, 1, 1, 0 of three steps, half of which are in the ramps *)
Example C110_case : exists l, sps_tukey 4 (1 / 2) true = Ok l /\ length l = 4%nat /\ nth_error l 1 = Some 1 /\ nth_error l 0 = Some 0.
Proof.
  destruct (C110_values 3 (1 / 2)) as (l & E & L & V); [lra|lia|]. exists l. split; [exact E|]. split; [exact L|]. split; [|apply (C110_shape 3 (1 / 2)); [lra|lia|exact E]].
  destruct (V 1%nat) as (y & Ey & _ & Vy); [lia|]. rewrite Ey. f_equal. apply Vy. change (from_end 3 1) with 1%nat. simpl. lra.
Qed.
