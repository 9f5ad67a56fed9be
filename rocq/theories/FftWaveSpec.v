(** Superpositions of plane waves on uniform grids (C23, C87). *)
From Coq Require Import Reals List ZArith.
From Verif Require Import PyBase NumpyModel NdModel CplxModel FftModel FftSpec.
Import ListNotations.
Local Open Scope R_scope.

(** a plane wave along the given dimensions: its number on the frequency grid for each of them, and
    its amplitude, which may depend on the other dimensions; a superposition of them *)
Record wave := mkwave { w_amp : list Z -> C; w_num : nat -> Z }.
Definition proper_wave (U : nat -> uni) (axes : list nat) (w : wave) : Prop :=
  (forall a, In a axes -> (0 <= w_num w a < Z.of_nat (u_n (U a)))%Z) /\ (forall idx a j, In a axes -> w_amp w (upd idx a j) = w_amp w idx).
Definition wave_at (s : R) (U V : nat -> uni) (axes : list nat) (idx : list Z) (w : wave) : C :=
  Cmul (w_amp w idx) (cis (fold_right Rplus 0 (map (fun a => s * (point (V a) (w_num w a) * point (U a) (nth a idx 0%Z))) axes))).
Definition waves (s : R) (U V : nat -> uni) (axes : list nat) (ws : list wave) (idx : list Z) : C :=
  fold_right Cadd C0 (map (wave_at s U V axes idx) ws).
(** the frequency grid which fft would use *)
Definition frequencies (f : rfield) (U : nat -> uni) (a : nat) : uni := dual (nth a (rf_tao f) None) (U a).
