(** The Tukey window. *)
From Coq Require Import Reals.
From Verif Require Import PyBase.
Local Open Scope R_scope.

(** the distance to the nearer end of 0 .. N *)
Definition from_end (N n : nat) : nat := Nat.min n (N - n).
(** at distance k from the nearer end of N steps, of which the fraction alpha is in the ramps, l rises
    like the square of a sine up to one *)
Definition tukey_value (alpha : R) (N k : nat) (y : R) : Prop :=
  (INR k <= alpha * INR N / 2 -> y = sin (PI * INR k / (alpha * INR N)) ^ 2) /\ (alpha * INR N / 2 <= INR k -> y = 1).
