(** Specification of kspace_epoch_like_old (C117). *)
From Coq Require Import Reals String Ascii List ZArith.
From Verif Require Import PyBase NdModel CplxModel FftModel FftSpec KspaceModel KspaceSpec.
Import ListNotations.
Local Open Scope R_scope.

(** half a cell along every dimension but p: forwards for electric fields, backwards for magnetic ones *)
Definition half_step (electric : bool) (p a : nat) (U : nat -> uni) : R := if Nat.eqb a p then 0 else if electric then u_dx (U a) / 2 else - (u_dx (U a) / 2).
Definition half_cell (electric : bool) (p nd : nat) (U : nat -> uni) : list (Z * R) := map (fun a => (Z.of_nat a, half_step electric p a U)) (seq 0 nd).
Definition letter (electric : bool) : ascii := if electric then "E"%char else "B"%char.
(** the first point of the first axis of the field with this name *)
Definition starts_at (d : dict) (s : store) (key : string) (x : R) : Prop :=
  exists a f ax r, dget d key = Some a /\ nth_error s a = Some f /\ nth_error (rf_axes f) 0 = Some ax /\ ra_grid ax = x :: r.
