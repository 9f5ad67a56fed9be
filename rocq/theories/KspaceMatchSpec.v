(** Specification of the fields which kspace accepts (C88). *)
From Coq Require Import Reals String List ZArith.
From Verif Require Import PyBase NumpyModel NdModel CplxModel FftModel FftSpec KspaceModel KspaceSpec.
Import ListNotations.
Local Open Scope R_scope.

(** a grid in space: number of dimensions and a uniform grid for each of them *)
Record place := mkplace { pl_nd : nat; pl_at : nat -> uni }.
Definition extent (u : uni) : R := INR (u_n u - 1) * u_dx u.
(** x is y up to 1e-8 and 1e-5 of its size *)
Definition close_to (x y : R) : Prop := Rabs (x - y) <= / 100000000 + / 100000 * Rabs y.
(** the grid Q of another field fits to the grid P of the main field *)
Definition fits (ip : interp) (P Q : place) : Prop :=
  pl_nd Q = pl_nd P /\ forall a, (a < pl_nd P)%nat ->
    u_n (pl_at Q a) = u_n (pl_at P a) /\ close_to (extent (pl_at P a)) (extent (pl_at Q a)) /\
    match ip with INone => close_to (u_x0 (pl_at P a)) (u_x0 (pl_at Q a)) | _ => Rabs (u_x0 (pl_at P a) - u_x0 (pl_at Q a)) < 2 * u_dx (pl_at P a) end.
(** the fields which are needed are there, the main one on the grid P, the others on any grids G *)
Definition placed (ip : interp) (el : bool) (p : nat) (P : place) (G : string -> place) (fields : dict) (s : store) : Prop :=
  (exists a f, dget fields (comp el p) = Some a /\ nth_error s a = Some f /\ lives_on f (pl_nd P) (pl_at P)) /\
  forall key, In key (tl (needed el p (pl_nd P))) -> exists a f, dget fields key = Some a /\ nth_error s a = Some f /\ (0 < pl_nd (G key))%nat /\ lives_on f (pl_nd (G key)) (pl_at (G key)) /\ (ip = IFourier -> origins_known f).

(** what kspace_propagate refuses, for the first n values *)
Definition refused (p : prop_args) (n : Z) (f : rfield) : Prop :=
  (n < 0)%Z \/
  (1 <= n)%Z /\ ((~ exists b, all_in b f) \/ (exists v, p_vect p = Some v /\ length v <> ndim f) \/ (p_vect p = None /\ p_remove p = Some true) \/
                 (p_vect p = None /\ p_move p = Some true /\ (p_zeroth p = true -> (2 <= n)%Z))).
