(** Specification of the reconstruction of waves with linear interpolation (C83, C84). *)
From Coq Require Import Reals String List ZArith.
From Verif Require Import PyBase NdModel CplxModel FftModel FftSpec KspaceModel KspaceSpec.
Import ListNotations.
Local Open Scope R_scope.

(** how far the grid W is from the grid V, for every dimension *)
Definition distance (nd : nat) (W V : nat -> uni) : list (Z * R) := map (fun a => (Z.of_nat a, u_x0 (W a) - u_x0 (V a))) (seq 0 nd).
(** H is the spectrum of the field f, which lives on V, after its samples in space have been moved to W *)
Definition moved_spectrum (spl : rspline) (lin : rfield -> list (Z * R) -> res rfield) (nd : nat) (W V : nat -> uni) (f H : rfield) : Prop :=
  exists g h, ensure_domain spl f false = Ok g /\ lin g (distance nd W V) = Ok h /\ wellformed h /\ ensure_domain spl h true = Ok H.
(** the fields which are needed are there, on grids which fit; M are the spectra of the moved fields *)
Definition given_moved (spl : rspline) (lin : rfield -> list (Z * R) -> res rfield) (el : bool) (p nd : nat) (W : nat -> uni) (fields : dict) (s : store) (M : string -> rfield) : Prop :=
  (exists a f, dget fields (comp el p) = Some a /\ nth_error s a = Some f /\ lives_on f nd W) /\
  forall key, In key (tl (needed el p nd)) -> exists a f V, dget fields key = Some a /\ nth_error s a = Some f /\ lives_on f nd V /\ compatible ILinear nd W V /\ moved_spectrum spl lin nd W V f (M key).
