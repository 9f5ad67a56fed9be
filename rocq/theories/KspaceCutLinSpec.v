(** Specification of the reconstruction of waves from parts of the fields with linear interpolation (C83, C84). *)
From Coq Require Import Reals String List ZArith.
From Verif Require Import PyBase NdModel CplxModel FftModel FftSpec KspaceModel KspaceSpec KspaceCutSpec KspaceLinSpec.
Local Open Scope R_scope.

(** the part of the main field lives on W; the parts of the others which are needed are on grids
    which fit, and M are their spectra after they have been moved to W *)
Definition parts_moved (spl : rspline) (lin : rfield -> list (Z * R) -> res rfield) (ct : rfield -> rfield -> res rfield) (el : bool) (p nd : nat) (W : nat -> uni) (fields : dict) (s : store) (M : string -> rfield) : Prop :=
  forall m f fm, dget fields (comp el p) = Some m -> nth_error s m = Some f -> ensure_domain spl f false = Ok fm ->
    (forall h, part_of spl ct fm f h -> lives_on h nd W) /\
    forall key a g h, In key (tl (needed el p nd)) -> dget fields key = Some a -> nth_error s a = Some g -> part_of spl ct fm g h ->
      exists V, lives_on h nd V /\ compatible ILinear nd W V /\ moved_spectrum spl lin nd W V h (M key).
