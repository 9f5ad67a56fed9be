(** Specification of the fields which kspace accepts with linear interpolation and of the parts of fields which it accepts (C88). *)
From Coq Require Import Reals String List ZArith.
From Verif Require Import PyBase NumpyModel NdModel CplxModel FftModel FftSpec KspaceModel KspaceSpec KspaceCutSpec KspaceLinSpec KspaceMatchSpec.
Import ListNotations.
Local Open Scope R_scope.

(** the fields whose grids fit can be moved to the grid P *)
Definition movable (spl : rspline) (lin : rfield -> list (Z * R) -> res rfield) (el : bool) (p : nat) (P : place) (G : string -> place) (fields : dict) (s : store) : Prop :=
  forall key a f, In key (tl (needed el p (pl_nd P))) -> dget fields key = Some a -> nth_error s a = Some f -> fits ILinear P (G key) ->
    exists H, moved_spectrum spl lin (pl_nd P) (pl_at P) (pl_at (G key)) f H.
(** the fields which are needed are there, and every field has a part; the part of the main one lives
    on the grid P, those of the others which are needed on any grids G *)
Definition parts_placed (spl : rspline) (lin : rfield -> list (Z * R) -> res rfield) (ct : rfield -> rfield -> res rfield) (ip : interp) (el : bool) (p : nat) (P : place) (G : string -> place) (fields : dict) (s : store) : Prop :=
  (forall key, In key (needed el p (pl_nd P)) -> exists a, dget fields key = Some a) /\
  exists m f fm, dget fields (comp el p) = Some m /\ nth_error s m = Some f /\ ensure_domain spl f false = Ok fm /\
    forall k a, In (k, a) fields -> exists g h, nth_error s a = Some g /\ wellformed g /\ part_of spl ct fm g h /\
      (k = comp el p -> lives_on h (pl_nd P) (pl_at P)) /\
      (In k (tl (needed el p (pl_nd P))) -> (0 < pl_nd (G k))%nat /\ lives_on h (pl_nd (G k)) (pl_at (G k)) /\ (ip = IFourier -> origins_known h) /\
         (ip = ILinear -> fits ILinear P (G k) -> exists H, moved_spectrum spl lin (pl_nd P) (pl_at P) (pl_at (G k)) h H)).
