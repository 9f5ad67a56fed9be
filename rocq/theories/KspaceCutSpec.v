(** Specification of the reconstruction of waves from a part of the fields (C83). *)
From Coq Require Import Reals String List ZArith.
From Verif Require Import PyBase NdModel CplxModel FftModel KspaceModel KspaceSpec.
Local Open Scope R_scope.

(** the part of a field which is used: the field in space, cut by what indexing with the slices of
    the extent does; the slices are made from the field [fm] *)
Definition part_of (spl : rspline) (ct : rfield -> rfield -> res rfield) (fm f h : rfield) : Prop := exists g, ensure_domain spl f false = Ok g /\ ct fm g = Ok h.
(** the spectra of these parts *)
Definition part_spectrum (spl : rspline) (ct : rfield -> rfield -> res rfield) (fm : rfield) (s : store) (fields : dict) (key : string) (idx : list Z) : C :=
  match dget fields key with
  | Some a => match nth_error s a with
              | Some f => match ensure_domain spl f false with
                          | Ok g => match ct fm g with
                                    | Ok h => match ensure_domain spl h true with Ok F => a_at (rf_data F) idx | Err _ => C0 end
                                    | Err _ => C0 end
                          | Err _ => C0 end
              | None => C0 end
  | None => C0
  end.
(** all names stand for objects *)
Definition all_there (fields : dict) (s : store) : Prop := forall k a, In (k, a) fields -> (a < length s)%nat.
