(** Specifications for KeepDim (C122). *)
From Verif Require Import PyBase NumpyModel NdModel AxisModel.

(** r is cell k of ax as an axis of its own *)
Definition is_cell (ax : axis) (k : nat) (r : axis) : Prop :=
  ax_grid r = [nth k (ax_grid ax) 0] /\ ax_node r = [nth k (ax_node ax) 0; nth (S k) (ax_node ax) 0] /\ ax_name r = ax_name ax /\ ax_unit r = ax_unit ax.
(** KeepDim(i) written as a slice *)
Definition keep_as_slice (ik : ikey) : ikey :=
  match ik with
  | IKeep (KNum (NInt i)) => IKey (KSlice (Some (NInt i)) (Some (NInt (i + 1))) None)
  | _ => ik
  end.
(** numpy.isclose: equal up to 1e-8 and a relative 1e-5 of b *)
Definition close (a b : Q) : Prop := qabs (a - b) <= (1 # 100000000) + (1 # 100000) * qabs b.
Definition all_close (l m : list Q) : Prop := forall i, (i < length l)%nat -> close (nth i l 0) (nth i m 0).
(** the domain of all dimensions, if they are in the same; without dimensions it counts as frequencies *)
Definition common_state (ats : list (option bool)) (st : option bool) : Prop :=
  (ats <> [] -> forall b, st = Some b <-> Forall (eq (Some b)) ats) /\ (ats = [] -> st = Some true).
