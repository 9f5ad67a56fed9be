(** What the theorems about the adaptive propagation speak of. *)
From Coq Require Import Reals.
From Verif Require Import PyBase AdaptModel.
Local Open Scope R_scope.

(** the Fourier transform goes to the other domain and back; everything else stays in its domain *)
Definition well_behaved {S} (ops : adapt_ops S) : Prop :=
  (forall f b, op_state ops f = Some b -> exists g, op_fft ops f = Ok g /\ op_state ops g = Some (negb b) /\ op_fft ops g = Ok f) /\
  (forall f g, op_reduce ops f = Ok g -> op_state ops g = op_state ops f /\ length (op_box ops g) = length (op_box ops f)) /\
  (forall f p g, op_pad ops f p = Ok g -> op_state ops g = op_state ops f /\ length (op_box ops g) = length (op_box ops f)) /\
  (forall f t w g, op_propagate ops f t w = Ok g -> op_state ops g = op_state ops f /\ length (op_box ops g) = length (op_box ops f)) /\
  (forall f g, op_cut ops f = Ok g -> op_state ops g = op_state ops f /\ length (op_box ops g) = length (op_box ops f)).
(** the field in space *)
Definition in_space {S} (ops : adapt_ops S) (f s : S) : Prop :=
  match op_state ops f with Some true => op_fft ops f = Ok s | Some false => s = f | None => False end.
(** the mean length of the box across axis k *)
Definition across (box : list (R * R)) (k : nat) : R :=
  (fold_right Rplus 0 (map (fun e => Rabs (snd e - fst e)) box) - Rabs (snd (nth k box (0, 0)) - fst (nth k box (0, 0)))) / INR (length box - 1).
Definition unit_vector (n k : nat) (v : list R) : Prop := length v = n /\ forall i, (i < n)%nat -> nth i v 0 = if (i =? k)%nat then 1 else 0.
(** how much is added on both sides of the axes: the distance d across, and along axis k a part of the
    box which shrinks with the distance gone, ten times as much behind as in front *)
Definition padding (box : list (R * R)) (k : nat) (d gone : R) (p : list (R * R)) : Prop :=
  length p = length box /\ forall i, (i < length box)%nat ->
    nth i p (0, 0) = if (i =? k)%nat
                     then (d / (gone + d) * (Rabs (snd (nth k box (0, 0)) - fst (nth k box (0, 0))) / 2), d / (gone + d) * (Rabs (snd (nth k box (0, 0)) - fst (nth k box (0, 0))) / 2) / 10)
                     else (d, d).
Definition middle (box : list (R * R)) (k : nat) : R := (fst (nth k box (0, 0)) + snd (nth k box (0, 0))) / 2.
(** one step: light crosses half the width of the box, the clock goes on by that time and the field, with
    room around it, is propagated by the same time along axis k; x0 is where the middle of the box was *)
Definition advances {S} (ops : adapt_ops S) (c : R) (k : nat) (x0 : R) (t : R) (f : S) (t' : R) (f' : S) : Prop :=
  exists s r p padded q v g, in_space ops f s /\ op_reduce ops s = Ok r /\ t' - t = across (op_box ops r) k / 2 / c /\
    padding (op_box ops r) k (across (op_box ops r) k / 2) (middle (op_box ops r) k - x0) p /\ op_pad ops r p = Ok padded /\
    unit_vector (length (op_box ops s)) k v /\ op_propagate ops padded (t' - t) v = Ok q /\ op_cut ops q = Ok g /\ in_space ops f' g.
(** an axis as numbered by python: from the front, or negative from the back *)
Definition names_axis (d : nat) (axis : Z) (k : nat) : Prop := (k < d)%nat /\ (axis = Z.of_nat k \/ axis = Z.of_nat k - Z.of_nat d)%Z.
(** everything that was there, the given field included *)
Definition history {S} (zeroth : bool) (field_in : S) (l : list (R * S)) : list (R * S) := if zeroth then l else (0, field_in) :: l.
