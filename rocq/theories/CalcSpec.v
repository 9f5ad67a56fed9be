(** What the theorems about energy densities and divergence speak of. *)
From Coq Require Import QArith List ZArith.
From Verif Require Import PyBase NdModel.
Import ListNotations.
Local Open Scope Q_scope.

(** slope times coordinate, summed over the axes; entry i of axis j lies at o_j + i h_j *)
Fixpoint lin (s o h : list Q) (idx : list Z) : Q :=
  match s, o, h, idx with
  | s :: ss, o :: os, h :: hs, i :: is => s * (o + inject_Z i * h) + lin ss os hs is
  | _, _, _, _ => 0
  end.
(** the array holds c + s . x on a grid with origin o and cell sizes h *)
Definition linear_on (a : nda Q) (c : Q) (s o h : list Q) : Prop :=
  length s = length (a_shape a) /\ length o = length (a_shape a) /\ length h = length (a_shape a) /\
  forall idx, in_shape (a_shape a) idx = true -> a_at a idx == c + lin s o h idx.
(** the divergence of three such components in d dimensions, slopes weighted by w *)
Definition trace (d : nat) (sx sy sz w : list Q) : Q :=
  nth 0 sx 0 * nth 0 w 0 + (if Nat.leb 2 d then nth 1 sy 0 * nth 1 w 0 else 0) + (if Nat.leb 3 d then nth 2 sz 0 * nth 2 w 0 else 0).
Definition divergence (d : nat) (sx sy sz : list Q) : Q :=
  nth 0 sx 0 + (if Nat.leb 2 d then nth 1 sy 0 else 0) + (if Nat.leb 3 d then nth 2 sz 0 else 0).
