(** Specifications for the padded arrays (C26). *)
From Verif Require Import PyBase DepModel.

(** the weights of those which pass *)
Definition passed {P} (accept : P -> bool) (l : list (P * Q)) : list Q := map snd (filter (fun pw => accept (fst pw)) l).
(** positions in units of cells, as the range test sees them *)
Definition scaled_in (spacing : Q -> Q) (r : Q * Q) (n : Z) (v : Q) : Q := let w := widen spacing r in scaled (fst w) (1 / (snd w - fst w) * inject_Z n) v.
