(** What the theorems about azimuthal modes speak of. *)
From Coq Require Import Reals List ZArith.
From Verif Require Import PyBase NdModel CplxModel.
Import ListNotations.
Local Open Scope R_scope.

(** the Fourier series of a point: record 0, then cosine and sine records in turns, M of each *)
Definition series_at (raw : nda R) (M : nat) (r z : Z) (theta : R) : R :=
  a_at raw [0%Z; r; z] + rsum M (fun m => a_at raw [(2 * Z.of_nat m + 1)%Z; r; z] * cos (INR (S m) * theta) + a_at raw [(2 * Z.of_nat m + 2)%Z; r; z] * sin (INR (S m) * theta)).
(** n angles evenly around *)
Definition angle (n : nat) (k : nat) : R := 2 * PI * INR k / INR n.
Definition angles (n : nat) : list R := map (angle n) (seq 0 n).
(** the Fourier series of complex modes 0 .. M-1 *)
Definition complex_series (mode : nat -> C) (M : nat) (theta : R) : R :=
  rsum M (fun m => fst (mode m) * cos (INR m * theta) + snd (mode m) * sin (INR m * theta)).
