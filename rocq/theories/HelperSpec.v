(** Specifications for the helper functions (C44-C46, C50, C64), independent of the model. *)
From Coq Require Import Qround Permutation.
From Verif Require Import PyBase NumpyModel NdModel.

(** Sizes FFTW is best at: 2^a 3^b 5^c 7^d 11^e 13^f with e + f at most 1. *)
Definition fftw_friendly (x : Z) : Prop :=
  exists a b c d e f, x = (2 ^ Z.of_nat a * 3 ^ Z.of_nat b * 5 ^ Z.of_nat c * 7 ^ Z.of_nat d * 11 ^ Z.of_nat e * 13 ^ Z.of_nat f)%Z /\
    (e + f <= 1)%nat.
(** r is the smallest friendly size that is at least n *)
Definition next_friendly (n r : Z) : Prop :=
  fftw_friendly r /\ (n <= r)%Z /\ forall x, fftw_friendly x -> (n <= x)%Z -> (r <= x)%Z.
(** the number of powers is never too small: at most f^0 .. f^(k-1) with e f^k > m are
    left out; holds for the exact logarithm and for one that is rounded down by one at
    an exact power *)
Definition enough_powers (pw : Z -> Z -> Z -> nat) : Prop :=
  forall m e f, (1 <= m)%Z -> In e [1; 11; 13]%Z -> In f [2; 3; 5; 7]%Z -> (m < e * f ^ Z.of_nat (pw m e f))%Z.

(** strictly increasing, strictly decreasing *)
Definition increasing (l : list Q) : Prop := forall i j, (i < j < length l)%nat -> nth i l 0 < nth j l 0.
Definition decreasing (l : list Q) : Prop := forall i j, (i < j < length l)%nat -> nth j l 0 < nth i l 0.

(** The value interp computes at coordinates inside the array only depends on the samples
    less than five cells away: cutting the array to an interval per axis that contains
    them, and shifting the coordinates, does not change it. *)
Definition inside (sh : list Z) (c : list Q) : Prop :=
  Forall2 (fun n x => 0 <= x /\ x <= inject_Z (n - 1)) sh c.
Definition keeps_neighbours (n : Z) (x : Q) (r : Z * Z) : Prop :=
  (0 <= fst r <= Z.max 0 (Qfloor x - 5))%Z /\ (Z.min n (Qceiling x + 5) <= snd r <= n)%Z.
Definition cut_of_array (a : nda Q) (rs : list (Z * Z)) (b : nda Q) : Prop :=
  a_shape b = map (fun r => (snd r - fst r)%Z) rs /\
  forall idx, in_shape (a_shape b) idx = true -> a_at b idx = a_at a (map2 (fun i r => (i + fst r)%Z) idx rs).
Definition local_interp (interp : nda Q -> list Q -> Q) : Prop :=
  forall a b c rs, inside (a_shape a) c -> length rs = length (a_shape a) ->
    (forall k, (k < length rs)%nat -> keeps_neighbours (nth k (a_shape a) 0%Z) (nth k c 0) (nth k rs (0, 0)%Z)) ->
    cut_of_array a rs b -> interp b (map2 (fun x r => x - inject_Z (fst r)) c rs) == interp a c.
(** one interleaving of the element writes of all workers *)
Inductive interleaving {A} : list (list A) -> list A -> Prop :=
| inter_done ls : Forall (fun l => l = []) ls -> interleaving ls []
| inter_step ls1 x l ls2 r : interleaving (ls1 ++ l :: ls2) r -> interleaving (ls1 ++ (x :: l) :: ls2) (x :: r).
