(** Complex numbers over the reals of the standard library, and finite sums.
    No proofs in this file. *)
From Coq Require Import Reals.
Local Open Scope R_scope.

(** numpy complex128, as exact pairs (real part, imaginary part) *)
Definition C := (R * R)%type.
Definition C0 : C := (0, 0).
Definition C1 : C := (1, 0).
Definition Cadd (a b : C) : C := (fst a + fst b, snd a + snd b).
Definition Cmul (a b : C) : C := (fst a * fst b - snd a * snd b, fst a * snd b + snd a * fst b).
Definition Copp (a : C) : C := (- fst a, - snd a).
Definition Csub (a b : C) : C := Cadd a (Copp b).
(** a real factor *)
Definition RtoC (x : R) : C := (x, 0).
(** numexpr conj *)
Definition Cconj (a : C) : C := (fst a, - snd a).
(** exp(1j * x) *)
Definition cis (x : R) : C := (cos x, sin x).
(** abs(z)**2 *)
Definition Cabs2 (a : C) : R := fst a * fst a + snd a * snd a.

(** sums over 0 .. n-1 *)
Fixpoint csum (n : nat) (f : nat -> C) : C := match n with O => C0 | S m => Cadd (csum m f) (f m) end.
Fixpoint rsum (n : nat) (f : nat -> R) : R := match n with O => 0 | S m => rsum m f + f m end.
