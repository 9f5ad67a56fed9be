(** Specifications for C96 and C97. *)
From Coq Require Import Reals.
From Verif Require Import PyBase.
Local Open Scope R_scope.

(** the sum of f over the components k of the wave vector and the spacings dx of the grid *)
Fixpoint sum_over (f : R -> R -> R) (ks dx : list R) : R :=
  match ks, dx with k :: ks, d :: dx => f k d + sum_over f ks dx | _, _ => 0 end.
(** the squared length of the wave vector *)
Definition squared (ks : list R) : R := fold_right (fun k s => k * k + s) 0 ks.
(** The Yee scheme is stable for this time step (Courant, Friedrichs, Lewy). *)
Definition stable (c : R) (dx : list R) (dt : R) : Prop := (c * dt) ^ 2 * fold_right (fun d s => / d ^ 2 + s) 0 dx <= 1.
(** The dispersion relation of light on the grid of the Yee scheme. *)
Definition yee_relation (c : R) (dx : list R) (dt : R) (ks : list R) (w : R) : Prop :=
  (sin (w * dt / 2)) ^ 2 = (c * dt) ^ 2 * sum_over (fun k d => (sin (k * d / 2) / d) ^ 2) ks dx.
(** the waves which the grid resolves *)
Definition resolved (ks dx : list R) : Prop := Forall2 (fun k d => Rabs k * d <= PI) ks dx.

(** k and l are one wave on the grid of spacing d, up to the direction *)
Definition alias (d k l : R) : Prop := exists n : Z, k = l + 2 * PI * IZR n / d \/ k = - l + 2 * PI * IZR n / d.

(** the density at which a plasma becomes opaque for light of the wavelength l *)
Definition critical_density (eps0 me qe c l : R) : R := eps0 * me * (2 * PI * c / l) ^ 2 / qe ^ 2.
(** Equal up to a relative deviation. *)
Definition agrees (r x y : R) : Prop := Rabs (x - y) <= r * Rabs y.
(** CODATA 2018, in SI units; the speed of light is exact by definition *)
Definition si_c : R := 299792458.
Definition si_electron_mass : R := 91093837015 / 10 ^ 41.
Definition si_charge : R := 1602176634 / 10 ^ 28.
Definition si_mass_unit : R := 166053906660 / 10 ^ 38.
