(** Specification of the Fourier transform of fields (C20-C24): uniform grids and sums of plane
    waves. *)
From Coq Require Import Reals String Ascii List ZArith.
From Verif Require Import PyBase NumpyModel NdModel CplxModel FftModel.
Import ListNotations.
Local Open Scope R_scope.

(** a uniform grid: n points from x0 with spacing dx *)
Record uni := mkuni { u_n : nat; u_x0 : R; u_dx : R }.
Definition point (u : uni) (j : Z) : R := u_x0 u + IZR j * u_dx u.
Definition grid_of (u : uni) : list R := map (fun i => point u (Z.of_nat i)) (seq 0 (u_n u)).
(** the nodes are half a spacing off *)
Definition node_of (u : uni) : list R := map (fun i => point u (Z.of_nat i) - u_dx u / 2) (seq 0 (S (u_n u))).
Definition proper (u : uni) : Prop := (2 <= u_n u)%nat /\ 0 < u_dx u.
Definition axis_is (ax : raxis) (u : uni) : Prop := ra_grid ax = grid_of u /\ ra_node ax = node_of u /\ proper u.
(** the conjugate grid: spacing 2 pi / (n dx); it starts at the remembered origin, or else such
    that 0 is the point number n/2 *)
Definition dual (o : option R) (u : uni) : uni :=
  let dk := 2 * PI / (INR (u_n u) * u_dx u) in
  mkuni (u_n u) (match o with Some x => x | None => - (INR (u_n u / 2) * dk) end) dk.

Definition ndim (f : rfield) : nat := length (a_shape (rf_data f)).
Record consistent (f : rfield) : Prop := mkcons {
  c_axes : length (rf_axes f) = ndim f;
  c_ats : length (rf_ats f) = ndim f;
  c_tao : length (rf_tao f) = ndim f;
  c_dims : (ndim f <= 3)%nat }.
(** the given dimensions exist and have uniform axes U *)
Definition on_grid (f : rfield) (axes : list nat) (U : nat -> uni) : Prop :=
  forall a, In a axes -> exists ax, nth_error (rf_axes f) a = Some ax /\ axis_is ax (U a) /\ nth_error (a_shape (rf_data f)) a = Some (Z.of_nat (u_n (U a))).
(** they are all in the frequency domain (true) or in the spatial domain (false) *)
Definition in_state (f : rfield) (axes : list nat) (st : bool) : Prop := forall a, In a axes -> nth_error (rf_ats f) a = Some (Some st).
(** the dimensions named, in ascending order *)
Definition named (nd : nat) (axes : list nat) : list nat := filter (fun a => existsb (Nat.eqb a) axes) (seq 0 nd).
Definition is_named (axes : list nat) (a : nat) : bool := existsb (Nat.eqb a) axes.
(** the spline through points on a line is that line *)
Definition linear_spline (spl : rspline) : Prop :=
  forall n a b t, (4 <= n)%nat -> spl (map INR (seq 0 n)) (map (fun i => a + INR i * b) (seq 0 n)) t = a + t * b.

(** the sum over plane waves along one dimension: with k and x on the two grids,
    dx / sqrt(2 pi) * sum over j of exp(i s k x_j) F_j; [ref] is the phase that is left out *)
Definition plane_waves (s : R) (out inp : uni) (ref : R -> R -> R) (a : nat) (F : list Z -> C) (idx : list Z) : C :=
  csum (u_n inp) (fun j =>
    let k := point out (nth a idx 0%Z) in let x := point inp (Z.of_nat j) in
    Cmul (Cmul (RtoC (u_dx inp / sqrt (2 * PI))) (cis (s * (k * x - ref k x)))) (F (upd idx a (Z.of_nat j)))).
(** and along several, one after the other *)
Definition plane_waves_all (s : R) (V U : nat -> uni) (ref : nat -> R -> R -> R) (axes : list nat) (F : list Z -> C) : list Z -> C :=
  fold_right (fun a F => plane_waves s (V a) (U a) (ref a) a F) F axes.
(** the sign of the exponent: forward -, backward +, reversed by the temporal convention *)
Definition sign (temporal st : bool) : R := if Bool.eqb temporal st then -1 else 1.
(** old_behaviour: the phases refer to the origin of the spatial grid *)
Definition left_out (old st : bool) (V U : nat -> uni) (a : nat) (k x : R) : R :=
  if old then (if st then u_x0 (V a) * x else u_x0 (U a) * k) else 0.
(** total of |f|^2 *)
Fixpoint total (sh : list Z) (g : list Z -> R) : R :=
  match sh with
  | [] => g []
  | n :: r => rsum (Z.to_nat n) (fun i => total r (fun idx => g (Z.of_nat i :: idx)))
  end.
Definition volume (U : nat -> uni) (axes : list nat) : R := fold_right Rmult 1 (map (fun a => u_dx (U a)) axes).

(** names and units which come back *)
Definition starts_with (cs : list Ascii.ascii) (s : string) : bool := match s with EmptyString => false | String c _ => existsb (Ascii.eqb c) cs end.
Definition restorable (st : bool) (ax : raxis) : Prop :=
  if st
  then (ra_name ax = "w"%string \/ exists r, ra_name ax = ("k" ++ r)%string /\ starts_with ["k"%char] r = false /\ r <> "t"%string) /\
       (exists r, ra_unit ax = ("1/" ++ r)%string /\ starts_with ["1"%char; "/"%char] r = false)
  else starts_with ["k"%char] (ra_name ax) = false /\ starts_with ["1"%char; "/"%char] (ra_unit ax) = false.
(** the conjugate origin is a whole number of conjugate spacings (so it is when none is remembered) *)
Definition on_lattice (f : rfield) (U : nat -> uni) (a : nat) : Prop :=
  nth a (rf_tao f) None = None \/ exists q : Z, nth a (rf_tao f) None = Some (IZR q * u_dx (dual None (U a))).
(** same data on the same grids, same domain *)
Definition same_field (f g : rfield) : Prop :=
  a_shape (rf_data f) = a_shape (rf_data g) /\ (forall idx, in_shape (a_shape (rf_data f)) idx = true -> a_at (rf_data f) idx = a_at (rf_data g) idx) /\
  map ra_grid (rf_axes f) = map ra_grid (rf_axes g) /\ map ra_node (rf_axes f) = map ra_node (rf_axes g) /\ rf_ats f = rf_ats g.
Definition moved_by (s : R) (u : uni) : uni := mkuni (u_n u) (u_x0 u + s) (u_dx u).
