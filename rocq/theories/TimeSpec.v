(** Specification of the time profile at a plane (C92). *)
From Coq Require Import Reals String List ZArith.
From Verif Require Import PyBase NumpyModel NdModel CplxModel FftModel FftSpec KspaceModel KspaceSpec.
Import ListNotations.
Local Open Scope R_scope.

(** the wave at the position v along dimension b and the time tau after the one of the field: the
    sum over its modes, every one of which has turned by the angle - w tau; u is the grid of the
    wave numbers along b, in the other dimensions the modes are kept *)
Definition passing (c : R) (f : rfield) (b : nat) (u : uni) (v tau : R) (idx : list Z) : C :=
  csum (u_n u) (fun m => let j := upd idx b (Z.of_nat m) in
    Cmul (Cmul (RtoC (u_dx u / sqrt (2 * PI))) (cis (point u (Z.of_nat m) * v - frequency c (rf_axes f) j * tau))) (a_at (rf_data f) j)).
(** the wave goes along dimension b, to the right or to the left *)
Definition direction (nd b : nat) (dir : R) : list R := map (fun a => if Nat.eqb a b then dir else 0) (seq 0 nd).
(** without the modes against it, unless they are to be kept *)
Definition going (nd b : nat) (dir : R) (remove : option bool) (f : rfield) : rfield :=
  match remove with Some false => f | _ => only_along (direction nd b dir) f end.
(** the plane: the one asked for, or else the end of the grid x, one spacing after the last point
    for waves to the right *)
Definition end_plane (dir : R) (x : uni) : R := if Rlt_dec 0 dir then u_x0 x + INR (u_n x) * u_dx x else u_x0 x.
Definition plane_of (value : option R) (dir : R) (x : uni) : R := match value with Some v => v | None => end_plane dir x end.
(** the times: as many as points, such that the light takes one of them per point; the first one
    is when what is at the end of the grid reaches the plane *)
Definition times (c : R) (dir v t_input : R) (x : uni) : uni := mkuni (u_n x) (t_input + dir * (v - end_plane dir x) / c) (u_dx x / c).
(** the origins of all dimensions in space are remembered *)
Definition remembered (f : rfield) : Prop := forall a, (a < ndim f)%nat -> exists x, nth_error (rf_tao f) a = Some (Some x).
(** the profile: time instead of dimension b *)
Record profile (c : R) (f : rfield) (b : nat) (u x : uni) (v dir t_input : R) (remove : option bool) (phase : R) (r : rfield) : Prop := mkprof {
  pr_shape : a_shape (rf_data r) = a_shape (rf_data f);
  pr_axes : rf_axes r = upd (rf_axes f) b (mkra "t" "s" (grid_of (times c dir v t_input x)) (node_of (times c dir v t_input x)));
  pr_state : rf_ats r = upd (rf_ats f) b (Some false);
  pr_origins : rf_tao r = upd (rf_tao f) b None;
  pr_data : forall idx, in_shape (a_shape (rf_data f)) idx = true ->
    a_at (rf_data r) idx = Cmul (cis phase) (passing c (going (ndim f) b dir remove f) b u v (point (times c dir v t_input x) (nth b idx 0%Z) - t_input) idx) }.
(** the dimensions other than b *)
Definition other_dims (nd b : nat) : list nat := filter (fun a => negb (Nat.eqb a b)) (seq 0 nd).
