(** Specification of unstagger_fields (C87). *)
From Coq Require Import Reals List ZArith.
From Verif Require Import PyBase NumpyModel NdModel CplxModel FftModel FftSpec FftWaveSpec UnstagModel.
Import ListNotations.
Local Open Scope R_scope.

(** a field of [n] dimensions with uniform axes in all of them, all in one domain *)
Definition staggered (sh : list Z) (f : sfield) (U : nat -> uni) (st : bool) : Prop :=
  consistent (sf_field f) /\ a_shape (rf_data (sf_field f)) = sh /\ on_grid (sf_field f) (seq 0 (length sh)) U /\ in_state (sf_field f) (seq 0 (length sh)) st.
(** the positions agree up to 1e-8 and 1e-5 of their size *)
Definition near (n : nat) (o : nat -> R) (U : nat -> uni) : Prop := forall a, (a < n)%nat -> Rabs (o a - u_x0 (U a)) <= / 100000000 + / 100000 * Rabs (u_x0 (U a)).
Definition within_two (n : nat) (o : nat -> R) (U : nat -> uni) : Prop := forall a, (a < n)%nat -> Rabs (o a - u_x0 (U a)) <= 2 * u_dx (U a).
(** m is a median of the numbers: at least half of them are on each side *)
Definition count (p : R -> bool) (l : list R) : nat := length (filter p l).
Definition is_median (m : R) (l : list R) : Prop := (length l <= 2 * count (fun x => Rleb x m) l)%nat /\ (length l <= 2 * count (fun x => Rleb m x) l)%nat.
(** m is in the middle between the smallest and the largest median *)
Definition middle (m : R) (l : list R) : Prop := exists x y, m = (x + y) / 2 /\ forall z, is_median z l <-> x <= z <= y.
(** the values of a field whose matrix is real are the real parts *)
Definition keep_real (b : bool) (z : C) : C := if b then RtoC (fst z) else z.
(** what becomes of one field when the fields are brought to the origin [o] *)
Definition grid_at (o : nat -> R) (U : nat -> uni) (a : nat) : uni := mkuni (u_n (U a)) (o a) (u_dx (U a)).
Definition unstaggered (sh : list Z) (o : nat -> R) (f : sfield) (U : nat -> uni) (st : bool) (g : sfield) : Prop :=
  (near (length sh) o U -> g = f) /\
  (~ near (length sh) o U ->
     sf_real g = sf_real f /\ a_shape (rf_data (sf_field g)) = sh /\ rf_ats (sf_field g) = rf_ats (sf_field f) /\
     on_grid (sf_field g) (seq 0 (length sh)) (grid_at o U) /\
     forall ws, Forall (proper_wave U (seq 0 (length sh))) ws ->
       (forall idx, in_shape sh idx = true -> a_at (rf_data (sf_field f)) idx = waves (- sign false st) U (frequencies (sf_field f) U) (seq 0 (length sh)) ws idx) ->
       forall idx, in_shape sh idx = true -> a_at (rf_data (sf_field g)) idx = keep_real (sf_real f) (waves (- sign false st) (grid_at o U) (frequencies (sf_field f) U) (seq 0 (length sh)) ws idx)).
Record entry := mkentry { e_field : sfield; e_grid : nat -> uni; e_state : bool }.
(** fields of one shape with equal spacings *)
Definition comparable (sh : list Z) (es : list entry) : Prop :=
  (1 <= length sh)%nat /\ es <> [] /\ (forall e, In e es -> staggered sh (e_field e) (e_grid e) (e_state e)) /\
  (forall e e' a, In e es -> In e' es -> (a < length sh)%nat -> u_dx (e_grid e a) = u_dx (e_grid e' a)).
