(** C111: the adaptive propagation. *)
From Coq Require Import Reals Lra.
From Verif Require Import PyBase NdModel AdaptModel AdaptSpec AdaptFacts AdaptDemo.
Local Open Scope R_scope.

(** what is yielded follows each other in steps of the time light needs for half the width of the box,
    the field is propagated by exactly the time between, stays in the domain of the given field, and
    everything starts from the given field at time zero *)
Theorem C111_clock {S} (ops : adapt_ops S) c field_in axis k t_final zeroth n l st s0 : well_behaved ops -> in_space ops field_in s0 -> names_axis (length (op_box ops s0)) axis k ->
  adaptive ops c field_in axis t_final zeroth n = (l, st) ->
  (forall i t1 f1 t2 f2, nth_error (history zeroth field_in l) i = Some (t1, f1) -> nth_error (history zeroth field_in l) (Datatypes.S i) = Some (t2, f2) -> advances ops c k (middle (op_box ops s0) k) t1 f1 t2 f2) /\
  (forall y, In y l -> op_state ops (snd y) = op_state ops field_in) /\
  (forall y, nth_error (history zeroth field_in l) 0 = Some y -> y = (0, field_in)).
Proof. exact (clock_law ops c field_in axis k t_final zeroth n l st s0). Qed.
Print Assumptions C111_clock.
Example C111_clock_case : well_behaved demo_ops /\ in_space demo_ops demo_field demo_field /\ names_axis (length (op_box demo_ops demo_field)) (-2) 0 /\
  adaptive demo_ops 1 demo_field (-2) None true 2 = ([(0, demo_field); (1, demo_field)], More).
Proof. exact (conj demo_well (conj eq_refl (conj demo_axis demo_run))). Qed.

(** partial: a final time of zero is taken for none *)
Theorem C111_stop_partial {S} (ops : adapt_ops S) c field_in axis t_final zeroth n l st : adaptive ops c field_in axis t_final zeroth n = (l, st) ->
  (st = Finished -> exists l0 y f, l = l0 ++ [y] /\ t_final = Some f /\ f < fst y /\ forall y', In y' l0 -> fst y' <= f) /\
  (st <> Finished -> forall y f, In y l -> t_final = Some f -> f <> 0 -> fst y <= f) /\ (st = More -> length l = n) /\ (length l <= n)%nat.
Proof. exact (stop_law ops c field_in axis t_final zeroth n l st). Qed.
Print Assumptions C111_stop_partial.
Example C111_stop_case : adaptive demo_ops 1 demo_field 0 (Some (1 / 2)) false 5 = ([(1, demo_field)], Finished).
Proof. exact demo_stop. Qed.

Theorem C111_terminates {S} (ops : adapt_ops S) c field_in axis k t_final zeroth n s0 width : well_behaved ops -> in_space ops field_in s0 -> names_axis (length (op_box ops s0)) axis k -> 0 < c -> 0 < width -> 0 < t_final ->
  (forall s r, op_reduce ops s = Ok r -> width <= across (op_box ops r) k) -> 2 + t_final * (2 * c) / width < INR n ->
  snd (adaptive ops c field_in axis (Some t_final) zeroth n) <> More.
Proof. exact (terminates_law ops c field_in axis k t_final zeroth n s0 width). Qed.
Print Assumptions C111_terminates.
Example C111_terminates_case : well_behaved fixed_ops /\ in_space fixed_ops true false /\ names_axis (length (op_box fixed_ops false)) 0 0 /\ (forall s r, op_reduce fixed_ops s = Ok r -> 2 <= across (op_box fixed_ops r) 0) /\ 2 + 3 * (2 * 1) / 2 < INR 6.
Proof. exact fixed_case. Qed.

Theorem C111_prefix {S} (ops : adapt_ops S) c field_in axis t_final zeroth n m : (n <= m)%nat -> fst (adaptive ops c field_in axis t_final zeroth n) = firstn n (fst (adaptive ops c field_in axis t_final zeroth m)).
Proof. exact (prefix_law ops c field_in axis t_final zeroth n m). Qed.
Print Assumptions C111_prefix.
Example C111_prefix_case : fst (adaptive demo_ops 1 demo_field (-2) None true 1) = [(0, demo_field)] /\ fst (adaptive demo_ops 1 demo_field (-2) None true 2) = [(0, demo_field); (1, demo_field)].
Proof. exact demo_prefix. Qed.

(** a final time of zero does not stop the propagation, whatever was propagated *)
Theorem C111_zero_refuted {S} (ops : adapt_ops S) c field_in axis zeroth n : snd (adaptive ops c field_in axis (Some 0) zeroth n) <> Finished.
Proof. exact (never_stops ops c field_in axis (Some 0) zeroth n (or_intror eq_refl)). Qed.
Print Assumptions C111_zero_refuted.
Example C111_zero_case : exists t, 0 < t /\ adaptive demo_ops 1 demo_field (-2) (Some 0) true 2 = ([(0, demo_field); (t, demo_field)], More).
Proof. exact demo_zero. Qed.

(** a field with one axis has no width: the first step raises *)
Theorem C111_one_axis_refuted {S} (ops : adapt_ops S) c field_in t_final n s0 r e e' : in_space ops field_in s0 -> op_box ops s0 = [e] -> op_reduce ops s0 = Ok r -> op_box ops r = [e'] ->
  adaptive ops c field_in 0 t_final false (Datatypes.S n) = ([], Raised ValueError).
Proof. exact (one_axis ops c field_in t_final n s0 r e e'). Qed.
Print Assumptions C111_one_axis_refuted.
Example C111_one_axis_case : in_space demo_ops (false, [(0, 1)]) (false, [(0, 1)]) /\ op_box demo_ops (false, [(0, 1)]) = [(0, 1)] /\ op_reduce demo_ops (false, [(0, 1)]) = Ok (false, [(0, 1)]).
Proof. repeat split. Qed.

(** axes in different domains are refused, at the first step and not at the call *)
Theorem C111_mixed {S} (ops : adapt_ops S) c field_in axis t_final zeroth : op_state ops field_in = None ->
  adaptive ops c field_in axis t_final zeroth 0 = ([], More) /\ forall n, adaptive ops c field_in axis t_final zeroth (Datatypes.S n) = ([], Raised ValueError).
Proof. exact (fun H => conj eq_refl (fun n => mixed ops c field_in axis t_final zeroth n H)). Qed.
Print Assumptions C111_mixed.
Example C111_mixed_case : op_state mixed_ops demo_field = None.
Proof. reflexivity. Qed.
