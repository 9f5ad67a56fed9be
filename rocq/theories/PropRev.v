(** More theorems about reversing axes, proper or not: C07. *)
From Coq Require Import Lia Lqa.
From Verif Require Import PyBase PyBaseFacts NumpyModel NumpyFacts AxisModel AxisSpec AxisRevFacts.
Local Open Scope Q_scope.

(** Whenever reversed() returns, points and nodes are in opposite order, the extent goes from the last
    node to the first, name and unit are kept. *)
Theorem C07_returned : forall spl ax r, axis_reversed spl ax = Ok r ->
  ax_grid r = rev (ax_grid ax) /\ ax_node r = rev (ax_node ax) /\ ax_name r = ax_name ax /\ ax_unit r = ax_unit ax /\ ax_n r = Z.of_nat (length (ax_grid ax)) /\
  fst (ax_extent r) = last (ax_node ax) 0 /\ snd (ax_extent r) = hd 0 (ax_node ax).
Proof. exact reversed_any. Qed.
Print Assumptions C07_returned.
Theorem C07_twice_returned : forall spl ax r rr, axis_reversed spl ax = Ok r -> axis_reversed spl r = Ok rr ->
  ax_grid rr = ax_grid ax /\ ax_node rr = ax_node ax /\ ax_name rr = ax_name ax /\ ax_unit rr = ax_unit ax.
Proof. exact reversed_twice_any. Qed.
Print Assumptions C07_twice_returned.
(** Axes with ascending nodes which the constructor accepts are accepted when reversed, also if points
    are outside of their cells. *)
Theorem C07_ascending : forall spl name unit gn g ax, length gn = S (length g) -> sincr gn -> mk_axis spl name unit (Some gn) (Some g) None None = Ok ax ->
  exists r, axis_reversed spl ax = Ok r.
Proof. exact ascending_reversed. Qed.
Print Assumptions C07_ascending.
(** With descending nodes they need not be. *)
Theorem C07_accepted_refuted : exists ax, mk_axis chord_spline "" "" (Some [3; 2; 1]) (Some [5 # 2; 1 # 2]) None None = Ok ax /\ axis_reversed chord_spline ax = Err ValueError.
Proof. exact descending_refused. Qed.
Print Assumptions C07_accepted_refuted.
(** the second point is outside of its cell *)
Example C07_ascending_case : exists ax r rr, length [1; 2; 3] = S (length [3 # 2; 5]) /\ sincr [1; 2; 3] /\ mk_axis chord_spline "x" "m" (Some [1; 2; 3]) (Some [3 # 2; 5]) None None = Ok ax /\
  axis_reversed chord_spline ax = Ok r /\ axis_reversed chord_spline r = Ok rr /\ ax_grid r = [5; 3 # 2].
Proof.
  do 3 eexists. split; [reflexivity|]. split; [apply monotonicity_1; reflexivity|]. split; [reflexivity|]. split; [reflexivity|]. split; reflexivity.
Qed.
