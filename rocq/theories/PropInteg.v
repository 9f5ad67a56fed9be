(** C105: integrals with the methods of scipy.  C106: derivatives on the grid.  C107: setting the extent.
    C108: making all axes ascend. *)
From Coq Require Import Lia Lqa Permutation.
From Verif Require Import PyBase PyBaseFacts QSum NumpyModel NumpyFacts AxisModel AxisSpec AxisFacts AxisInterpFacts NdModel NdFacts
  FieldModel FieldSpec FieldRearrFacts FieldReduceFacts FieldIntFacts IntegModel IntegSpec IntegLines IntegFacts IntegLaws.

(** Concrete fields: x has the grid 0, 1, 3, y the grid 0, 1, 2, 3; z goes down; entry (i, j) is 10 i + j * j. *)
Definition calc_x : axis := mkAxis "x" "m" [- (1 # 2); 1 # 2; 2; 4] [0; 1; 3] (- (1 # 2), 4) 3.
Definition calc_y : axis := mkAxis "y" "m" [- (1 # 2); 1 # 2; 3 # 2; 5 # 2; 7 # 2] [0; 1; 2; 3] (- (1 # 2), 7 # 2) 4.
Definition calc_one (n : Z) : axis := mkAxis "o" "" (map inject_Z (zrange (n + 1))) (map (fun i => inject_Z i + (1 # 2)) (zrange n)) (0, inject_Z n) n.
Definition calc_of (shape : list Z) (axes : list axis) (at_ : list Z -> Q) : field Q :=
  mkField (mkarr shape at_) (mkLayer axes (map (fun _ => Some false) axes) (map (fun _ => None) axes) "E" "V/m") [].
Definition calc_field : field Q := calc_of [3; 4]%Z [calc_x; calc_y] (fun idx => inject_Z (10 * nth 0 idx 0 + nth 1 idx 0 * nth 1 idx 0)%Z).
Definition calc_line (grid ys : list Q) : field Q :=
  let n := Z.of_nat (length grid) in
  calc_of [n] [mkAxis "x" "" (map (fun i => inject_Z i - (1 # 2)) (zrange (n + 1))) grid (- (1 # 2), inject_Z n - (1 # 2)) n] (fun idx => nth (Z.to_nat (nth 0 idx 0%Z)) ys 0).
Definition numbers (r : res (field Q)) : option (list Z * list Q) :=
  match r with
  | Ok f => Some (f_shape f, map (fun i => Qred (a_at (f_data f) i)) (all_idx (f_shape f)))
  | Err _ => None
  end.
Example calc_field_ok : consistent calc_field /\ Forall axis_counted (f_axes calc_field) /\ nonempty (f_shape calc_field).
Proof.
  split; [|split].
  - split; [reflexivity|]. split; [|split; reflexivity]. intros [|[|[|k]]] ax n Hax Hn; try discriminate; injection Hax as <-; injection Hn as <-; reflexivity.
  - repeat constructor.
  - apply Forall_forall. intros n [<-|[<-|[]]]; lia.
Qed.
Example calc_x_up : goes_up calc_x /\ evenly 1 calc_y /\ goes_up calc_y.
Proof.
  split; [|split]; intros i H0 H1; cbn in H1; assert (H : (i = 0 \/ i = 1 \/ i = 2)%Z) by lia; destruct H as [->|[->| ->]]; try (vm_compute; reflexivity); exfalso; lia.
Qed.

(** ** C105 *)
(** The dimensions asked for go, the others stay, and every value is the sum of the samples over the cells
    asked for, weighted by the product of one share per dimension, which depends on the grid only. *)
Theorem C105_sum_partial : forall spl m f axes p, consistent f -> Forall axis_counted (f_axes f) -> nonempty (f_shape f) -> NoDup axes ->
  requested (length (f_shape f)) axes p ->
  exists g, integrate spl f (TheAxes axes) (MLines m) = Ok g /\ remains f p g /\
    forall idx, in_shape (f_shape g) idx = true -> is_line_integral m f p idx (a_at (f_data g) idx).
Proof. exact (fun _ => scipy_total). Qed.
Print Assumptions C105_sum_partial.
Example C105_sum_case : requested 2 [1; 0]%Z [0; 1]%nat /\ NoDup [1; 0]%Z /\
  numbers (integrate chord_spline calc_field (TheAxes [1; 0]%Z) (MLines MSimpson)) = Some ([], [279 # 2]) /\
  numbers (integrate chord_spline calc_field (TheAxes [1]%Z) (MLines MSimpson)) = Some ([3]%Z, [9; 39; 69]) /\
  numbers (integrate chord_spline calc_field (TheAxes [1]%Z) (MLines MTrapezoid)) = Some ([3]%Z, [19 # 2; 79 # 2; 139 # 2]).
Proof.
  split.
  { split; [repeat constructor; cbn; intuition lia|]. split; [|cbn; intuition lia]. intro k. cbn [In]. lia. }
  split; [repeat constructor; cbn; intuition lia|]. vm_compute. repeat split; reflexivity.
Qed.
(** Along one dimension the trapezoids between neighbouring samples are added. *)
Theorem C105_trapezoid : forall spl f k, consistent f -> Forall axis_counted (f_axes f) -> nonempty (f_shape f) -> (k < length (f_shape f))%nat ->
  exists g, integrate spl f (OneAxis (Z.of_nat k)) (MLines MTrapezoid) = Ok g /\ remains f [k] g /\
    forall idx, in_shape (f_shape f) idx = true ->
      a_at (f_data g) (entries_at 0%Z idx (others (length (f_shape f)) [k])) == trapezoids f k idx.
Proof. exact (fun _ => trapezoid_pieces). Qed.
Print Assumptions C105_trapezoid.
(** With simpson, the areas below parabolas through samples 0, 1, 2, then 2, 3, 4, ...; if one interval is left, it
    is the area below the parabola through the last three samples; two samples make one trapezoid. *)
Theorem C105_simpson : forall spl f k m, consistent f -> Forall axis_counted (f_axes f) -> nonempty (f_shape f) -> (k < length (f_shape f))%nat ->
  goes_up (nth k (f_axes f) axis0) \/ goes_down (nth k (f_axes f) axis0) ->
  exists g, integrate spl f (OneAxis (Z.of_nat k)) (MLines MSimpson) = Ok g /\ remains f [k] g /\
    forall idx q, in_shape (f_shape f) idx = true -> (forall i, (i < m)%nat -> through f k idx (q i) (2 * Z.of_nat i)) ->
      let v := a_at (f_data g) (entries_at 0%Z idx (others (length (f_shape f)) [k])) in
      let ax := nth k (f_axes f) axis0 in
      ((nth k (f_shape f) 0 = 2 * Z.of_nat m + 1)%Z -> v == parabolas ax q m) /\
      ((nth k (f_shape f) 0 = 2 * Z.of_nat m + 2)%Z -> (1 <= m)%nat -> through f k idx (q m) (2 * Z.of_nat m - 1) ->
         v == parabolas ax q m + below (q m) (point ax (2 * Z.of_nat m)) (point ax (2 * Z.of_nat m + 1))) /\
      ((nth k (f_shape f) 0 = 2)%Z -> v == trapezoids f k idx).
Proof. exact (fun _ => simpson_parabolas). Qed.
Print Assumptions C105_simpson.
Example C105_simpson_case : let q := fun _ : nat => (1, 0, 20) : parabola in
  through calc_field 1 [2; 0]%Z (q 0%nat) 0 /\ through calc_field 1 [2; 0]%Z (q 1%nat) 1 /\
  parabolas calc_y q 1 + below (q 1%nat) (point calc_y 2) (point calc_y 3) == 69.
Proof.
  cbv zeta. split; [|split]; [intros j Hj; assert (H : (j = 0 \/ j = 1 \/ j = 2)%Z) by lia; destruct H as [->|[->| ->]]; vm_compute; reflexivity| |vm_compute; reflexivity].
  intros j Hj. assert (H : (j = 1 \/ j = 2 \/ j = 3)%Z) by lia. destruct H as [->|[->| ->]]; vm_compute; reflexivity.
Qed.
(** Polynomials of degree two (one, for trapezoids or two samples) are integrated exactly, from the first to the
    last grid point. *)
Theorem C105_exact_partial : forall spl m f k a b c, consistent f -> Forall axis_counted (f_axes f) -> nonempty (f_shape f) -> (k < length (f_shape f))%nat ->
  goes_up (nth k (f_axes f) axis0) \/ goes_down (nth k (f_axes f) axis0) ->
  quadratic_along f k a b c -> (forall o, m = MTrapezoid \/ (nth k (f_shape f) 0 = 2)%Z -> a o == 0) ->
  exists g, integrate spl f (OneAxis (Z.of_nat k)) (MLines m) = Ok g /\ remains f [k] g /\
    forall idx, in_shape (f_shape g) idx = true ->
      a_at (f_data g) idx == quadratic_area (a idx) (b idx) (c idx) (point (nth k (f_axes f) axis0) (nth k (f_shape f) 0 - 1)%Z)
                             - quadratic_area (a idx) (b idx) (c idx) (point (nth k (f_axes f) axis0) 0%Z).
Proof. exact (fun _ => exact_along). Qed.
Print Assumptions C105_exact_partial.
Example C105_exact_case : quadratic_along calc_field 1 (fun _ => 1) (fun _ => 0) (fun o => inject_Z (10 * nth 0 o 0)%Z).
Proof.
  intros idx H. apply FieldReduceFacts.all_idx_In in H. cbn in H. repeat (destruct H as [<-|H]; [vm_compute; reflexivity|]). destruct H.
Qed.
(** A constant is multiplied with the distances from the first to the last grid point. *)
Theorem C105_constant_partial : forall spl m f axes p c, consistent f -> Forall axis_counted (f_axes f) -> nonempty (f_shape f) -> NoDup axes ->
  requested (length (f_shape f)) axes p ->
  (forall k, In k p -> goes_up (nth k (f_axes f) axis0) \/ goes_down (nth k (f_axes f) axis0)) ->
  (forall idx, in_shape (f_shape f) idx = true -> a_at (f_data f) idx == c) ->
  exists g, integrate spl f (TheAxes axes) (MLines m) = Ok g /\ remains f p g /\ forall idx, in_shape (f_shape g) idx = true ->
    a_at (f_data g) idx == c * fold_right Qmult 1 (map (fun k => point (nth k (f_axes f) axis0) (nth k (f_shape f) 0 - 1)%Z
                                                              - point (nth k (f_axes f) axis0) 0%Z) p).
Proof. exact (fun _ => scipy_constant). Qed.
Print Assumptions C105_constant_partial.
(** Full statement: a constant is multiplied with the extent, like method='constant' does.  False: half a cell is
    missing at each end; of a single cell nothing is left. *)
Theorem C105_constant_refuted : exists spl (f h : field Q),
  (forall idx, a_at (f_data f) idx == 1) /\ map (fun ax => (Qred (fst (ax_extent ax)), Qred (snd (ax_extent ax)))) (f_axes f) = [(0, 4)] /\
  numbers (integrate spl f AllAxes (MLines MSimpson)) = Some ([], [3]) /\ numbers (integrate spl f AllAxes MFast) = Some ([], [4]) /\
  (forall idx, a_at (f_data h) idx == 1) /\ map (fun ax => (Qred (fst (ax_extent ax)), Qred (snd (ax_extent ax)))) (f_axes h) = [(0, 1)] /\
  numbers (integrate spl h AllAxes (MLines MSimpson)) = Some ([], [0]) /\ numbers (integrate spl h AllAxes MFast) = Some ([], [1]).
Proof. exists chord_spline, (calc_of [4]%Z [calc_one 4] (fun _ => 1)), (calc_of [1]%Z [calc_one 1] (fun _ => 1)). repeat split; vm_compute; reflexivity. Qed.
Print Assumptions C105_constant_refuted.
(** Data which is nowhere negative has no negative integral: for trapezoids on ascending grids, for simpson on
    evenly spaced ascending grids. *)
Theorem C105_sign_partial : forall spl m f axes p, consistent f -> Forall axis_counted (f_axes f) -> nonempty (f_shape f) -> NoDup axes ->
  requested (length (f_shape f)) axes p -> (forall k, In k p -> sign_free m (nth k (f_axes f) axis0)) ->
  (forall idx, in_shape (f_shape f) idx = true -> 0 <= a_at (f_data f) idx) ->
  exists g, integrate spl f (TheAxes axes) (MLines m) = Ok g /\ forall idx, in_shape (f_shape g) idx = true -> 0 <= a_at (f_data g) idx.
Proof. exact (fun _ => scipy_nonneg). Qed.
Print Assumptions C105_sign_partial.
(** Full statement: so it is on every ascending grid.  False for the default method. *)
Theorem C105_sign_refuted : exists spl (f : field Q), Forall goes_up (f_axes f) /\ (forall idx, 0 <= a_at (f_data f) idx) /\
  exists g, integrate spl f AllAxes (MLines MSimpson) = Ok g /\ a_at (f_data g) [] < 0.
Proof.
  exists chord_spline, (calc_line [0; 1; 4] [1; 0; 0]). split; [|split].
  - constructor; [|constructor]. intros i H0 H1. cbn in H1. assert (H : (i = 0 \/ i = 1)%Z) by lia. destruct H as [->| ->]; vm_compute; reflexivity.
  - intro idx. cbn [f_data calc_line calc_of a_at]. destruct (Z.to_nat (nth 0 idx 0%Z)) as [|[|[|[|n]]]]; cbn; lra.
  - eexists. split; [vm_compute; reflexivity|]. vm_compute. reflexivity.
Qed.
Print Assumptions C105_sign_refuted.
(** The order in which the dimensions are given does not matter, ... *)
Theorem C105_order : forall spl m f axes axes', Permutation axes axes' ->
  integrate spl f (TheAxes axes) (MLines m) = integrate spl f (TheAxes axes') (MLines m).
Proof. exact (fun _ => scipy_order). Qed.
Print Assumptions C105_order.
(** ... and neither does it matter whether they are integrated in one go or one after the other. *)
Theorem C105_steps_partial : forall spl m f a1 p a2 q a3 r, consistent f -> Forall axis_counted (f_axes f) -> nonempty (f_shape f) ->
  NoDup a1 -> NoDup a2 -> NoDup a3 ->
  requested (length (f_shape f)) a1 p -> requested (length (others (length (f_shape f)) p)) a2 q ->
  requested (length (f_shape f)) a3 r ->
  Permutation r (p ++ map (fun k => nth k (others (length (f_shape f)) p) 0%nat) q) ->
  exists g h h', integrate spl f (TheAxes a1) (MLines m) = Ok g /\ integrate spl g (TheAxes a2) (MLines m) = Ok h /\
    integrate spl f (TheAxes a3) (MLines m) = Ok h' /\ f_shape h = f_shape h' /\ f_top h = f_top h' /\
    forall idx, in_shape (f_shape h) idx = true -> a_at (f_data h) idx == a_at (f_data h') idx.
Proof. exact (fun _ => scipy_steps). Qed.
Print Assumptions C105_steps_partial.
(** No dimensions given: all of them. *)
Theorem C105_all : forall spl m f, integrate spl f AllAxes m = integrate spl f (TheAxes (zrange (dims (f_shape f)))) m.
Proof. reflexivity. Qed.
Print Assumptions C105_all.
(** Full statement: every list of dimensions means what numpy means by it.  False: a repeated dimension
    integrates a further one, negative numbers are counted after some dimensions are gone. *)
Theorem C105_axes_refuted : exists spl (f : field Q) n s,
  numbers (integrate spl f AllAxes (MLines MTrapezoid)) = Some ([], [n]) /\
  numbers (integrate spl f (TheAxes [0; 0]%Z) (MLines MTrapezoid)) = Some ([], [n]) /\
  rmap f_axes (integrate spl s (TheAxes [-2; -1]%Z) (MLines MTrapezoid)) <> rmap f_axes (integrate spl s (TheAxes [1; 2]%Z) (MLines MTrapezoid)) /\
  dims (f_shape s) = 3%Z.
Proof.
  exists chord_spline, calc_field, (267 # 2), (calc_of [3; 4; 2]%Z [calc_x; calc_y; calc_one 2] (fun _ => 1)).
  split; [vm_compute; reflexivity|]. split; [vm_compute; reflexivity|]. split; [vm_compute; discriminate|reflexivity].
Qed.
Print Assumptions C105_axes_refuted.
(** The method 'fast' is the sum of the cells of C14, for any number of dimensions. *)
Theorem C105_fast : forall spl f axes p, consistent f -> Forall axis_noded (f_axes f) -> nonempty (f_shape f) -> requested (length (f_shape f)) axes p ->
  exists g, integrate spl f (TheAxes axes) MFast = Ok g /\ remains f p g /\ forall idx, in_shape (f_shape g) idx = true -> is_integral f p idx (a_at (f_data g) idx).
Proof. exact (fun _ => integrate_fast_total). Qed.
Print Assumptions C105_fast.
Example C105_fast_case :
  let f := calc_of [3; 4; 2; 2]%Z [calc_x; calc_y; calc_one 2; calc_one 2] (fun _ => 1) in
  Forall axis_noded (f_axes f) /\ nonempty (f_shape f) /\
  match integrate chord_spline f (TheAxes [0; 1; 2; 3]%Z) MFast with Ok g => a_at (f_data g) [] == 72 | Err _ => False end /\
  match integrate chord_spline f (OneAxis 1%Z) MFast with Ok g => f_shape g = [3; 2; 2]%Z /\ a_at (f_data g) [0; 0; 0]%Z == 4 | Err _ => False end.
Proof. vm_compute. repeat split; repeat constructor. Qed.
(** A method which is neither known nor a function raises ValueError. *)
Theorem C105_unknown : forall spl f axes, integrate spl f axes MUnknown = Err ValueError.
Proof. reflexivity. Qed.
Print Assumptions C105_unknown.

(** ** C106 *)
(** The derivative has the shape, the axes and the unit of the field and its name with a mark.  At the ends it is the
    difference quotient of the two outer samples, elsewhere a mean of the difference quotients on both sides, in which
    the shorter interval counts more. *)
Theorem C106_values_partial : forall spl f k, consistent f -> Forall axis_counted (f_axes f) -> (k < length (f_shape f))%nat -> (2 <= nth k (f_shape f) 0)%Z ->
  goes_up (nth k (f_axes f) axis0) \/ goes_down (nth k (f_axes f) axis0) ->
  exists g, derivative spl f (Z.of_nat k) false = Ok g /\ marked f g /\ consistent g /\ f_inner g = [] /\
    forall idx, in_shape (f_shape f) idx = true ->
      let i := nth k idx 0%Z in let n := nth k (f_shape f) 0%Z in let ax := nth k (f_axes f) axis0 in
      (i = 0%Z -> a_at (f_data g) idx == quotient f k idx 0) /\
      (i = (n - 1)%Z -> a_at (f_data g) idx == quotient f k idx (n - 2)) /\
      ((0 < i < n - 1)%Z -> exists t, 0 < t /\ t < 1 /\ t == (point ax (i + 1) - point ax i) / (point ax (i + 1) - point ax (i - 1)) /\
         a_at (f_data g) idx == t * quotient f k idx (i - 1) + (1 - t) * quotient f k idx i).
Proof. exact (fun _ => derivative_values). Qed.
Print Assumptions C106_values_partial.
Example C106_values_case : numbers (derivative chord_spline calc_field 1 false) = Some ([3; 4]%Z, [1; 2; 4; 5; 1; 2; 4; 5; 1; 2; 4; 5]) /\
  numbers (derivative chord_spline calc_field 0 false) = Some ([3; 4]%Z, [10; 10; 10; 10; 25 # 3; 25 # 3; 25 # 3; 25 # 3; 5; 5; 5; 5]).
Proof. vm_compute. split; reflexivity. Qed.
(** Exact for polynomials of degree two, and of degree one also at the ends. *)
Theorem C106_exact_partial : forall spl f k a b c, consistent f -> Forall axis_counted (f_axes f) -> (k < length (f_shape f))%nat -> (2 <= nth k (f_shape f) 0)%Z ->
  goes_up (nth k (f_axes f) axis0) \/ goes_down (nth k (f_axes f) axis0) -> quadratic_along f k a b c ->
  exists g, derivative spl f (Z.of_nat k) false = Ok g /\
    forall idx, in_shape (f_shape f) idx = true ->
      let o := entries_at 0%Z idx (others (length (f_shape f)) [k]) in let i := nth k idx 0%Z in
      (a o == 0 \/ (0 < i < nth k (f_shape f) 0 - 1)%Z) ->
      a_at (f_data g) idx == 2 * a o * point (nth k (f_axes f) axis0) i + b o.
Proof. exact (fun _ => derivative_exact). Qed.
Print Assumptions C106_exact_partial.
(** Full statement: also of degree two at the ends.  False, although the samples would suffice. *)
Theorem C106_exact_refuted : exists spl (f g : field Q), quadratic_along f 0 (fun _ => 1) (fun _ => 0) (fun _ => 0) /\
  evenly 1 (nth 0 (f_axes f) axis0) /\ f_shape f = [3]%Z /\ derivative spl f 0 false = Ok g /\
  ~ a_at (f_data g) [0%Z] == 2 * 1 * point (nth 0 (f_axes f) axis0) 0 + 0.
Proof.
  exists chord_spline, (calc_line [0; 1; 2] [0; 1; 4]). eexists. split; [|split; [|split; [reflexivity|split; [reflexivity|vm_compute; discriminate]]]].
  - intros idx H. apply FieldReduceFacts.all_idx_In in H. cbn in H. repeat (destruct H as [<-|H]; [vm_compute; reflexivity|]). destruct H.
  - intros i H0 H1. cbn in H1. assert (H : (i = 0 \/ i = 1)%Z) by lia. destruct H as [->| ->]; vm_compute; reflexivity.
Qed.
Print Assumptions C106_exact_refuted.
(** On evenly spaced grids central differences. *)
Theorem C106_central : forall spl f k h, consistent f -> Forall axis_counted (f_axes f) -> (k < length (f_shape f))%nat -> (2 <= nth k (f_shape f) 0)%Z ->
  ~ h == 0 -> evenly h (nth k (f_axes f) axis0) ->
  exists g, derivative spl f (Z.of_nat k) false = Ok g /\
    forall idx, in_shape (f_shape f) idx = true -> (0 < nth k idx 0 < nth k (f_shape f) 0 - 1)%Z ->
      a_at (f_data g) idx == (value_at f k idx (nth k idx 0 + 1)%Z - value_at f k idx (nth k idx 0 - 1)%Z) / (2 * h).
Proof. exact (fun _ => derivative_even). Qed.
Print Assumptions C106_central.
(** The derivative is linear in the data. *)
Theorem C106_linear : forall spl f1 f2 f3 k c g1 g2 g3, consistent f1 -> consistent f2 -> consistent f3 ->
  Forall axis_counted (f_axes f1) -> f_axes f2 = f_axes f1 -> f_axes f3 = f_axes f1 -> (k < length (f_shape f1))%nat -> (2 <= nth k (f_shape f1) 0)%Z ->
  (forall idx, in_shape (f_shape f1) idx = true -> a_at (f_data f3) idx == c * a_at (f_data f1) idx + a_at (f_data f2) idx) ->
  derivative spl f1 (Z.of_nat k) false = Ok g1 -> derivative spl f2 (Z.of_nat k) false = Ok g2 -> derivative spl f3 (Z.of_nat k) false = Ok g3 ->
  forall idx, in_shape (f_shape f1) idx = true -> a_at (f_data g3) idx == c * a_at (f_data g1) idx + a_at (f_data g2) idx.
Proof. exact (fun _ => derivative_linear). Qed.
Print Assumptions C106_linear.
(** The direction in which the samples are listed does not matter. *)
Theorem C106_backwards : forall spl f g k f' g', consistent f -> Forall axis_counted (f_axes f) -> consistent g -> Forall axis_counted (f_axes g) ->
  (k < length (f_shape f))%nat -> (2 <= nth k (f_shape f) 0)%Z ->
  goes_up (nth k (f_axes f) axis0) \/ goes_down (nth k (f_axes f) axis0) -> backwards k f g ->
  derivative spl f (Z.of_nat k) false = Ok f' -> derivative spl g (Z.of_nat k) false = Ok g' ->
  forall idx, in_shape (f_shape f) idx = true ->
    a_at (f_data g') idx == a_at (f_data f') (upd idx k (nth k (f_shape f) 0 - 1 - nth k idx 0)%Z).
Proof. exact (fun _ => derivative_back). Qed.
Print Assumptions C106_backwards.
Example C106_backwards_case : backwards 0 (calc_line [0; 1; 3] [5; 7; 2]) (calc_line [3; 1; 0] [2; 7; 5]) /\
  numbers (derivative chord_spline (calc_line [0; 1; 3] [5; 7; 2]) 0 false) = Some ([3]%Z, [2; 1 # 2; - (5 # 2)]) /\
  numbers (derivative chord_spline (calc_line [3; 1; 0] [2; 7; 5]) 0 false) = Some ([3]%Z, [- (5 # 2); 1 # 2; 2]).
Proof.
  split; [|vm_compute; split; reflexivity]. split; [reflexivity|]. split.
  - intros i Hi. cbn in Hi. assert (H : (i = 0 \/ i = 1 \/ i = 2)%Z) by lia. destruct H as [->|[->| ->]]; reflexivity.
  - intros idx H. apply FieldReduceFacts.all_idx_In in H. cbn in H. repeat (destruct H as [<-|H]; [reflexivity|]). destruct H.
Qed.
(** On evenly spaced grids the trapezoids below the derivative add up to the difference of the last and first sample. *)
Theorem C106_integral_partial : forall spl f k h, consistent f -> Forall axis_counted (f_axes f) -> nonempty (f_shape f) -> (k < length (f_shape f))%nat ->
  (2 <= nth k (f_shape f) 0)%Z -> ~ h == 0 -> evenly h (nth k (f_axes f) axis0) ->
  exists g r, derivative spl f (Z.of_nat k) false = Ok g /\ integrate spl g (OneAxis (Z.of_nat k)) (MLines MTrapezoid) = Ok r /\ remains g [k] r /\
    forall idx, in_shape (f_shape f) idx = true ->
      a_at (f_data r) (entries_at 0%Z idx (others (length (f_shape f)) [k]))
      == a_at (f_data f) (upd idx k (nth k (f_shape f) 0 - 1)%Z) - a_at (f_data f) (upd idx k 0%Z).
Proof. exact (fun _ => integral_of_derivative). Qed.
Print Assumptions C106_integral_partial.
(** Full statement: so it is for the default method and on every grid.  False for both. *)
Definition back_and_forth (m : line_method) (f : field Q) : res (field Q) := let! g := derivative chord_spline f 0 false in integrate chord_spline g AllAxes (MLines m).
Theorem C106_integral_refuted :
  numbers (back_and_forth MSimpson (calc_line [0; 1; 2; 3] [0; 0; 0; 1])) <> Some ([], [1]) /\
  numbers (back_and_forth MTrapezoid (calc_line [0; 1; 2; 3] [0; 0; 0; 1])) = Some ([], [1]) /\
  numbers (back_and_forth MTrapezoid (calc_line [0; 1; 3] [0; 0; 1])) <> Some ([], [1]).
Proof. vm_compute. split; [discriminate|]. split; [reflexivity|discriminate]. Qed.
Print Assumptions C106_integral_refuted.
(** One sample along the dimension: IndexError. *)
Theorem C106_single : forall spl f k, consistent f -> Forall axis_counted (f_axes f) -> (k < length (f_shape f))%nat -> (nth k (f_shape f) 0 = 1)%Z ->
  derivative spl f (Z.of_nat k) false = Err IndexError.
Proof. exact (fun _ => derivative_single). Qed.
Print Assumptions C106_single.

(** ** C107 *)
(** Up to three linear axes: assigning an extent gives every axis its pair of numbers, keeps the number of points,
    names and units and everything else; reading the extent gives the numbers assigned. *)
Theorem C107_set_partial : forall V spl (f : field V) e, reproduces_lines spl -> consistent f -> nonempty (f_shape f) -> (length (f_shape f) <= 3)%nat ->
  Forall (fun ax => islinear ax = Ok true) (f_axes f) -> length e = (2 * length (f_shape f))%nat ->
  exists g, set_extent spl f e = (g, Ok tt) /\ same_but_axes f g /\ consistent g /\
    (forall k, (k < length (f_shape f))%nat ->
       stretched_to (nth (2 * k) e 0) (nth (2 * k + 1) e 0) (nth k (f_axes f) axis0) (nth k (f_axes g) axis0)) /\
    length (get_extent g) = length e /\ forall i, nth i (get_extent g) 0 == nth i e 0.
Proof. exact (@set_extent_ok). Qed.
Print Assumptions C107_set_partial.
Definition calc_plane : field Q := calc_of [4; 2]%Z [calc_y; calc_one 2] (fun idx => inject_Z (nth 0 idx 0 + nth 1 idx 0)%Z).
Example C107_set_case : reproduces_lines chord_spline /\ Forall (fun ax => islinear ax = Ok true) (f_axes calc_plane) /\
  map Qred (get_extent calc_plane) = [- (1 # 2); 7 # 2; 0; 2] /\
  (let (g, r) := set_extent chord_spline calc_plane [0; 8; 5; 3] in
   r = Ok tt /\ map Qred (get_extent g) = [0; 8; 5; 3] /\ map (fun ax => map Qred (ax_grid ax)) (f_axes g) = [[1; 3; 5; 7]; [9 # 2; 7 # 2]]).
Proof. split; [exact chord_spline_lines|]. split; [repeat constructor|]. vm_compute. repeat split; reflexivity. Qed.
(** Assigning the extent an axis has keeps its points. *)
Theorem C107_same : forall a b ax ax', stretched_to a b ax ax' -> axis_uniform a b (Z.to_nat (ax_len ax)) ax ->
  length (ax_grid ax') = length (ax_grid ax) /\ length (ax_node ax') = length (ax_node ax) /\
  (forall i, nth i (ax_grid ax') 0 == nth i (ax_grid ax) 0) /\ (forall i, nth i (ax_node ax') 0 == nth i (ax_node ax) 0).
Proof. exact stretched_same. Qed.
Print Assumptions C107_same.
(** Whatever is assigned and whether it succeeds or not: the data, the name and the unit stay, and the axes match the data. *)
Theorem C107_frame : forall V spl (f : field V) e, consistent f ->
  same_but_axes f (fst (set_extent spl f e)) /\ consistent (fst (set_extent spl f e)).
Proof. exact (@set_extent_frame). Qed.
Print Assumptions C107_frame.
(** A wrong number of numbers raises TypeError and changes nothing. *)
Theorem C107_length : forall V spl (f : field V) e, nonempty (f_shape f) -> length e <> (2 * length (f_shape f))%nat ->
  set_extent spl f e = (f, Err TypeError).
Proof. exact (@set_extent_length). Qed.
Print Assumptions C107_length.
(** Full statement: an assignment that raises changes nothing, and it does not raise for linear axes.  False: the
    axes before one that is not linear have changed; with four dimensions it raises KeyError after three axes. *)
Theorem C107_atomic_refuted : exists (f s : field Q),
  snd (set_extent chord_spline f [0; 8; 0; 8]) = Err TypeError /\
  map Qred (get_extent f) = [- (1 # 2); 7 # 2; - (1 # 2); 4] /\ map Qred (get_extent (fst (set_extent chord_spline f [0; 8; 0; 8]))) = [0; 8; - (1 # 2); 4] /\
  Forall (fun ax => islinear ax = Ok true) (f_axes s) /\ snd (set_extent chord_spline s [0; 8; 0; 8; 0; 8; 0; 8]) = Err KeyError /\
  map Qred (get_extent (fst (set_extent chord_spline s [0; 8; 0; 8; 0; 8; 0; 8]))) = [0; 8; 0; 8; 0; 8; 0; 2].
Proof.
  exists (calc_of [4; 3]%Z [calc_y; calc_x] (fun _ => 1)), (calc_of [2; 2; 2; 2]%Z [calc_one 2; calc_one 2; calc_one 2; calc_one 2] (fun _ => 1)).
  split; [vm_compute; reflexivity|]. split; [vm_compute; reflexivity|]. split; [vm_compute; reflexivity|]. split; [repeat constructor|]. split; vm_compute; reflexivity.
Qed.
Print Assumptions C107_atomic_refuted.

(** ** C108 *)
(** The result has the same shape and the same samples at the same coordinates, and no axis descends. *)
Theorem C108_samples : forall V spl (f : field V), orderly f ->
  exists g, ensure_positive_axes spl f = Ok g /\ orderly g /\ f_shape g = f_shape f /\ (forall c v, sample g c v <-> sample f c v) /\
    forall k, (k < length (f_shape f))%nat -> isreversed (nth k (f_axes g) axis0) = false.
Proof. exact (@positive_ok). Qed.
Print Assumptions C108_samples.
(** A field without descending axes is returned as it is; hence doing it twice is doing it once. *)
Theorem C108_already : forall V spl (f : field V), (forall k, (k < length (f_axes f))%nat -> isreversed (nth k (f_axes f) axis0) = false) ->
  ensure_positive_axes spl f = Ok f.
Proof. exact (@positive_already). Qed.
Print Assumptions C108_already.
Theorem C108_twice : forall V spl (f g : field V), orderly f -> ensure_positive_axes spl f = Ok g -> ensure_positive_axes spl g = Ok g.
Proof. exact (@positive_twice). Qed.
Print Assumptions C108_twice.
Definition calc_down : axis := mkAxis "x" "m" [4; 3; 1; 0] [7 # 2; 2; 1 # 2] (4, 0) 3.
Definition calc_slope : field Q := calc_of [3; 2]%Z [calc_down; calc_one 2] (fun idx => inject_Z (10 * nth 0 idx 0 + nth 1 idx 0)%Z).
Example C108_case : orderly calc_slope /\ map isreversed (f_axes calc_slope) = [true; false] /\
  numbers (ensure_positive_axes chord_spline calc_slope) = Some ([3; 2]%Z, [20; 21; 10; 11; 0; 1]) /\
  rmap (fun f => map (fun ax => map Qred (ax_grid ax)) (f_axes f)) (ensure_positive_axes chord_spline calc_slope) = Ok [[1 # 2; 2; 7 # 2]; [1 # 2; 3 # 2]].
Proof.
  split; [|vm_compute; repeat split; reflexivity]. apply plain_orderly; [| | |cbn; lia|reflexivity].
  - split; [reflexivity|]. split; [|split; reflexivity]. intros [|[|[|k]]] ax n Hax Hn; try discriminate; injection Hax as <-; injection Hn as <-; reflexivity.
  - assert (Hx : axis_down calc_down /\ axis_up (calc_one 2)).
    { split; (split; [split; [reflexivity|]|repeat split; reflexivity]); intros i Hi; vm_compute in Hi; destruct i as [|[|[|i]]]; try (exfalso; lia); split; reflexivity. }
    destruct Hx as [Hx Hy]. constructor; [right; exact Hx|]. constructor; [left; exact Hy|constructor].
  - apply Forall_forall. intros n [<-|[<-|[]]]; lia.
Qed.
