(** Property theorems about axes: C01-C07, C08 (axis part), C66, C67. *)
From Coq Require Import Lia.
From Verif Require Import PyBase PyBaseFacts NumpyModel NumpyFacts AxisModel AxisSpec AxisFacts AxisInterpFacts.

(** Concrete axes used in the examples. *)
Definition demo_up : axis :=
  mkAxis "x" "m" [0; 1; 3; 4] [1 # 2; 2; 7 # 2] (0, 4) 3.
Definition demo_down : axis :=
  mkAxis "x" "m" [4; 3; 1; 0] [7 # 2; 2; 1 # 2] (4, 0) 3.
Example demo_up_ok : axis_up demo_up.
Proof.
  split; [split; [reflexivity|]|repeat split; reflexivity].
  intros i Hi. simpl in Hi. destruct i as [|[|[|i]]]; [split; reflexivity..|lia].
Qed.
Example demo_down_ok : axis_down demo_down.
Proof.
  split; [split; [reflexivity|]|repeat split; reflexivity].
  intros i Hi. simpl in Hi. destruct i as [|[|[|i]]]; [split; reflexivity..|lia].
Qed.

(** ** C01 *)
Theorem C01_axis_extent_n_uniform :
  forall spl name unit a b n,
    reproduces_lines spl -> (1 <= n)%nat -> ~ a == b ->
    exists ax, mk_axis spl name unit None None (Some (a, b)) (Some (Z.of_nat n)) = Ok ax /\
      axis_uniform a b n ax /\ ax_name ax = name /\ ax_unit ax = unit.
Proof. intros spl name unit a b n Hs Hn _. exact (mk_axis_extent_uniform spl name unit a b n Hs Hn). Qed.
Print Assumptions C01_axis_extent_n_uniform.

Theorem C01_uniform_axis_is_monotone :
  forall a b n ax, (1 <= n)%nat -> axis_uniform a b n ax ->
    (a < b -> axis_up ax) /\ (b < a -> axis_down ax).
Proof.
  intros a b n ax Hn H. exact (conj (fun Hab => uniform_up a b n ax Hn Hab H) (fun Hab => uniform_down a b n ax Hn Hab H)).
Qed.
Print Assumptions C01_uniform_axis_is_monotone.

Theorem C01_uniform_axis_spacing :
  forall a b n ax, (1 <= n)%nat -> axis_uniform a b n ax ->
    exists h, spacing ax = Ok h /\ h * inject_Z (Z.of_nat n) == qabs (b - a).
Proof. exact uniform_spacing. Qed.
Print Assumptions C01_uniform_axis_spacing.

Example C01_nonvacuous :
  reproduces_lines chord_spline /\
  (exists ax, mk_axis chord_spline "x" "" None None (Some (2, -3)) (Some (Z.of_nat 5)) = Ok ax /\
     axis_uniform 2 (-3) 5 ax).
Proof.
  split; [exact chord_spline_lines|].
  destruct (C01_axis_extent_n_uniform chord_spline "x" "" 2 (-3) 5 chord_spline_lines) as (ax & E & H & _);
    [lia|discriminate|]. exists ax. now split.
Qed.

(** ** C02: acceptance does not imply that every grid point is inside its cell *)
Theorem C02_accepted_grid_outside_cell_refuted :
  exists gn g ax, mk_axis chord_spline "" "" (Some gn) (Some g) None None = Ok ax /\
    length gn = S (length g) /\ ~ axis_proper ax /\
    exists i, (i < length g)%nat /\ nth i gn 0 < nth (S i) gn 0 /\ nth (S i) gn 0 < nth i g 0.
Proof.
  exists [1; 2; 3], [3 # 2; 5]. eexists. split; [vm_compute; reflexivity|]. split; [reflexivity|]. split.
  - intros [[[_ H] _]|[[_ H] _]].
    + destruct (H 1%nat) as [_ H1]; [simpl; lia|]. simpl in H1. discriminate H1.
    + destruct (H 0%nat) as [H1 _]; [simpl; lia|]. simpl in H1. discriminate H1.
  - exists 1%nat. split; [simpl; lia|]. split; reflexivity.
Qed.
Print Assumptions C02_accepted_grid_outside_cell_refuted.

Theorem C02_accepted_length_mismatch_refuted :
  exists gn g ax, mk_axis chord_spline "" "" (Some gn) (Some g) None None = Ok ax /\
    length (ax_node ax) = length (ax_grid ax) /\ (2 <= length (ax_grid ax))%nat.
Proof.
  exists [5; 6], [11 # 2; 56 # 10]. eexists. split; [vm_compute; reflexivity|]. split; [reflexivity|]. simpl; lia.
Qed.
Print Assumptions C02_accepted_length_mismatch_refuted.

(** What does hold: correct input is always accepted unchanged, and an accepted axis
    whose points respect the upper cell boundaries respects the lower ones too. *)
Theorem C02_proper_input_accepted_partial :
  forall spl name unit gn g, cells_up gn g \/ cells_down gn g ->
    exists ax, mk_axis spl name unit (Some gn) (Some g) None None = Ok ax /\
      ax_node ax = gn /\ ax_grid ax = g /\ axis_proper ax.
Proof.
  intros spl name unit gn g H.
  exact (ex_intro _ _ (conj (mk_axis_cells spl name unit gn g H)
           (conj eq_refl (conj eq_refl (made_proper name unit gn g H))))).
Qed.
Print Assumptions C02_proper_input_accepted_partial.

Theorem C02_accepted_lower_boundaries_partial :
  forall spl name unit gn g ax,
    length gn = S (length g) ->
    (forall i, (i < length g)%nat -> nth i g 0 < nth (S i) gn 0) ->
    mk_axis spl name unit (Some gn) (Some g) None None = Ok ax -> axis_up ax.
Proof. exact accepted_upper_ok_proper. Qed.
Print Assumptions C02_accepted_lower_boundaries_partial.

Theorem C02_accepted_sequences_monotone_partial :
  forall spl name unit gn g ax,
    mk_axis spl name unit (Some gn) (Some g) None None = Ok ax ->
    (sincr (ax_node ax) \/ sdecr (ax_node ax)) /\ (sincr (ax_grid ax) \/ sdecr (ax_grid ax)).
Proof.
  intros spl name unit gn g ax H.
  destruct (mk_axis_inv _ _ _ _ _ _ H) as (_ & H1 & H2 & -> & ->).
  exact (conj (monotone_cases _ H1) (monotone_cases _ H2)).
Qed.
Print Assumptions C02_accepted_sequences_monotone_partial.

Example C02_nonvacuous : cells_up (ax_node demo_up) (ax_grid demo_up) /\
  is_ok (mk_axis chord_spline "" "" (Some (ax_node demo_up)) (Some (ax_grid demo_up)) None None) = true /\
  is_ok (mk_axis chord_spline "" "" (Some [0; 1; 2]) (Some [1 # 2; 1]) None None) = false.
Proof. split; [apply demo_up_ok|]. split; reflexivity. Qed.

(** ** C03 *)
Theorem C03_nearest_index_correct :
  forall ax v, axis_proper ax -> (0 < length (ax_grid ax))%nat ->
    exists k, find_nearest_index ax v = Ok (Z.of_nat k) /\ (k < length (ax_grid ax))%nat /\
      forall j, (j < length (ax_grid ax))%nat ->
        qabs (v - nth k (ax_grid ax) 0) <= qabs (v - nth j (ax_grid ax) 0) /\
        (qabs (v - nth j (ax_grid ax) 0) == qabs (v - nth k (ax_grid ax) 0) -> (j <= k)%nat).
Proof. exact find_nearest_correct. Qed.
Print Assumptions C03_nearest_index_correct.

Theorem C03_float_index_returns_nearest_point :
  forall spl ax v, axis_proper ax -> (0 < length (ax_grid ax))%nat -> inside_domain ax v = true ->
    exists g, axis_getitem spl ax (IKey (KNum (NReal v))) = Ok (inl g) /\ In g (ax_grid ax) /\
      forall g', In g' (ax_grid ax) -> qabs (v - g) <= qabs (v - g').
Proof. exact float_index_nearest. Qed.
Print Assumptions C03_float_index_returns_nearest_point.

Example C03_nonvacuous :
  find_nearest_index demo_up (5 # 4) = Ok 1%Z /\ find_nearest_index demo_down (5 # 4) = Ok 2%Z.
Proof. split; reflexivity. Qed.

(** ** C04 *)
Theorem C04_value_to_index_affine :
  forall a b n ax v, (1 <= n)%nat -> ~ a == b -> axis_uniform a b n ax ->
    exists x, value_to_index ax v = Ok x /\
              v == a + (x + (1 # 2)) * ((b - a) / inject_Z (Z.of_nat n)).
Proof. exact uniform_value_to_index. Qed.
Print Assumptions C04_value_to_index_affine.

Theorem C04_value_to_index_grid_points :
  forall a b n ax, (1 <= n)%nat -> ~ a == b -> axis_uniform a b n ax ->
    (forall i, (i < n)%nat ->
       exists x, value_to_index ax (nth i (ax_grid ax) 0) = Ok x /\ x == inject_Z (Z.of_nat i)) /\
    (exists x, value_to_index ax a = Ok x /\ x == - (1 # 2)) /\
    (exists x, value_to_index ax b = Ok x /\ x == inject_Z (Z.of_nat n) - (1 # 2)).
Proof. exact uniform_index_points. Qed.
Print Assumptions C04_value_to_index_grid_points.

Theorem C04_value_to_index_monotone :
  forall a b n ax v w x y, (1 <= n)%nat -> ~ a == b -> axis_uniform a b n ax ->
    value_to_index ax v = Ok x -> value_to_index ax w = Ok y ->
    (a < b -> v < w -> x < y) /\ (b < a -> w < v -> x < y).
Proof. exact uniform_index_monotone. Qed.
Print Assumptions C04_value_to_index_monotone.

Theorem C04_rounding_is_nearest :
  forall a b n ax v x k, (1 <= n)%nat -> ~ a == b -> axis_uniform a b n ax ->
    value_to_index ax v = Ok x ->
    - (1 # 2) <= x <= inject_Z (Z.of_nat n) - (1 # 2) ->
    qabs (x - inject_Z k) < 1 # 2 ->
    find_nearest_index ax v = Ok k /\ np_round x = k.
Proof.
  intros a b n ax v x k Hn Hab H Hx Hr Hk.
  exact (conj (uniform_round a b n ax v x k Hn Hab H Hx Hr Hk) (np_round_exact x k Hk)).
Qed.
Print Assumptions C04_rounding_is_nearest.

(** the equality promised by the docstring fails half-way between two grid points *)
Theorem C04_rounding_at_midpoints_refuted :
  exists ax v x, value_to_index ax v = Ok x /\ axis_uniform 0 4 4 ax /\
    find_nearest_index ax v <> Ok (np_round x).
Proof.
  exists (mkAxis "" "" [0; 1; 2; 3; 4] [1 # 2; 3 # 2; 5 # 2; 7 # 2] (0, 4) 4), 1.
  eexists. split; [vm_compute; reflexivity|]. split.
  - repeat (split; [reflexivity|]). split.
    + intros i Hi. do 5 (destruct i as [|i]; [reflexivity|]). lia.
    + intros i Hi. do 4 (destruct i as [|i]; [reflexivity|]). lia.
  - vm_compute. discriminate.
Qed.
Print Assumptions C04_rounding_at_midpoints_refuted.

Example C04_nonvacuous :
  exists ax x, axis_uniform 0 4 4 ax /\ value_to_index ax (23 # 10) = Ok x /\
     - (1 # 2) <= x <= inject_Z (Z.of_nat 4) - (1 # 2) /\ qabs (x - inject_Z 2) < 1 # 2.
Proof.
  exists (mkAxis "" "" [0; 1; 2; 3; 4] [1 # 2; 3 # 2; 5 # 2; 7 # 2] (0, 4) 4).
  eexists. split.
  - repeat (split; [reflexivity|]). split.
    + intros i Hi. do 5 (destruct i as [|i]; [reflexivity|]). lia.
    + intros i Hi. do 4 (destruct i as [|i]; [reflexivity|]). lia.
  - split; [vm_compute; reflexivity|]. split; [split; discriminate|reflexivity].
Qed.

(** ** C05 *)
Theorem C05_coordinate_slice_ascending :
  forall spl ax a b,
    axis_up ax -> opt_is_real a || opt_is_real b = true ->
    (fst (ax_extent ax) <= bound_lo ax a <= snd (ax_extent ax)) \/
    (fst (ax_extent ax) <= bound_hi ax b <= snd (ax_extent ax)) ->
    bound_lo ax a <= bound_hi ax b ->
    let sel := filter (fun g => (bound_lo ax a <=?q g) && (g <?q bound_hi ax b)) (ax_grid ax) in
    (sel <> [] -> exists r, axis_getitem spl ax (IKey (KSlice a b None)) = Ok (inr r) /\
                            axis_proper r /\ ax_grid r = sel) /\
    (forall r, axis_getitem spl ax (IKey (KSlice a b None)) = Ok (inr r) -> ax_grid r = sel).
Proof. exact coordinate_slice_up. Qed.
Print Assumptions C05_coordinate_slice_ascending.

Theorem C05_coordinate_slice_descending :
  forall spl ax a b,
    axis_down ax -> opt_is_real a || opt_is_real b = true ->
    (snd (ax_extent ax) <= bound_lo ax a <= fst (ax_extent ax)) \/
    (snd (ax_extent ax) <= bound_hi ax b <= fst (ax_extent ax)) ->
    bound_hi ax b <= bound_lo ax a ->
    let sel := filter (fun g => (bound_hi ax b <?q g) && (g <=?q bound_lo ax a)) (ax_grid ax) in
    (sel <> [] -> exists r, axis_getitem spl ax (IKey (KSlice a b None)) = Ok (inr r) /\
                            axis_proper r /\ ax_grid r = sel) /\
    (forall r, axis_getitem spl ax (IKey (KSlice a b None)) = Ok (inr r) -> ax_grid r = sel).
Proof. exact coordinate_slice_down. Qed.
Print Assumptions C05_coordinate_slice_descending.

Example C05_nonvacuous :
  (exists r, axis_getitem chord_spline demo_up (IKey (KSlice (Some (NReal (1 # 2))) (Some (NReal (7 # 2))) None))
             = Ok (inr r) /\ ax_grid r = [1 # 2; 2]) /\
  (exists r, axis_getitem chord_spline demo_down (IKey (KSlice (Some (NReal (7 # 2))) (Some (NReal (1 # 2))) None))
             = Ok (inr r) /\ ax_grid r = [7 # 2; 2]).
Proof. split; eexists; split; vm_compute; reflexivity. Qed.

(** ** C06 *)
(** full statement: for all integer bounds.  Proved for start None or >= 0 ... *)
Theorem C06_integer_slice_partial :
  forall spl ax st sp step r,
    axis_proper ax -> step = None \/ step = Some 1%Z ->
    (match st with Some s => (0 <= s)%Z | None => True end) ->
    axis_getitem spl ax (IKey (KSlice (option_map NInt st) (option_map NInt sp) step)) = Ok (inr r) ->
    getslice (ax_grid ax) (mkslice st sp step) = Ok (ax_grid r) /\
    (exists i j, (i <= j <= length (ax_grid ax))%nat /\
       ax_grid r = sublist i j (ax_grid ax) /\ ax_node r = sublist i (S j) (ax_node ax)) /\
    ax_name r = ax_name ax /\ ax_unit r = ax_unit ax /\ axis_proper r.
Proof. exact int_slice_sound. Qed.
Print Assumptions C06_integer_slice_partial.

Theorem C06_integer_slice_succeeds_partial :
  forall spl ax st sp step g,
    axis_proper ax -> step = None \/ step = Some 1%Z ->
    (match st with Some s => (0 <= s)%Z | None => True end) ->
    getslice (ax_grid ax) (mkslice st sp step) = Ok g -> g <> [] ->
    exists r, axis_getitem spl ax (IKey (KSlice (option_map NInt st) (option_map NInt sp) step)) = Ok (inr r).
Proof. exact int_slice_total. Qed.
Print Assumptions C06_integer_slice_succeeds_partial.

(** ... and false for negative starts: ax[-1:] is accepted with a single node *)
Theorem C06_negative_start_refuted :
  exists ax r, axis_up ax /\
    axis_getitem chord_spline ax (IKey (KSlice (Some (NInt (-1))) None None)) = Ok (inr r) /\
    length (ax_grid r) = 1%nat /\ length (ax_node r) = 1%nat /\ physical_length r == 0.
Proof.
  exists demo_up. eexists. split; [exact demo_up_ok|]. split; [vm_compute; reflexivity|].
  split; [reflexivity|]. split; reflexivity.
Qed.
Print Assumptions C06_negative_start_refuted.

(** ax[::-1] is accepted although its points run against its nodes *)
Theorem C06_reversing_slice_refuted :
  exists ax r, axis_up ax /\
    axis_getitem chord_spline ax (IKey (KSlice None None (Some (-1)%Z))) = Ok (inr r) /\
    ax_grid r = rev (ax_grid ax) /\ ax_node r = ax_node ax /\ ~ axis_proper r.
Proof.
  exists demo_up. eexists. split; [exact demo_up_ok|]. split; [vm_compute; reflexivity|].
  split; [reflexivity|]. split; [reflexivity|].
  intros [[[_ H] _]|[[_ H] _]].
  - destruct (H 0%nat) as [_ H1]; [simpl; lia|]. simpl in H1. discriminate H1.
  - destruct (H 0%nat) as [_ H1]; [simpl; lia|]. simpl in H1. discriminate H1.
Qed.
Print Assumptions C06_reversing_slice_refuted.

Example C06_nonvacuous :
  exists r, axis_getitem chord_spline demo_up (IKey (KSlice (Some (NInt 1)) (Some (NInt (-1))) None)) = Ok (inr r) /\
    ax_grid r = [2] /\ ax_node r = [1; 3].
Proof. eexists. split; [vm_compute; reflexivity|]. split; reflexivity. Qed.

(** ** C07 *)
(** Full statement: every axis.  Accepted axes which are not proper (C02): PropRev.v. *)
Theorem C07_reversed_involution_partial :
  forall spl ax, axis_proper ax ->
    exists r, axis_reversed spl ax = Ok r /\
      ax_grid r = rev (ax_grid ax) /\ ax_node r = rev (ax_node ax) /\
      fst (ax_extent r) == snd (ax_extent ax) /\ snd (ax_extent r) == fst (ax_extent ax) /\
      ax_name r = ax_name ax /\ ax_unit r = ax_unit ax /\ ax_n r = ax_n ax /\
      (axis_up ax -> axis_down r) /\ (axis_down ax -> axis_up r) /\
      exists rr, axis_reversed spl r = Ok rr /\
        ax_grid rr = ax_grid ax /\ ax_node rr = ax_node ax /\ ax_n rr = ax_n ax /\
        ax_name rr = ax_name ax /\ ax_unit rr = ax_unit ax /\
        fst (ax_extent rr) == fst (ax_extent ax) /\ snd (ax_extent rr) == snd (ax_extent ax) /\
        axis_eqb rr ax = Ok true.
Proof. exact axis_reversed_spec. Qed.
Print Assumptions C07_reversed_involution_partial.
Example C07_nonvacuous : axis_proper demo_down /\ is_ok (axis_reversed chord_spline demo_down) = true.
Proof. split; [right; exact demo_down_ok|reflexivity]. Qed.

(** ** C08, the axis *)
Theorem C08_half_resolution_axis :
  forall spl ax, axis_proper ax ->
    exists r, axis_half_resolution spl ax = Ok r /\
      length (ax_grid r) = (length (ax_grid ax) / 2)%nat /\
      (forall i, (i < length (ax_grid ax) / 2)%nat ->
         nth i (ax_grid r) 0 == (nth (2 * i) (ax_grid ax) 0 + nth (2 * i + 1) (ax_grid ax) 0) / 2) /\
      (forall i, (i <= length (ax_grid ax) / 2)%nat -> nth i (ax_node r) 0 = nth (2 * i) (ax_node ax) 0) /\
      (axis_up ax -> axis_up r) /\ (axis_down ax -> axis_down r) /\
      ax_name r = ax_name ax /\ ax_unit r = ax_unit ax /\
      (Nat.even (length (ax_grid ax)) = true ->
         fst (ax_extent r) == fst (ax_extent ax) /\ snd (ax_extent r) == snd (ax_extent ax)).
Proof. exact half_resolution_spec. Qed.
Print Assumptions C08_half_resolution_axis.
Example C08_axis_nonvacuous : axis_proper demo_up /\
  (exists r, axis_half_resolution chord_spline demo_up = Ok r /\ ax_node r = [0; 3]).
Proof. split; [left; exact demo_up_ok|]. eexists. split; [vm_compute; reflexivity|reflexivity]. Qed.

(** ** C66: index interpolation on arbitrary axes *)
Theorem C66_nonlinear_index_exact :
  forall ax, axis_proper ax -> (1 <= length (ax_grid ax))%nat ->
    (forall i, (i < length (ax_grid ax))%nat ->
       exists r, value_to_index_nonlinear ax (nth i (ax_grid ax) 0) = Ok r /\ r == inject_Z (Z.of_nat i)) /\
    (forall i, (i <= length (ax_grid ax))%nat ->
       exists r, value_to_index_nonlinear ax (nth i (ax_node ax) 0) = Ok r /\
                 r == inject_Z (Z.of_nat i) - (1 # 2)).
Proof. exact nonlinear_index_exact. Qed.
Print Assumptions C66_nonlinear_index_exact.

Theorem C66_nonlinear_index_strictly_monotone :
  forall ax v w, axis_proper ax -> (1 <= length (ax_grid ax))%nat ->
    inside_domain ax v = true -> inside_domain ax w = true -> along ax v w ->
    exists r s, value_to_index_nonlinear ax v = Ok r /\ value_to_index_nonlinear ax w = Ok s /\ r < s.
Proof. exact nonlinear_index_strict. Qed.
Print Assumptions C66_nonlinear_index_strictly_monotone.

Theorem C66_nonlinear_index_clips :
  forall ax v, value_to_index_nonlinear ax v =
               value_to_index_nonlinear ax (clip_to_extent (ax_extent ax) v).
Proof. exact nonlinear_index_clipped. Qed.
Print Assumptions C66_nonlinear_index_clips.

(** rounding the index need not give the nearest grid point on a non-uniform axis *)
Theorem C66_rounding_nonuniform_refuted :
  exists ax v x k, axis_up ax /\ value_to_index ax v = Ok x /\
    find_nearest_index ax v = Ok k /\ inside_domain ax v = true /\ np_round x <> k.
Proof.
  exists (mkAxis "" "" [0; 1; 3; 4] [1 # 2; 5 # 4; 7 # 2] (0, 4) 3), (5 # 2).
  eexists _, _. split.
  - split; [split; [reflexivity|]|repeat split; reflexivity].
    intros i Hi. simpl in Hi. destruct i as [|[|[|i]]]; [split; reflexivity..|lia].
  - split; [vm_compute; reflexivity|]. split; [vm_compute; reflexivity|].
    split; vm_compute; [reflexivity|discriminate].
Qed.
Print Assumptions C66_rounding_nonuniform_refuted.

Example C66_nonvacuous :
  islinear demo_up = Ok false /\ along demo_up (6 # 5) 3 /\ inside_domain demo_up (6 # 5) = true /\
  (exists x, value_to_index demo_up 3 = Ok x /\ x == 3 # 2).
Proof.
  split; [reflexivity|]. split; [left; split; [exact demo_up_ok|reflexivity]|]. split; [reflexivity|].
  eexists. split; [vm_compute; reflexivity|reflexivity].
Qed.

(** ** C67: axes given by their grid points only *)
Theorem C67_axis_from_uniform_grid :
  forall spl name unit g h,
    reproduces_lines spl -> (2 <= length g)%nat -> ~ h == 0 ->
    (forall i, (i < length g)%nat -> nth i g 0 == nth 0 g 0 + inject_Z (Z.of_nat i) * h) ->
    exists ax, mk_axis spl name unit None (Some g) None None = Ok ax /\ ax_grid ax = g /\
      axis_uniform (nth 0 g 0 - (1 # 2) * h)
                   (nth 0 g 0 + (inject_Z (Z.of_nat (length g)) - (1 # 2)) * h) (length g) ax.
Proof. exact axis_from_uniform_grid. Qed.
Print Assumptions C67_axis_from_uniform_grid.

Theorem C67_axis_from_short_grid :
  forall spl name unit g, (2 <= length g <= 3)%nat -> sincr g \/ sdecr g ->
    exists ax, mk_axis spl name unit None (Some g) None None = Ok ax /\ ax_grid ax = g /\ axis_proper ax /\
      (forall i, (i < length g - 1)%nat -> nth (S i) (ax_node ax) 0 == (nth i g 0 + nth (S i) g 0) / 2).
Proof. exact axis_from_short_grid. Qed.
Print Assumptions C67_axis_from_short_grid.

Theorem C67_axis_from_single_point :
  forall spl name unit x,
    exists ax, mk_axis spl name unit None (Some [x]) None None = Ok ax /\
      ax_grid ax = [x] /\ ax_node ax = [x - qhalf; x + qhalf] /\ axis_up ax.
Proof. exact axis_from_single_point. Qed.
Print Assumptions C67_axis_from_single_point.

(** a descending grid together with its extent is always rejected, for every spline *)
Theorem C67_descending_grid_with_extent_refuted :
  forall spl, mk_axis spl "" "" None (Some [2; 1; 0]) (Some (5 # 2, - (1 # 2))) None = Err ValueError.
Proof. intro spl. reflexivity. Qed.
Print Assumptions C67_descending_grid_with_extent_refuted.

Example C67_nonvacuous :
  (exists ax, mk_axis chord_spline "" "" None (Some [5; 3; 1; -1; -3]) None None = Ok ax /\
    fst (ax_extent ax) == 6 /\ snd (ax_extent ax) == -4) /\ sdecr [5; 1; 0].
Proof.
  split; [eexists; split; [vm_compute; reflexivity|split; reflexivity]|].
  apply sdecr_step. intros i Hi. simpl in Hi. destruct i as [|[|i]]; [reflexivity..|lia].
Qed.
