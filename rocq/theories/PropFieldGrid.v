(** Property theorems about changing the grid of fields: C08 (fields), C15-C17, C65, C70. *)
From Coq Require Import Lia Permutation.
From Verif Require Import PyBase PyBaseFacts NumpyModel NumpyFacts QSum AxisModel AxisSpec AxisFacts AxisInterpFacts
  NdModel NdFacts FieldModel FieldSpec FieldInvFacts FieldNodedFacts FieldRearrFacts FieldBuildFacts
  FieldReduceFacts FieldOpFacts FieldIntFacts FieldGridFacts FieldPadFacts FieldDerivFacts FieldIndexFacts PropField PropFieldOps.

(** A 4 x 3 field on uniform axes, cells of width 2 and 1; entry (i, j) is i * i + 10 j. *)
Definition plate_x : axis := mkAxis "x" "m" [0; 2; 4; 6; 8] [1; 3; 5; 7] (0, 8) 4.
Definition plate_y : axis := mkAxis "y" "m" [1; 2; 3; 4] [3 # 2; 5 # 2; 7 # 2] (1, 4) 3.
Definition plate : field Q :=
  mkField (mkarr [4; 3]%Z (fun idx => inject_Z (nth 0 idx 0 * nth 0 idx 0 + 10 * nth 1 idx 0)%Z))
          (mkLayer [plate_x; plate_y] [Some false; Some false] [None; None] "E" "V/m") [].
Example plate_axes_ok : axis_up plate_x /\ axis_up plate_y.
Proof.
  split; (split; [split; [reflexivity|]|repeat split; reflexivity]); intros i Hi; cbn in Hi;
    destruct i as [|[|[|[|i]]]]; try (exfalso; lia); split; reflexivity.
Qed.
Example plate_ok : simple_field plate /\ nonempty (f_shape plate).
Proof.
  destruct plate_axes_ok as [Hx Hy]. split; [|repeat constructor]. split; [|split; [reflexivity|split; [cbn; lia|]]].
  - split; [reflexivity|]. split; [|split; reflexivity].
    intros [|[|[|k]]] ax n Hax Hn; try discriminate; injection Hax as <-; injection Hn as <-; reflexivity.
  - apply Forall_cons; [left; exact Hx|]. apply Forall_cons; [left; exact Hy|apply Forall_nil].
Qed.
Example plate_uniform : Forall ascending_uniform (f_axes plate).
Proof.
  apply Forall_cons; [|apply Forall_cons; [|apply Forall_nil]].
  - exists 0, 8, 4%nat. split; [lia|]. split; [reflexivity|]. do 5 (split; [reflexivity|]).
    split; intros i Hi; destruct i as [|[|[|[|[|i]]]]]; try (exfalso; lia); reflexivity.
  - exists 1, 4, 3%nat. split; [lia|]. split; [reflexivity|]. do 5 (split; [reflexivity|]).
    split; intros i Hi; destruct i as [|[|[|[|i]]]]; try (exfalso; lia); reflexivity.
Qed.
Definition axis_tables (r : res (field Q)) : list (list Q * list Q) :=
  match r with Ok f => map (fun ax => (map Qred (ax_grid ax), map Qred (ax_node ax))) (f_axes f) | Err _ => [] end.

(** ** C08, fields *)
Theorem C08_half_resolution_field_partial :
  forall spl f k, simple_field f -> (k < length (f_shape f))%nat ->
    exists g ax', field_half_resolution spl f (Z.of_nat k) = Ok g /\ simple_field g /\
      f_shape g = upd (f_shape f) k (nth k (f_shape f) 0 / 2)%Z /\
      (forall idx, in_shape (f_shape g) idx = true ->
         a_at (f_data g) idx == (a_at (f_data f) (upd idx k (2 * nth k idx 0)%Z)
                                 + a_at (f_data f) (upd idx k (2 * nth k idx 0 + 1)%Z)) / 2) /\
      f_axes g = upd (f_axes f) k ax' /\ axis_blocks 2 (nth k (f_axes f) axis0) ax' /\
      ((nth k (f_shape f) 0 mod 2 = 0)%Z ->
         2 * total (f_shape g) (a_at (f_data g)) == total (f_shape f) (a_at (f_data f))).
Proof. exact half_field_blocks. Qed.
Print Assumptions C08_half_resolution_field_partial.

(** A flipped Field wraps another Field: its half_resolution slices that Field by step two, which an axis refuses. *)
Theorem C08_flipped_refuted :
  exists fl, field_flip chord_spline plate 0 = Ok fl /\ f_shape fl = [4; 3]%Z /\
    field_half_resolution chord_spline fl 0 = Err ValueError.
Proof.
  destruct (ok_such (field_flip chord_spline plate 0)
    (fun fl => idx_eqb (f_shape fl) [4; 3]%Z && match field_half_resolution chord_spline fl 0 with Err ValueError => true | _ => false end)%bool)
    as (fl & E & H); [vm_compute; reflexivity|].
  apply andb_prop in H as [S H]. apply idx_eqb_eq in S. exists fl. split; [exact E|]. split; [exact S|].
  destruct (field_half_resolution chord_spline fl 0) as [|[]]; try discriminate. reflexivity.
Qed.
Print Assumptions C08_flipped_refuted.
Example C08_field_nonvacuous :
  simple_field plate /\ entries (field_half_resolution chord_spline plate 0) = Some ([2; 3]%Z, [1 # 2; 21 # 2; 41 # 2; 13 # 2; 33 # 2; 53 # 2]) /\
  entries (field_half_resolution chord_spline plate 1) = Some ([4; 1]%Z, [5; 6; 9; 14]) /\
  axis_tables (field_half_resolution chord_spline plate 1) = [([1; 3; 5; 7], [0; 2; 4; 6; 8]); ([2], [1; 3])].
Proof. split; [apply plate_ok|]. repeat (split; [vm_compute; reflexivity|]). vm_compute; reflexivity. Qed.

(** ** C15 *)
(** The widths: one number for all axes and sides, a pair or one number per axis, as numpy.pad has them. *)
Theorem C15_pad :
  forall V spl (c : V) f p l,
    reproduces_lines spl -> consistent f -> f_axes f <> [] -> Forall ascending_uniform (f_axes f) ->
    pad_list (Z.of_nat (length (f_shape f))) p = l -> length l = length (f_shape f) ->
    Forall (fun q => num_nonneg (fst q) /\ num_nonneg (snd q)) l ->
    exists g w, field_pad spl c f p = Ok g /\ padded c f w g /\
      (forall k, (k < length (f_shape f))%nat ->
        asks_cells (cell_width (nth k (f_axes f) axis0) 0) (fst (nth k l (NInt 0, NInt 0))) (fst (nth k w (0, 0)%Z)) /\
        asks_cells (cell_width (nth k (f_axes f) axis0) 0) (snd (nth k l (NInt 0, NInt 0))) (snd (nth k w (0, 0)%Z))) /\
      (forall k, (k < length (f_shape f))%nat -> nth k w (0, 0)%Z = (0, 0)%Z -> nth k (f_axes g) axis0 = nth k (f_axes f) axis0).
Proof. exact (@pad_total). Qed.
Print Assumptions C15_pad.

(** On a descending axis the spacing is taken without its sign: the old samples change their coordinates. *)
Theorem C15_descending_refuted :
  let ax := mkAxis "x" "" [3; 2; 1; 0] [5 # 2; 3 # 2; 1 # 2] (3, 0) 3 in
  let f := mkField (mkarr [3%Z] (fun i => inject_Z (nth 0 i 0%Z))) (mkLayer [ax] [Some false] [None] "" "") [] : field Q in
  axis_uniform 3 0 3 ax /\ consistent f /\
  entries (field_pad chord_spline 0 f (PadAll (NInt 1))) = Some ([5]%Z, [0; 0; 1; 2; 0]) /\
  axis_tables (field_pad chord_spline 0 f (PadAll (NInt 1))) = [([19 # 10; 17 # 10; 3 # 2; 13 # 10; 11 # 10], [2; 9 # 5; 8 # 5; 7 # 5; 6 # 5; 1])].
Proof.
  cbv zeta. split; [|split; [|split; vm_compute; reflexivity]].
  - do 5 (split; [reflexivity|]). split; intros i Hi; destruct i as [|[|[|[|i]]]]; try (exfalso; lia); reflexivity.
  - split; [reflexivity|]. split; [|split; reflexivity].
    intros [|[|k]] ax n Hax Hn; try discriminate; injection Hax as <-; injection Hn as <-; reflexivity.
Qed.
Print Assumptions C15_descending_refuted.
Example C15_nonvacuous :
  consistent plate /\ Forall ascending_uniform (f_axes plate) /\
  pad_list 2 (PadEach [(NInt 1, NReal (5 # 2)); (NInt 0, NInt 0)]) = [(NInt 1, NReal (5 # 2)); (NInt 0, NInt 0)] /\
  axis_tables (field_pad chord_spline 0 plate (PadEach [(NInt 1, NReal (5 # 2)); (NInt 0, NInt 0)]))
  = [([- (1); 1; 3; 5; 7; 9; 11], [- (2); 0; 2; 4; 6; 8; 10; 12]); ([3 # 2; 5 # 2; 7 # 2], [1; 2; 3; 4])].
Proof. split; [apply plate_ok|]. split; [exact plate_uniform|]. split; vm_compute; reflexivity. Qed.

(** ** C16 *)
Theorem C16_autopad_partial :
  forall V spl (c : V) padsize f axes,
    reproduces_lines spl -> consistent f -> f_axes f <> [] -> Forall ascending_uniform (f_axes f) ->
    (forall n, (n <= padsize n)%Z) ->
    (forall l, axes = Some l -> forall a, In a l -> (0 <= a < Z.of_nat (length (f_shape f)))%Z) ->
    exists g w, field_fft_autopad spl c padsize f axes = Ok g /\ padded c f w g /\
      (forall k, (k < length (f_shape f))%nat ->
         let n := nth k (f_shape f) 0%Z in
         let requested := match axes with None => true | Some l => existsb (Z.eqb (Z.of_nat k)) l end in
         nth k (f_shape g) 0%Z = (if requested then padsize n else n) /\
         fst (nth k w (0, 0)%Z) = (if requested then (padsize n - n) / 2 else 0)%Z /\
         (requested = false \/ padsize n = n -> nth k (f_axes g) axis0 = nth k (f_axes f) axis0)).
Proof. exact (@autopad_total). Qed.
Print Assumptions C16_autopad_partial.
(** an axis with cells of different sizes cannot be padded *)
Theorem C16_nonuniform_refuted :
  let ax := mkAxis "x" "" [0; 1; 3; 4] [1 # 2; 2; 7 # 2] (0, 4) 3 in
  let f := mkField (mkarr [3%Z] (fun i => inject_Z (nth 0 i 0%Z))) (mkLayer [ax] [Some false] [None] "" "") [] : field Q in
  axis_up ax /\ consistent f /\ (forall n, (n <= n + 1)%Z) /\ field_fft_autopad chord_spline 0 (fun n => n + 1)%Z f None = Err TypeError.
Proof.
  cbv zeta. split; [|split; [|split; [intro; lia|vm_compute; reflexivity]]].
  - split; [split; [reflexivity|]|repeat split; reflexivity]. intros i Hi. cbn in Hi. destruct i as [|[|[|i]]]; try (exfalso; lia); split; reflexivity.
  - split; [reflexivity|]. split; [|split; reflexivity].
    intros [|[|k]] ax n Hax Hn; try discriminate; injection Hax as <-; injection Hn as <-; reflexivity.
Qed.
Print Assumptions C16_nonuniform_refuted.
Example C16_nonvacuous :
  consistent plate /\ Forall ascending_uniform (f_axes plate) /\
  (forall n, (n <= n + n mod 3)%Z) /\
  axis_tables (field_fft_autopad chord_spline 0 (fun n => n + 5)%Z plate (Some [1]%Z))
  = [([1; 3; 5; 7], [0; 2; 4; 6; 8]);
     ([- 1 # 2; 1 # 2; 3 # 2; 5 # 2; 7 # 2; 9 # 2; 11 # 2; 13 # 2], [- (1); 0; 1; 2; 3; 4; 5; 6; 7])].
Proof.
  split; [apply plate_ok|]. split; [exact plate_uniform|]. split; [intro n; pose proof (Z.mod_pos_bound n 3); lia|].
  vm_compute; reflexivity.
Qed.

(** ** C17 *)
(** For every sufficiently large step bound, i.e. the loop ends. *)
Theorem C17_autoreduce_partial :
  forall spl f maxlen, (1 <= maxlen)%Z -> simple_field f ->
    exists fuel0, forall fuel, (fuel0 <= fuel)%nat ->
      exists g bs, field_autoreduce fuel spl f maxlen = Ok g /\ coarsened f bs g /\ length bs = length (f_shape f) /\
        Forall (fun n => (n <= maxlen)%Z) (f_shape g) /\
        (forall k, (k < length (f_shape f))%nat -> least_halving maxlen (nth k (f_shape f) 0%Z) (nth k bs 1%Z)).
Proof. exact autoreduce_total. Qed.
Print Assumptions C17_autoreduce_partial.
Theorem C17_flipped_refuted :
  exists fl, field_flip chord_spline plate 0 = Ok fl /\ f_shape fl = [4; 3]%Z /\
    forall fuel, exists e, field_autoreduce (S fuel) chord_spline fl 3 = Err e.
Proof.
  destruct (ok_such (field_flip chord_spline plate 0)
    (fun fl => idx_eqb (f_shape fl) [4; 3]%Z && idx_eqb (map ax_len (f_axes fl)) [4; 3]%Z &&
       match field_half_resolution chord_spline fl 0 with Err ValueError => true | _ => false end)%bool)
    as (fl & E & H); [vm_compute; reflexivity|].
  apply andb_prop in H as [S H]. apply andb_prop in S as [S A]. apply idx_eqb_eq in S, A. exists fl. split; [exact E|]. split; [exact S|].
  intro fuel. exists ValueError. unfold field_autoreduce. destruct (f_axes fl) as [|ax [|ay [|]]] eqn:Ea; try discriminate A.
  injection A as A0 A1. cbn [length]. change (zlist 2) with [0; 1]%Z. cbn [reduce_axes reduce_axis]. rewrite Ea.
  change (getidx [ax; ay] 0) with (Ok ax). cbn [bind]. rewrite A0. cbn [Z.ltb].
  destruct (field_half_resolution chord_spline fl 0) as [|[]]; try discriminate. reflexivity.
Qed.
Print Assumptions C17_flipped_refuted.
Example C17_nonvacuous :
  simple_field plate /\ entries (field_autoreduce 5 chord_spline plate 1) = Some ([1; 1]%Z, [17 # 2]) /\
  axis_tables (field_autoreduce 5 chord_spline plate 1) = [([4], [0; 8]); ([2], [1; 3])].
Proof. split; [apply plate_ok|]. split; vm_compute; reflexivity. Qed.

(** ** C65 *)
Theorem C65_derivative_partial :
  forall spl f k, reproduces_lines spl -> simple_field f -> (k < length (f_shape f))%nat ->
    ascending_uniform (nth k (f_axes f) axis0) -> (3 <= nth k (f_shape f) 0)%Z -> nonempty (f_shape f) ->
    exists g, derivative_stagger spl f (Z.of_nat k) = Ok g /\
      f_shape g = upd (f_shape f) k (nth k (f_shape f) 0 - 1)%Z /\
      (forall idx, in_shape (f_shape g) idx = true ->
         a_at (f_data g) idx == (a_at (f_data f) (upd idx k (nth k idx 0 + 1)%Z) - a_at (f_data f) (upd idx k (nth k idx 0%Z)))
                                / cell_width (nth k (f_axes f) axis0) 0) /\
      (exists ax, f_axes g = upd (f_axes f) k ax /\ ascending_uniform ax /\ ax_len ax = (nth k (f_shape f) 0 - 1)%Z /\
         (forall i, (0 <= i < ax_len ax)%Z -> nth (Z.to_nat i) (ax_grid ax) 0 == nth (Z.to_nat (i + 1)) (ax_node (nth k (f_axes f) axis0)) 0 /\
            cell_width ax i == cell_width (nth k (f_axes f) axis0) 0) /\
         ax_name ax = ax_name (nth k (f_axes f) axis0) /\ ax_unit ax = ax_unit (nth k (f_axes f) axis0)) /\
      consistent g /\ f_inner g = [] /\ l_unit (f_top g) = l_unit (f_top f).
Proof. exact derivative_total. Qed.
Print Assumptions C65_derivative_partial.
Theorem C65_integral_of_derivative_partial :
  forall spl f k, reproduces_lines spl -> simple_field f -> (k < length (f_shape f))%nat ->
    ascending_uniform (nth k (f_axes f) axis0) -> (3 <= nth k (f_shape f) 0)%Z -> nonempty (f_shape f) ->
    exists g r, derivative_stagger spl f (Z.of_nat k) = Ok g /\ integrate_fast g [Z.of_nat k] = Ok r /\ remains g [k] r /\
      forall idx, in_shape (f_shape f) idx = true ->
        a_at (f_data r) (entries_at 0%Z idx (others (length (f_shape f)) [k]))
        == a_at (f_data f) (upd idx k (nth k (f_shape f) 0 - 1)%Z) - a_at (f_data f) (upd idx k 0%Z).
Proof. exact derivative_integral. Qed.
Print Assumptions C65_integral_of_derivative_partial.
Theorem C65_derivative_of_linear_partial :
  forall spl f k g c s, reproduces_lines spl -> simple_field f -> (k < length (f_shape f))%nat ->
    ascending_uniform (nth k (f_axes f) axis0) -> (3 <= nth k (f_shape f) 0)%Z -> nonempty (f_shape f) ->
    (forall idx, in_shape (f_shape f) idx = true ->
       a_at (f_data f) idx == c (entries_at 0%Z idx (others (length (f_shape f)) [k]))
                              + s * nth (Z.to_nat (nth k idx 0%Z)) (ax_grid (nth k (f_axes f) axis0)) 0) ->
    derivative_stagger spl f (Z.of_nat k) = Ok g ->
    forall idx, in_shape (f_shape g) idx = true -> a_at (f_data g) idx == s.
Proof. exact derivative_of_linear. Qed.
Print Assumptions C65_derivative_of_linear_partial.

(** A descending axis: the spacing is taken without its sign, so the derivative of x has slope -1.
    Two samples: the new axis has one point and hence a cell of width one. *)
Theorem C65_descending_refuted :
  let ax := mkAxis "x" "" [3; 2; 1; 0] [5 # 2; 3 # 2; 1 # 2] (3, 0) 3 in
  let f := mkField (mkarr [3%Z] (fun i => nth (Z.to_nat (nth 0 i 0%Z)) (ax_grid ax) 0)) (mkLayer [ax] [Some false] [None] "" "") [] : field Q in
  simple_field f /\ axis_uniform 3 0 3 ax /\ entries (derivative_stagger chord_spline f 0) = Some ([2]%Z, [- (1); - (1)]).
Proof.
  cbv zeta. split; [|split; [|vm_compute; reflexivity]].
  - split; [|split; [reflexivity|split; [cbn; lia|]]].
    + split; [reflexivity|]. split; [|split; reflexivity].
      intros [|[|k]] ax n Hax Hn; try discriminate; injection Hax as <-; injection Hn as <-; reflexivity.
    + apply Forall_cons; [right|apply Forall_nil].
      split; [split; [reflexivity|]|repeat split; reflexivity]; intros i Hi; cbn in Hi;
        destruct i as [|[|[|i]]]; try (exfalso; lia); split; reflexivity.
  - do 5 (split; [reflexivity|]). split; intros i Hi; destruct i as [|[|[|[|i]]]]; try (exfalso; lia); reflexivity.
Qed.
Print Assumptions C65_descending_refuted.
Theorem C65_two_samples_refuted :
  let ax := mkAxis "x" "" [0; 2; 4] [1; 3] (0, 4) 2 in
  let f := mkField (mkarr [2%Z] (fun i => inject_Z (6 * nth 0 i 0%Z))) (mkLayer [ax] [Some false] [None] "" "") [] : field Q in
  axis_uniform 0 4 2 ax /\ consistent f /\
  exists g, derivative_stagger chord_spline f 0 = Ok g /\ entries (Ok g) = Some ([1]%Z, [3]) /\
    entries (integrate_fast g [0]%Z) = Some ([]%Z, [3]).
Proof.
  cbv zeta. split; [|split].
  - do 5 (split; [reflexivity|]). split; intros i Hi; destruct i as [|[|[|i]]]; try (exfalso; lia); reflexivity.
  - split; [reflexivity|]. split; [|split; reflexivity].
    intros [|[|k]] ax n Hax Hn; try discriminate; injection Hax as <-; injection Hn as <-; reflexivity.
  - match goal with |- exists g, derivative_stagger ?s ?f ?k = Ok g /\ _ => destruct (ok_such (derivative_stagger s f k)
      (fun g => match entries (Ok g) with Some ([n], [q]) => (n =? 1)%Z && (Qnum q =? 3)%Z && (Qden q =? 1)%positive | _ => false end &&
                match entries (integrate_fast g [0]%Z) with Some ([], [q]) => (Qnum q =? 3)%Z && (Qden q =? 1)%positive | _ => false end)%bool)
      as (g & E & H); [vm_compute; reflexivity|] end.
    exists g. split; [exact E|]. apply andb_prop in H as [H1 H2]. split.
    + destruct (entries (Ok g)) as [[[|n [|]] [|[a b] [|]]]|]; try discriminate.
      apply andb_prop in H1 as [H1 Hb]. apply andb_prop in H1 as [Hn Ha].
      apply Z.eqb_eq in Hn as ->. apply Z.eqb_eq in Ha. apply Pos.eqb_eq in Hb. cbn in Ha, Hb. now subst.
    + destruct (entries (integrate_fast g [0]%Z)) as [[[|n ns] [|[a b] [|]]]|]; try discriminate.
      apply andb_prop in H2 as [Ha Hb]. apply Z.eqb_eq in Ha. apply Pos.eqb_eq in Hb. cbn in Ha, Hb. now subst.
Qed.
Print Assumptions C65_two_samples_refuted.
Example C65_nonvacuous :
  simple_field plate /\ ascending_uniform (nth 0 (f_axes plate) axis0) /\ (3 <= nth 0 (f_shape plate) 0)%Z /\ nonempty (f_shape plate) /\
  entries (derivative_stagger chord_spline plate 0)
    = Some ([3; 3]%Z, [1 # 2; 1 # 2; 1 # 2; 3 # 2; 3 # 2; 3 # 2; 5 # 2; 5 # 2; 5 # 2]) /\
  axis_tables (derivative_stagger chord_spline plate 0) = [([2; 4; 6], [1; 3; 5; 7]); ([3 # 2; 5 # 2; 7 # 2], [1; 2; 3; 4])].
Proof.
  split; [apply plate_ok|]. split; [exact (Forall_inv plate_uniform)|]. split; [cbn; lia|]. split; [apply plate_ok|].
  split; vm_compute; reflexivity.
Qed.

(** ** C70 *)
Theorem C70_getitem_partial :
  forall V spl (f : field V) keys rs,
    consistent f -> Forall axis_counted (f_axes f) -> f_inner f = [] ->
    nonempty (f_shape f) -> length keys = length (f_shape f) -> (length (kept_axes rs) <= 3)%nat ->
    Forall2 (fun p r => axis_getitem spl (fst p) (snd p) = Ok r) (combine (f_axes f) keys) rs ->
    exists g, field_getitem spl f keys = Ok g /\ f_axes g = kept_axes rs /\ f_shape g = map ax_len (kept_axes rs) /\
      (forall idx, in_shape (f_shape g) idx = true ->
         exists j, in_shape (f_shape f) j = true /\ a_at (f_data g) idx = a_at (f_data f) j /\
           point_of (f_axes f) j = point_at rs idx) /\
      f_ats g = kept_entries rs (f_ats f) /\ f_tao g = kept_entries rs (f_tao f) /\
      l_name (f_top g) = l_name (f_top f) /\ l_unit (f_top g) = l_unit (f_top f) /\ f_inner g = [].
Proof. exact (@getitem_total). Qed.
Print Assumptions C70_getitem_partial.

(** A flipped field cannot be cut: the wrapped field still has the old axis. *)
Theorem C70_flipped_refuted :
  exists fl, field_flip chord_spline plate 0 = Ok fl /\ f_shape fl = [4; 3]%Z /\
    field_getitem chord_spline fl [IKey (KSlice (Some (NInt 2)) (Some (NInt 4)) None); IKey (KSlice None None None)] = Err ValueError /\
    is_ok (field_getitem chord_spline plate [IKey (KSlice (Some (NInt 2)) (Some (NInt 4)) None); IKey (KSlice None None None)]) = true.
Proof.
  destruct (ok_such (field_flip chord_spline plate 0)
    (fun fl => idx_eqb (f_shape fl) [4; 3]%Z &&
       match field_getitem chord_spline fl [IKey (KSlice (Some (NInt 2)) (Some (NInt 4)) None); IKey (KSlice None None None)] with
       | Err ValueError => true | _ => false end)%bool)
    as (fl & E & H); [vm_compute; reflexivity|].
  apply andb_prop in H as [S H]. apply idx_eqb_eq in S. exists fl. split; [exact E|]. split; [exact S|].
  split; [|vm_compute; reflexivity].
  destruct (field_getitem chord_spline fl _) as [|[]]; try discriminate. reflexivity.
Qed.
Print Assumptions C70_flipped_refuted.
Example C70_nonvacuous :
  let keys := [IKey (KSlice (Some (NReal 2)) (Some (NReal 6)) None); IKey (KNum (NReal (9 # 4)))] in
  consistent plate /\ Forall axis_counted (f_axes plate) /\
  (exists rs, Forall2 (fun p r => axis_getitem chord_spline (fst p) (snd p) = Ok r) (combine (f_axes plate) keys) rs) /\
  entries (field_getitem chord_spline plate keys) = Some ([2]%Z, [11; 14]) /\
  axis_tables (field_getitem chord_spline plate keys) = [([3; 5], [2; 4; 6])].
Proof.
  cbv zeta. split; [apply plate_ok|]. split; [repeat constructor|]. split.
  - destruct (axis_getitem chord_spline plate_x (IKey (KSlice (Some (NReal 2)) (Some (NReal 6)) None))) as [r|e] eqn:E; [|vm_compute in E; discriminate].
    destruct (axis_getitem chord_spline plate_y (IKey (KNum (NReal (9 # 4))))) as [r'|e] eqn:E'; [|vm_compute in E'; discriminate].
    exists [r; r']. repeat constructor; assumption.
  - split; vm_compute; reflexivity.
Qed.
