(** Property theorems about cutting fields and their dimensions: C18, C19, C71, C72. *)
From Coq Require Import Lia Lqa Permutation.
From Verif Require Import PyBase PyBaseFacts NumpyModel NumpyFacts QSum AxisModel AxisSpec AxisFacts AxisInterpFacts
  NdModel NdFacts FieldModel FieldSpec FieldInvFacts FieldNodedFacts FieldRearrFacts FieldBuildFacts
  FieldReduceFacts FieldOpFacts FieldIntFacts FieldGridFacts FieldPadFacts FieldDerivFacts FieldIndexFacts FieldCutFacts FieldMapFacts
  PropField PropFieldOps PropFieldGrid.

(** ** C18 *)
(** The field is squeezed first; after that one or two dimensions must remain.  The
    window function of scipy is an argument: only the length of its result matters. *)
Theorem C18_autocutout_partial :
  forall spl win f axes ks fr,
    consistent f -> Forall axis_proper (f_axes f) -> f_inner f = [] -> nonempty (f_shape f) ->
    (length (long_dims (f_shape f)) <= 2)%nat ->
    (forall m a, length (win m a) = Z.to_nat m) -> NoDup ks -> (forall k, In k ks -> (k < length (long_dims (f_shape f)))%nat) ->
    axes = Some (map Z.of_nat ks) \/ axes = None /\ ks = seq 0 (length (long_dims (f_shape f))) ->
    fst fr <= snd fr -> snd fr < 1 -> (exists j, in_shape (f_shape f) j = true /\ ~ a_at (f_data f) j == 0) ->
    exists g h iv, squeezed f g /\ field_autocutout spl win f axes fr = Ok h /\ length iv = length (f_shape g) /\
      (forall k, (k < length (f_shape g))%nat ->
         let '((e, ff), (b, c)) := cut_of iv k in
         axis_part (nth k (f_axes g) axis0) e ff (nth k (f_axes h) axis0) /\
         (~ In k ks -> (e, ff) = (0, nth k (f_shape g) 0)%Z) /\
         (In k ks -> (0 <= e <= b)%Z /\ (b < c)%Z /\ (c <= ff <= nth k (f_shape g) 0)%Z /\
            exists prof m, projection g k prof /\ In m prof /\ (forall x, In x prof -> x <= m) /\
              forall i, (0 <= i < nth k (f_shape g) 0)%Z -> m * snd fr < nth (Z.to_nat i) prof 0 -> (b <= i < c)%Z)) /\
      f_shape h = map (fun x => (snd (fst x) - fst (fst x))%Z) iv /\
      (forall idx, in_shape (f_shape h) idx = true ->
         a_at (f_data h) idx == a_at (f_data g) (map2 (fun i x => (i + fst (fst x))%Z) idx iv) * window_at win iv ks idx).
Proof. exact autocutout_field. Qed.
Print Assumptions C18_autocutout_partial.

(** The bounds of one profile, whatever the fractions: if they are found they are as
    claimed, the flanks are equally long, and the inner interval is the smallest.  What
    exceeds the lower fraction stays as well, unless an end of the array is reached. *)
Theorem C18_bounds_partial :
  forall prof fr e f b c, cutout_bounds prof fr = Ok (e, f, (b, c)) ->
    exists m, In m prof /\ (forall x, In x prof -> x <= m) /\
      (0 <= e <= b)%Z /\ (b < c)%Z /\ (c <= f <= Z.of_nat (length prof))%Z /\ (b - e = f - c)%Z /\
      (forall k, (0 <= k < Z.of_nat (length prof))%Z -> m * snd fr < nth (Z.to_nat k) prof 0 -> (b <= k < c)%Z) /\
      m * snd fr < nth (Z.to_nat b) prof 0 /\ m * snd fr < nth (Z.to_nat (c - 1)) prof 0 /\
      (e = 0%Z \/ f = Z.of_nat (length prof) \/
       forall k, (0 <= k < Z.of_nat (length prof))%Z -> m * fst fr < nth (Z.to_nat k) prof 0 -> (e <= k < f)%Z).
Proof. exact cutout_bounds_ok. Qed.
Print Assumptions C18_bounds_partial.

(** A window of ones and a 3-d field: the axis numbers used for the projection are stale
    after the first mean, so autocutout along axis 0 raises, and along axis 2 it looks at
    the profile of another axis. *)
Definition ones_window : Z -> Q -> list Q := fun m _ => repeat 1 (Z.to_nat m).
Definition block_z : axis := mkAxis "z" "m" [0; 1; 2; 3; 4] [1 # 2; 3 # 2; 5 # 2; 7 # 2] (0, 4) 4.
(** 2 x 3 x 4, entry (i, j, l) is 1 for l = 0 and else zero: all that matters is at the start of z *)
Definition block : field Q :=
  mkField (mkarr [2; 3; 4]%Z (fun idx => if (nth 2 idx 0 =? 0)%Z then 1 else 0))
          (mkLayer [mkAxis "x" "m" [0; 1; 2] [1 # 2; 3 # 2] (0, 2) 2; plate_y; block_z] [Some false; Some false; Some false] [None; None; None] "E" "V/m") [].
Theorem C18_three_dims_refuted :
  field_autocutout chord_spline ones_window block (Some [0%Z]) (1 # 10, 1 # 2) = Err IndexError /\
  exists h, field_autocutout chord_spline ones_window block (Some [2%Z]) (1 # 10, 1 # 2) = Ok h /\ f_shape h = [2; 3; 3]%Z.
Proof.
  split; [vm_compute; reflexivity|].
  destruct (ok_such (field_autocutout chord_spline ones_window block (Some [2%Z]) (1 # 10, 1 # 2))
    (fun h => idx_eqb (f_shape h) [2; 3; 3]%Z)) as (h & E & H); [vm_compute; reflexivity|].
  exists h. split; [exact E|]. now apply idx_eqb_eq.
Qed.
Print Assumptions C18_three_dims_refuted.
(** Nothing exceeds a fraction of an all-zero field: IndexError. *)
Theorem C18_zero_refuted :
  exists f, simple_field f /\ nonempty (f_shape f) /\
    field_autocutout chord_spline ones_window f None (1 # 10, 1 # 2) = Err IndexError.
Proof.
  exists (mkField (mkarr [4; 3]%Z (fun _ => 0)) (f_top plate) []). destruct plate_ok as [(H1 & H2 & H3 & H4) H5].
  split; [|split; [exact H5|vm_compute; reflexivity]]. split; [exact H1|]. split; [reflexivity|]. split; [exact H3|exact H4].
Qed.
Print Assumptions C18_zero_refuted.
Definition spot : field Q :=
  mkField (mkarr [4; 3]%Z (fun idx => if idx_eqb idx [1; 1]%Z then 8 else if idx_eqb idx [2; 1]%Z then 1 else 0)) (f_top plate) [].
Example C18_nonvacuous :
  consistent spot /\ Forall axis_proper (f_axes spot) /\ nonempty (f_shape spot) /\ length (long_dims (f_shape spot)) = 2%nat /\
  (exists j, in_shape (f_shape spot) j = true /\ ~ a_at (f_data spot) j == 0) /\
  entries (field_autocutout chord_spline ones_window spot None (1 # 10, 1 # 2)) = Some ([3; 1]%Z, [0; 8; 1]) /\
  axis_tables (field_autocutout chord_spline ones_window spot None (1 # 10, 1 # 2)) = [([1; 3; 5], [0; 2; 4; 6]); ([5 # 2], [2; 3])].
Proof.
  destruct plate_ok as [(H1 & H2 & H3 & H4) H5]. split; [exact H1|]. split; [exact H4|]. split; [exact H5|]. split; [reflexivity|].
  split; [exists [1; 1]%Z; split; [reflexivity|]; intro H; discriminate H|]. split; vm_compute; reflexivity.
Qed.

(** ** C19 *)
Theorem C19_squeeze_partial :
  forall V spl (f : field V), consistent f -> Forall axis_proper (f_axes f) -> f_inner f = [] -> nonempty (f_shape f) ->
    (length (long_dims (f_shape f)) <= 3)%nat ->
    exists g, field_squeeze spl f = Ok g /\ squeezed f g /\ consistent g /\ Forall axis_proper (f_axes g) /\ f_inner g = [].
Proof. exact @squeeze_total. Qed.
Print Assumptions C19_squeeze_partial.
Theorem C19_atleast_nd_partial :
  forall V spl (f : field V) n, consistent f -> nonempty (f_shape f) -> Forall axis_proper (f_axes f) -> f_inner f = [] ->
    (n <= Z.of_nat max_dims)%Z -> (length (f_shape f) <= max_dims)%nat ->
    exists g, field_atleast_nd spl f n = Ok g /\ with_dims f (Z.to_nat n - length (f_shape f)) g /\
      f_inner g = [] /\ Forall axis_proper (f_axes g).
Proof. exact @atleast_total. Qed.
Print Assumptions C19_atleast_nd_partial.
Theorem C19_squeeze_undoes_partial :
  forall V spl (f : field V) n, consistent f -> nonempty (f_shape f) -> Forall axis_proper (f_axes f) -> f_inner f = [] ->
    (length (f_shape f) <= 3)%nat -> (n <= Z.of_nat max_dims)%Z -> Forall (fun k => k <> 1%Z) (f_shape f) ->
    exists g h, field_atleast_nd spl f n = Ok g /\ field_squeeze spl g = Ok h /\ field_same f h.
Proof. exact @squeeze_atleast. Qed.
Print Assumptions C19_squeeze_undoes_partial.
(** A flipped Field wraps another Field: two dimensions cannot be added, and one added
    dimension cannot be squeezed away. *)
Theorem C19_flipped_refuted :
  exists fl g, field_flip chord_spline plate 0 = Ok fl /\ f_shape fl = [4; 3]%Z /\
    field_atleast_nd chord_spline fl 4 = Err IndexError /\
    field_atleast_nd chord_spline fl 3 = Ok g /\ field_squeeze chord_spline g = Err IndexError.
Proof.
  destruct (ok_such (field_flip chord_spline plate 0)
    (fun fl => idx_eqb (f_shape fl) [4; 3]%Z && match field_atleast_nd chord_spline fl 4 with Err IndexError => true | _ => false end
       && match field_atleast_nd chord_spline fl 3 with Ok g => match field_squeeze chord_spline g with Err IndexError => true | _ => false end | _ => false end)%bool)
    as (fl & E & H); [vm_compute; reflexivity|].
  apply andb_prop in H as [S H]. apply andb_prop in S as [S H']. apply idx_eqb_eq in S.
  destruct (field_atleast_nd chord_spline fl 3) as [g|e] eqn:Eg; [|discriminate]. exists fl, g.
  split; [exact E|]. split; [exact S|].
  split; [destruct (field_atleast_nd chord_spline fl 4) as [|[]]; try discriminate; reflexivity|]. split; [exact Eg|].
  destruct (field_squeeze chord_spline g) as [|[]]; try discriminate; reflexivity.
Qed.
Print Assumptions C19_flipped_refuted.
Example C19_nonvacuous :
  simple_field plate /\ nonempty (f_shape plate) /\ Forall (fun k => k <> 1%Z) (f_shape plate) /\
  option_map fst (entries (field_atleast_nd chord_spline plate 5)) = Some [4; 3; 1; 1; 1]%Z.
Proof.
  split; [apply plate_ok|]. split; [apply plate_ok|]. split; [|vm_compute; reflexivity].
  apply Forall_cons; [discriminate|]. apply Forall_cons; [discriminate|apply Forall_nil].
Qed.

(** ** C71 *)
Theorem C71_map_axis_grid_partial :
  forall spl f k t j,
    consistent f -> Forall axis_proper (f_axes f) -> nonempty (f_shape f) -> (k < length (f_shape f))%nat -> (k < 3)%nat ->
    strictly_monotone_on (nth k (f_axes f) axis0) t ->
    forall preserve, exists g, map_axis_grid spl f (Z.of_nat k) t j preserve = Ok g /\
      f_shape g = f_shape f /\ consistent g /\ Forall axis_proper (f_axes g) /\
      (forall i, i <> k -> nth i (f_axes g) axis0 = nth i (f_axes f) axis0) /\
      ax_node (nth k (f_axes g) axis0) = map t (ax_node (nth k (f_axes f) axis0)) /\
      ax_grid (nth k (f_axes g) axis0) = map t (ax_grid (nth k (f_axes f) axis0)) /\
      ax_name (nth k (f_axes g) axis0) = ax_name (nth k (f_axes f) axis0) /\
      ax_unit (nth k (f_axes g) axis0) = ax_unit (nth k (f_axes f) axis0) /\
      (preserve = false -> f_data g = f_data f) /\
      (preserve = true -> forall idx, in_shape (f_shape f) idx = true ->
         a_at (f_data g) idx = a_at (f_data f) idx / j (nth (Z.to_nat (nth k idx 0%Z)) (ax_grid (nth k (f_axes f) axis0)) 0)).
Proof. exact (fun spl f k t j H1 H2 H3 H4 H5 H6 p => map_grid_total spl f k t j p H1 H2 H3 H4 H5 H6). Qed.
Print Assumptions C71_map_axis_grid_partial.

(** If the jacobian function gives the stretch of every cell (as for affine maps, or for
    squaring on midpoint cells), every integral over that axis is unchanged. *)
Theorem C71_integral_partial :
  forall spl f k t j,
    consistent f -> Forall axis_proper (f_axes f) -> nonempty (f_shape f) -> (k < length (f_shape f))%nat -> (k < 3)%nat ->
    strictly_monotone_on (nth k (f_axes f) axis0) t -> stretches (nth k (f_axes f) axis0) t j ->
    exists g, map_axis_grid spl f (Z.of_nat k) t j true = Ok g /\
      forall p idx v, NoDup p -> In k p -> is_integral f p idx v <-> is_integral g p idx v.
Proof. exact map_grid_integral. Qed.
Print Assumptions C71_integral_partial.

(** the axis y of plate, squared: 2 y is the stretch of each cell *)
Example C71_meets :
  strictly_monotone_on (nth 1 (f_axes plate) axis0) (fun y => y * y) /\
  stretches (nth 1 (f_axes plate) axis0) (fun y => y * y) (fun y => 2 * y) /\
  consistent plate /\ Forall axis_proper (f_axes plate) /\ nonempty (f_shape plate).
Proof.
  split; [|split].
  - left. intros x y Hx Hy Hxy. assert (0 <= x) by (cbn in Hx; repeat (destruct Hx as [<-|Hx]; [discriminate|]); destruct Hx).
    assert (0 <= y) by (cbn in Hy; repeat (destruct Hy as [<-|Hy]; [discriminate|]); destruct Hy). nra.
  - intros i Hi. cbn in Hi. do 3 (destruct i as [|i]; [vm_compute; reflexivity|]). exfalso. lia.
  - destruct plate_ok as [(H1 & _ & _ & H2) H3]. auto.
Qed.

(** ** C72 *)
Theorem C72_outer_partial :
  forall (op : Q -> Q -> Q) f g, consistent f -> consistent g -> (length (f_shape f) + length (f_shape g) <= 3)%nat ->
    exists h, field_outer op f g = Ok h /\ consistent h /\ f_shape h = f_shape f ++ f_shape g /\ f_axes h = f_axes f ++ f_axes g /\
      f_ats h = f_ats f ++ f_ats g /\ f_tao h = f_tao f ++ f_tao g /\
      l_name (f_top h) = l_name (f_top f) /\ l_unit (f_top h) = l_unit (f_top f) /\
      forall i j, in_shape (f_shape f) i = true -> in_shape (f_shape g) j = true ->
        a_at (f_data h) (i ++ j) = op (a_at (f_data f) i) (a_at (f_data g) j).
Proof. exact (fun op => outer_total op). Qed.
Print Assumptions C72_outer_partial.

(** more than three dimensions in total cannot be built *)
Theorem C72_four_dims_refuted : field_outer Qminus plate plate = Err KeyError.
Proof. vm_compute. reflexivity. Qed.
Print Assumptions C72_four_dims_refuted.
