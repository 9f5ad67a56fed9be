(** Model of class Axis, /repo/postpic/datahandling.py 101-460, over exact rationals.
    No proofs in this file.

    Simplifications: floats are exact rationals; inputs are already one
    dimensional (the ndim checks at 125-126 and 137-138 are dropped); n is an
    integer; the interpolating splines of scipy are the function argument [spl]
    (abscissae, ordinates, evaluation point). *)
From Verif Require Import PyBase NumpyModel.

Record axis := mkAxis {
  ax_name : string;
  ax_unit : string;
  ax_node : list Q;      (* _grid_node *)
  ax_grid : list Q;      (* _grid *)
  ax_extent : Q * Q;     (* _extent *)
  ax_n : Z               (* _n *)
}.

(** scipy.interpolate.UnivariateSpline(x, y, s=0)(t) *)
Definition spline_fn := list Q -> list Q -> Q -> Q.

(** np.arange(len(l)) as rationals *)
Definition arange_Q (n : nat) : list Q := map (fun i => inject_Z (Z.of_nat i)) (seq 0 n).

(** datahandling.py 127-131 / 139-143: reject non monotonous input.  Both branches
    raise ValueError. *)
Definition check_monotone (l : option (list Q)) : res unit :=
  match l with
  | None => Ok tt
  | Some l => guard (negb (monotonicity l =? 0)%Z) ValueError
  end.

(** datahandling.py 168-190: grid_node from grid (and possibly extent) *)
Definition nodes_from_grid (spl : spline_fn) (g : list Q) (ext : option (Q * Q)) : res (list Q) :=
  let! gn :=
    (if (3 <? length g)%nat
     then (* 169-172: spline at the half-integer positions, padded by one entry on
             both sides *)
       Ok (0 :: map (fun i => spl (arange_Q (length g)) g (inject_Z (Z.of_nat i) + qhalf))
                    (seq 0 (length g - 1)) ++ [0])
     else (* 175 *) convolve_full g) in
  match g with
  | [] => Err IndexError
  | g0 :: _ =>
      let gl := last g g0 in
      match ext with
      | Some (e0, e1) =>   (* 176-181 *)
          if (g0 <=?q e0) || (e1 <=?q gl) then Err ValueError
          else Ok (set_last (set_first gn e0) e1)
      | None =>
          if (1 <? length g)%nat then   (* 184-186 *)
            let gn1 := nth 1 gn 0 in
            let gn' := set_first gn (g0 + (g0 - gn1)) in
            let gnm2 := nth (length gn' - 2) gn' 0 in
            Ok (set_last gn' (gl + (gl - gnm2)))
          else   (* 188-189 *)
            Ok (set_last (set_first gn (g0 - qhalf)) (g0 + qhalf))
      end
  end.

(** datahandling.py 193-202: grid from grid_node *)
Definition grid_from_nodes (spl : spline_fn) (gn : list Q) : res (list Q) :=
  if (3 <? length gn)%nat then
    Ok (map (fun i => spl (map (fun k => k - qhalf) (arange_Q (length gn))) gn (inject_Z (Z.of_nat i)))
            (seq 0 (length gn - 1)))
  else convolve_valid gn.

(** datahandling.py 205-208: [if not np.all(grid > gn[:-1]) and np.all(grid < gn[1:])]
    (python precedence: [(not A) and B]) raises ValueError; comparing arrays of
    incompatible lengths raises ValueError as well. *)
Definition check_compatible (grid gn : list Q) : res unit :=
  let! above := np_broadcast2 (fun g x => x <?q g) grid (removelast gn) in
  if negb (np_all above) then
    let! below := np_broadcast2 (fun g x => g <?q x) grid (tl gn) in
    guard (negb (np_all below)) ValueError
  else Ok tt.

(** Axis.__init__, datahandling.py 117-230 *)
Definition mk_axis (spl : spline_fn) (name unit : string)
    (grid_node grid : option (list Q)) (extent : option (Q * Q)) (n : option Z) : res axis :=
  let! _ := check_monotone grid_node in
  let! _ := check_monotone grid in
  let! gn :=
    match grid_node with
    | Some l => Ok l
    | None =>
        match grid with
        | None =>
            match extent, n with
            | Some (e0, e1), Some n => np_linspace e0 e1 (n + 1)   (* 164 *)
            | _, _ => Err ValueError                                (* 162 *)
            end
        | Some g => nodes_from_grid spl g extent
        end
    end in
  let! g :=
    match grid with
    | None => grid_from_nodes spl gn
    | Some g => let! _ := check_compatible g gn in Ok g
    end in
  match gn with
  | [] => Err IndexError                                            (* 212 / 213 *)
  | gn0 :: _ =>
      let gnl := last gn gn0 in
      let! ext :=
        match extent with
        | None => Ok (gn0, gnl)                                      (* 212 *)
        | Some (e0, e1) =>                                           (* 213-214 *)
            if negb (e0 ==?q gn0) || negb (e1 ==?q gnl) then Err ValueError else Ok (e0, e1)
        end in
      let! n' :=
        match n with
        | None => Ok (Z.of_nat (length g))                           (* 225 *)
        | Some n => if (n =? Z.of_nat (length g))%Z then Ok n else Err ValueError
        end in
      Ok (mkAxis name unit gn g ext n')
  end.

(** Axis.__eq__, 240-248 *)
Definition axis_eqb (a b : axis) : res bool :=
  let close_ext := isclose (fst (ax_extent a)) (fst (ax_extent b))
                   && isclose (snd (ax_extent a)) (snd (ax_extent b)) in
  if negb close_ext then Ok false
  else
    let! cn := np_broadcast2 isclose (ax_node a) (ax_node b) in
    if negb (np_all cn) then Ok false
    else
      let! cg := np_broadcast2 isclose (ax_grid a) (ax_grid b) in
      Ok (np_all cg).

(** len(ax), 456-457 *)
Definition ax_len (ax : axis) : Z := ax_n ax.

(** Axis.islinear, 250-258 (the cached value _linear never changes because grid
    and grid_node are immutable, 216-218) *)
Definition islinear (ax : axis) : res bool :=
  if (ax_n ax <? 3)%Z then Ok true else h_islinear (ax_node ax).

(** Axis.isreversed, 260-262 *)
Definition isreversed (ax : axis) : bool := snd (ax_extent ax) <?q fst (ax_extent ax).

(** Axis.spacing, 272-276 *)
Definition spacing (ax : axis) : res Q :=
  let! lin := islinear ax in
  if negb lin then Err TypeError
  else
    let! n1 := getidx (ax_node ax) 1 in
    let! n0 := getidx (ax_node ax) 0 in
    Ok (qabs (n1 - n0)).

(** Axis.physical_length, 282-284 *)
Definition physical_length (ax : axis) : Q := qabs (snd (ax_extent ax) - fst (ax_extent ax)).

(** Axis._value_to_index_linear, 310-313; a zero length extent divides by zero
    (numpy: nan with a warning), which the model reports as an error *)
Definition value_to_index_linear (ax : axis) (value : Q) : res Q :=
  let '(a, b) := ax_extent ax in
  if b - a ==?q 0 then Err ZeroDivisionError
  else Ok ((value - a) / (b - a) * inject_Z (ax_n ax) - qhalf).

(** scipy.interpolate.interp1d(x, y): sorts the points by x (assume_sorted=False),
    interpolates linearly between neighbours and raises ValueError outside
    (library contract) *)
Fixpoint insert_pt (p : Q * Q) (l : list (Q * Q)) : list (Q * Q) :=
  match l with
  | [] => [p]
  | q :: l' => if fst p <=?q fst q then p :: l else q :: insert_pt p l'
  end.
Definition sort_pts (l : list (Q * Q)) : list (Q * Q) := fold_right insert_pt [] l.
Fixpoint interp_sorted (pts : list (Q * Q)) (v : Q) : res Q :=
  match pts with
  | (x0, y0) :: (((x1, y1) :: _) as rest) =>
      if v <=?q x1 then
        if v <?q x0 then Err ValueError
        else Ok ((y1 - y0) / (x1 - x0) * (v - x0) + y0)
      else interp_sorted rest v
  | _ => Err ValueError
  end.
Definition interp1d (x y : list Q) (v : Q) : res Q := interp_sorted (sort_pts (combine x y)) v.

(** a[::2] = nodes; a[1::2] = grid, 296-299: assigning a sequence of another length
    raises ValueError *)
Fixpoint interleave (nodes grid : list Q) : list Q :=
  match nodes, grid with
  | x :: nodes', g :: grid' => x :: g :: interleave nodes' grid'
  | _, _ => nodes
  end.

(** np.clip(v, *sorted(extent)), 306 *)
Definition clip_to_extent (ext : Q * Q) (v : Q) : Q :=
  let '(a, b) := ext in
  let lo := if a <=?q b then a else b in
  let hi := if a <=?q b then b else a in
  if v <?q lo then lo else if hi <?q v then hi else v.

(** Axis._value_to_index_nonlinear, 294-308 (the cached _inv_map only depends on the
    immutable grid and nodes) *)
Definition value_to_index_nonlinear (ax : axis) (value : Q) : res Q :=
  if negb (Nat.eqb (length (ax_node ax)) (S (length (ax_grid ax)))) then Err ValueError
  else
    let gan := interleave (ax_node ax) (ax_grid ax) in
    let! idx := np_linspace (- qhalf) (inject_Z (ax_n ax) - qhalf) (Z.of_nat (length gan)) in
    interp1d gan idx (clip_to_extent (ax_extent ax) value).

(** Axis.value_to_index, 333-350 *)
Definition value_to_index (ax : axis) (value : Q) : res Q :=
  let! lin := islinear ax in
  if lin then value_to_index_linear ax value else value_to_index_nonlinear ax value.

(** the array whose sortedness 322 / 385 assert *)
Definition sortgrid (ax : axis) : list Q :=
  if isreversed ax then rev (ax_grid ax) else ax_grid ax.

(** np.searchsorted(sortgrid, value, side), mapped back to the axis direction:
    323-326 and 386-391 *)
Definition grid_position (ax : axis) (value : Q) : Z :=
  if isreversed ax
  then (ax_n ax - Z.of_nat (searchsorted_right (sortgrid ax) value))%Z
  else Z.of_nat (searchsorted_left (sortgrid ax) value).

(** Axis._find_nearest_index, 315-331 *)
Definition find_nearest_index (ax : axis) (value : Q) : res Z :=
  if negb (sortedb (sortgrid ax)) then Err AssertionError
  else
    let idx := grid_position ax value in
    if (0 <? idx)%Z then
      if (idx =? ax_n ax)%Z then Ok (idx - 1)%Z
      else
        let! lo := getidx (ax_grid ax) (idx - 1) in
        let! hi := getidx (ax_grid ax) idx in
        if qabs (value - lo) <?q qabs (value - hi) then Ok (idx - 1)%Z else Ok idx
    else Ok idx.

(** Axis.half_resolution, 352-359: type(self)(name, unit, grid=..., grid_node=...) *)
Definition axis_half_resolution (spl : spline_fn) (ax : axis) : res axis :=
  let! gn := getslice (ax_node ax) (mkslice None None (Some 2%Z)) in
  let! g0 := getslice (ax_grid ax) (mkslice None (Some (-1)%Z) (Some 2%Z)) in
  let! g1 := getslice (ax_grid ax) (mkslice (Some 1%Z) None (Some 2%Z)) in
  let! s := np_broadcast2 Qplus g0 g1 in
  mk_axis spl (ax_name ax) (ax_unit ax) (Some gn) (Some (map (Qmult qhalf) s)) None None.

(** Axis._inside_domain, 361-366 *)
Definition inside_domain (ax : axis) (v : Q) : bool :=
  let '(a, b) := ax_extent ax in
  let lo := if a <=?q b then a else b in
  let hi := if a <=?q b then b else a in
  (lo <=?q v) && (v <=?q hi).

(** Axis._extent_to_slice, 368-394 *)
Definition extent_to_slice (ax : axis) (a b : option num) : res slice :=
  let! a := match a with
            | Some x => Ok (num_val x)
            | None => getidx (ax_node ax) 0
            end in
  let! b := match b with
            | Some x => Ok (num_val x)
            | None => getidx (ax_node ax) (-1)
            end in
  if negb (inside_domain ax a || inside_domain ax b) then Err ValueError
  else if negb (sortedb (sortgrid ax)) then Err AssertionError
  else
    let start := grid_position ax a in
    let stop := grid_position ax b in
    let dir := if Bool.eqb (b <?q a) (isreversed ax) then None else Some (-1)%Z in
    Ok (mkslice (Some start) (Some stop) dir).

(** The objects accepted between brackets: numbers, slices, KeepDim(...) *)
Inductive key :=
| KNum (x : num)
| KSlice (start stop : option num) (step : option Z).
Inductive ikey := IKey (k : key) | IKeep (k : key).

Definition opt_is_real (x : option num) : bool :=
  match x with Some y => is_real y | None => false end.
Definition num_int (x : num) : Z := match x with NInt z => z | NReal _ => 0%Z end.

(** Axis._normalize_slice, 396-426 *)
Definition normalize_slice (ax : axis) (ik : ikey) : res (Z + slice) :=
  let '(k, keepdim) := match ik with IKey k => (k, false) | IKeep k => (k, true) end in
  match k with
  | KSlice start stop step =>
      if opt_is_real start || opt_is_real stop then
        match step with
        | Some _ => Err IndexError
        | None => rmap inr (extent_to_slice ax start stop)
        end
      else Ok (inr (mkslice (option_map num_int start) (option_map num_int stop) step))
  | KNum x =>
      let! i :=
        match x with
        | NInt z => Ok z
        | NReal q => if negb (inside_domain ax q) then Err IndexError
                     else find_nearest_index ax q
        end in
      if keepdim then Ok (inr (mkslice (Some i) (Some (i + 1)%Z) None)) else Ok (inl i)
  end.

(** Axis.reversed, 428-433 *)
Definition axis_reversed (spl : spline_fn) (ax : axis) : res axis :=
  let! gn := getslice (ax_node ax) (mkslice None None (Some (-1)%Z)) in
  let! g := getslice (ax_grid ax) (mkslice None None (Some (-1)%Z)) in
  mk_axis spl (ax_name ax) (ax_unit ax) (Some gn) (Some g) None None.

(** 448-451: the slice applied to grid_node *)
Definition node_slice (sl : slice) : slice :=
  let stop := match s_stop sl with
              | None => None
              | Some s =>
                  if (0 <? s)%Z then
                    Some (s + (match s_step sl with
                               | Some st => if (st =? -1)%Z then -1 else 1
                               | None => 1 end))%Z
                  else Some s
              end in
  let start := match s_start sl with
               | None => None
               | Some s => if (s =? 0)%Z then None else Some s
               end in
  mkslice start stop None.

(** 445-454: sub-axis for an already normalised slice *)
Definition axis_slice (spl : spline_fn) (ax : axis) (sl : slice) : res axis :=
  let step_ok := match s_step sl with None => true | Some s => (Z.abs s =? 1)%Z end in
  if negb step_ok then Err ValueError
  else
    let! g := getslice (ax_grid ax) sl in
    let! gn := getslice (ax_node ax) (node_slice sl) in
    mk_axis spl (ax_name ax) (ax_unit ax) (Some gn) (Some g) None None.

(** Axis.__getitem__, 435-454 *)
Definition axis_getitem (spl : spline_fn) (ax : axis) (ik : ikey) : res (Q + axis) :=
  let! s := normalize_slice ax ik in
  match s with
  | inl i => rmap inl (getidx (ax_grid ax) i)
  | inr sl => rmap inr (axis_slice spl ax sl)
  end.
