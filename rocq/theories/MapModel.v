(** Interpolation of fields to other grids: Field._map_coordinates / map_coordinates,
    datahandling.py 1259-1402, topolar 2214-2275, shift_grid_by with interpolation='linear'
    2163-2207, and helper.py jac_det 326-353 and approx_jacobian 377-408.  No proofs in this file.

    Floats are real numbers.  [interp a p] is the value scipy.ndimage.map_coordinates gives for the
    array a at the position p in pixels, with the keyword arguments (order, mode, cval, prefilter) of
    the call; the order is one scipy knows.  The division into chunks is HelperModel (C46).
    A transform is the list of its coordinate functions; functions handed in by the caller act point
    by point.  Axes have at least one point. *)
From Coq Require Import Reals String Ascii List ZArith Bool.
From Verif Require Import PyBase NumpyModel NdModel CplxModel FieldModel FftModel UnstagModel RealModel.
Import ListNotations.
Local Open Scope R_scope.

Inductive cmode := Cartesian | Polar | PolarNoUnwrap | OtherMode.
Definition coord_fun := list R -> R.

(** Axis.value_to_index, 310-313 and 333-350; [nonlin] is _value_to_index_nonlinear (AxisModel, C66) *)
Definition rvti (nonlin : raxis -> R -> R) (ax : raxis) (x : R) : R :=
  if rislinear ax
  then (x - hd 0 (ra_node ax)) / (last (ra_node ax) 0 - hd 0 (ra_node ax)) * INR (length (ra_grid ax)) - / 2
  else nonlin ax x.
(** the coordinates of the point idx of meshgrid(sparse=True), 976-977 *)
Definition coords (axes : list raxis) (idx : list Z) : list R :=
  map2 (fun ax i => nth (Z.to_nat i) (ra_grid ax) 0) axes idx.
Definition axes_shape (axes : list raxis) : list Z := map (fun ax => Z.of_nat (length (ra_grid ax))) axes.

(** * The Jacobian *)
Definition drop_nth {A} (j : nat) (l : list A) : list A := firstn j l ++ skipn (S j) l.
(** np.linalg.det of a matrix with n rows: expansion along the first row *)
Fixpoint det (n : nat) (m : list (list R)) : R :=
  match n with
  | O => 1
  | S k => fold_right Rplus 0 (map (fun j => (if Nat.even j then 1 else -1) * nth j (hd [] m) 0 * det k (map (drop_nth j) (tl m))) (seq 0 n))
  end.
(** np.gradient along one axis with the coordinates x; edge_order=1 *)
Definition grad1 (x : list R) (g : Z -> R) (i : Z) : R :=
  let n := Z.of_nat (length x) in
  let X k := nth (Z.to_nat k) x 0 in
  if (i =? 0)%Z then (g 1%Z - g 0%Z) / (X 1%Z - X 0%Z)
  else if (i =? n - 1)%Z then (g (n - 1)%Z - g (n - 2)%Z) / (X (n - 1)%Z - X (n - 2)%Z)
  else
    let d1 := X i - X (i - 1)%Z in let d2 := X (i + 1)%Z - X i in
    - d2 / (d1 * (d1 + d2)) * g (i - 1)%Z + (d2 - d1) / (d1 * d2) * g i + d1 / (d2 * (d1 + d2)) * g (i + 1)%Z.
(** helper.approx_jacobian, helper.py 377-408, numpy at least 1.13: row i holds the derivatives of
    coordinate i; np.gradient wants two points *)
Definition approx_jacobian (axes : list raxis) (T : list coord_fun) : res (list (list (list Z -> R))) :=
  let! _ := guard (forallb (fun ax => (2 <=? length (ra_grid ax))%nat) axes) ValueError in
  Ok (map (fun t => map (fun b idx => grad1 (match nth_error axes b with Some ax => ra_grid ax | None => [] end)
                                            (fun k => t (coords axes (upd idx b k))) (nth b idx 0%Z))
                        (seq 0 (length axes))) T).
(** helper.jac_det, helper.py 326-353.  One row: its only entry.  numpy raises LinAlgError
    for a matrix which is not square *)
Definition jac_abs (jac : list (list (list Z -> R))) : res (list Z -> R) :=
  match jac with
  | [row] => Ok (fun idx => Rabs (hd (fun _ => 0) row idx))
  | _ =>
      let! _ := guard (forallb (fun r => (length r =? length jac)%nat) jac) BareException in
      Ok (fun idx => Rabs (det (length jac) (map (map (fun e => e idx)) jac)))
  end.
(** the factor of 1390: without transform the determinant is 1, whatever was handed in (1317-1322) *)
Definition map_factor (axes : list raxis) (T : option (list coord_fun)) (jac : option (list (list coord_fun))) (jdet : option coord_fun) : res (list Z -> R) :=
  match T with
  | None => Ok (fun _ => 1)
  | Some T =>
      match jdet with
      | Some d => Ok (fun idx => d (coords axes idx))
      | None =>
          match jac with
          | Some j => jac_abs (map (map (fun e idx => e (coords axes idx))) j)
          | None => let! j := approx_jacobian axes T in jac_abs j
          end
      end
  end.

(** * _map_coordinates *)
Section Interpolation.
  Variable interp : nda R -> list R -> R.
  (** skimage.restoration.unwrap_phase, if it could be imported *)
  Variable unwrap : option (nda R -> nda R).
  Variable nonlin : raxis -> R -> R.

  (** helper.map_coordinates_parallel, helper.py 208-323 *)
  Definition interpolate (a : nda R) (sh : list Z) (px : list Z -> list R) (npx : nat) : res (nda R) :=
    let nd := length (a_shape a) in
    let! _ := guard (negb (nd =? 0)%nat && negb (length sh =? 0)%nat) RuntimeError in
    let! _ := guard (npx =? nd)%nat RuntimeError in
    Ok (mkarr sh (fun idx => interp a (px idx))).
  (** 1363-1386 *)
  Definition map_matrix (f : sfield) (mode : cmode) (sh : list Z) (px : list Z -> list R) (npx : nat) : res (nda C) :=
    let d := rf_data (sf_field f) in
    let part h := mkarr (a_shape d) (fun idx => h (a_at d idx)) in
    if sf_real f then let! m := interpolate (part fst) sh px npx in Ok (np_map RtoC m)
    else
      match mode with
      | OtherMode => Err ValueError
      | Cartesian =>
          let! re := interpolate (part fst) sh px npx in
          let! im := interpolate (part snd) sh px npx in
          Ok (mkarr sh (fun idx => (a_at re idx, a_at im idx)))
      | _ =>
          let angle := part (fun z => arctan2 (snd z) (fst z)) in
          let angle := match mode, unwrap with Polar, Some u => u angle | _, _ => angle end in
          let! r := interpolate (part (fun z => sqrt (fst z ^ 2 + snd z ^ 2))) sh px npx in
          let! a := interpolate angle sh px npx in
          Ok (mkarr sh (fun idx => Cmul (RtoC (a_at r idx)) (cis (a_at a idx))))
      end.
  Definition map_coordinates (f : sfield) (newaxes : list raxis) (T : option (list coord_fun)) (mode : cmode)
                             (preserve : bool) (jac : option (list (list coord_fun))) (jdet : option coord_fun) : res sfield :=
    let g := sf_field f in
    let! _ := guard (negb preserve || (Z.of_nat (length newaxes) =? dims (a_shape (rf_data g)))%Z) ValueError in
    let sh := axes_shape newaxes in
    (* 1354: without transform the coordinates themselves *)
    let fs := match T with Some T => T | None => map (fun a x => nth a x 0) (seq 0 (length newaxes)) end in
    (* 1357: zip stops at the shorter list *)
    let px idx := map2 (fun ax t => rvti nonlin ax (t (coords newaxes idx))) (rf_axes g) fs in
    let! m := map_matrix f mode sh px (Nat.min (length (rf_axes g)) (length fs)) in
    let! m := if preserve
              then let! w := map_factor newaxes T jac jdet in Ok (mkarr sh (fun idx => Cmul (a_at m idx) (RtoC (w idx))))
              else Ok m in
    let! st := rstate (rf_ats g) (all_dims g) in
    let st := match st with Some b => b | None => false end in
    let n := Z.to_nat (dims sh) in
    Ok (mksf (sf_real f) (mkrf m newaxes (repeat (Some st) n) (repeat None n))).

  (** * topolar, 2214-2275 *)
  (** python's int() of a float *)
  Definition rtrunc (x : R) : Z := if Rle_dec 0 x then Int_part x else (- Int_part (- x))%Z.
  Definition name_starts_k (s : string) : bool := match s with String c _ => Ascii.eqb c "k"%char | EmptyString => false end.
  Definition polar_extent (g : rfield) (extent : option (list R)) : res (R * R * (R * R)) :=
    let radii :=
      let! ax := getidx (rf_axes g) 0 in let! ay := getidx (rf_axes g) 1 in
      polar_radii (ra_grid ax) (ra_grid ay) in
    match extent with
    | None => let! r := radii in Ok (- PI, PI, r)
    | Some e =>
        if (length e <? 4)%nat
        then let! r := radii in let! e0 := getidx e 0 in let! e1 := getidx e 1 in Ok (e0, e1, r)
        else Ok (nth 0 e 0, nth 1 e 0, (nth 2 e 0, nth 3 e 0))
    end.
  Definition polar_shape (g : rfield) (e : R * R * (R * R)) (shape : option (Z * Z)) : res (Z * Z) :=
    match shape with
    | Some s => Ok s
    | None =>
        let '(e0, e1, (e2, e3)) := e in
        let! sp := mapM rspacing (rf_axes g) in
        let! h := rmin_list sp in
        Ok (Z.min 1000 (rtrunc ((e1 - e0) * (e2 + e3) / 2 / h)), Z.min 1000 (rtrunc ((e3 - e2) / h)))
    end.
  (** np.linspace refuses a negative number of points *)
  Definition linspace_z (a b : R) (n : Z) : res (list R) := if (n <? 0)%Z then Err ValueError else Ok (rlinspace a b (Z.to_nat n)).
  Definition polar_transform : list coord_fun :=
    [fun x => fst (polar2linear (nth 0 x 0) (nth 1 x 0)); fun x => snd (polar2linear (nth 0 x 0) (nth 1 x 0))].
  Definition topolar (spl : rspline) (f : sfield) (extent : option (list R)) (shape : option (Z * Z)) (offset : R) (mode : cmode) (preserve : bool) : res sfield :=
    let g := sf_field f in
    let! e := polar_extent g extent in
    let! s := polar_shape g e shape in
    let '(e0, e1, (e2, e3)) := e in
    let! gt := linspace_z e0 e1 (fst s) in
    let! theta := rmk_axis spl "theta" "rad" gt in
    let! theta_offset := rmk_axis spl "theta" "rad" (map (fun x => x - offset) gt) in
    let! ax := getidx (rf_axes g) 0 in
    let! gr := linspace_z e2 e3 (snd s) in
    let! r := rmk_axis spl (if name_starts_k (ra_name ax) then "k" else "r") (ra_unit ax) gr in
    let! ret := map_coordinates f [theta_offset; r] (Some polar_transform) mode preserve None
                                (Some (fun x => polar2linear_jacdet (nth 0 x 0) (nth 1 x 0))) in
    (* setaxisobj, 914-926: the axis has as many points as the one it replaces *)
    let h := sf_field ret in
    let! axes := setidx (rf_axes h) 0 theta in
    Ok (mksf (sf_real ret) (mkrf (rf_data h) axes (rf_ats h) (rf_tao h))).
End Interpolation.

(** * shift_grid_by with interpolation='linear' *)
(** scipy.ndimage.shift(order=1, mode='nearest') at the position p: linear in every direction, positions
    outside moved to the nearest point *)
Definition clamp (n : Z) (x : R) : R := Rmax 0 (Rmin x (IZR (n - 1))).
Fixpoint linear_at (sh : list Z) (g : list Z -> R) (p : list R) : R :=
  match sh, p with
  | n :: sh, x :: p =>
      let c := clamp n x in
      let i := Int_part c in
      (1 - (c - IZR i)) * linear_at sh (fun r => g (i :: r)) p
      + (c - IZR i) * linear_at sh (fun r => g (Z.min (i + 1) (n - 1) :: r)) p
  | _, _ => g []
  end.
(** output[idx] = input at idx - s *)
Definition nd_shift (a : nda R) (s : list R) : nda R :=
  mkarr (a_shape a) (fun idx => linear_at (a_shape a) (a_at a) (map2 (fun i d => IZR i - d) idx s)).
(** _shift_grid_by_linear, 2163-2182.  The new axes are made without name and unit; moved grids pass
    the checks the old ones passed.  [matrix] in 2173 is no variable: NameError for complex data *)
Definition shift_grid_by_linear (f : sfield) (dx : list (Z * R)) : res sfield :=
  let g := sf_field f in
  let! shift := fold_left (fun acc p => let! l := acc in setidx l (fst p) (snd p)) dx (Ok (repeat 0 (length (rf_axes g)))) in
  let! sp := mapM rspacing (rf_axes g) in
  let px := map2 Rdiv shift sp in
  if negb (sf_real f) then Err NameError
  else
    let d := rf_data g in
    let m := np_map RtoC (nd_shift (mkarr (a_shape d) (fun idx => fst (a_at d idx))) (map Ropp px)) in
    let! axes := fold_left (fun acc p =>
                   let! l := acc in
                   let! ax := getidx (rf_axes g) (fst p) in
                   setidx l (fst p) (mkra "" "" (map (fun x => x + snd p) (ra_grid ax)) (map (fun x => x + snd p) (ra_node ax))))
                 dx (Ok (rf_axes g)) in
    Ok (mksf true (mkrf m axes (rf_ats g) (rf_tao g))).
Inductive shift_method := Fourier | Linear | OtherMethod.
(** shift_grid_by, 2184-2207, dx as a mapping *)
Definition shift_grid_with (spl : rspline) (f : sfield) (dx : list (Z * R)) (m : shift_method) : res sfield :=
  match m with
  | OtherMethod => Err ValueError
  | Fourier => rmap (mksf false) (shift_grid_by spl (sf_field f) dx)
  | Linear =>
      let! dx := mapM (fun p => rmap (fun i => (i, snd p)) (axesidentify (fst p))) dx in
      shift_grid_by_linear f dx
  end.
