(** Model of Field.integrate with a method taken from scipy, of Field.derivative on the
    grid of the field, of the assignment to Field.extent and of Field.ensure_positive_axes,
    /repo/postpic/datahandling.py 998-1020, 1711-1720, 1743-1751, 1791-1836, 1854-1868.
    No proofs in this file.

    Simplifications: numbers are exact; scipy and numpy are modelled by the formulas
    they document (scipy.integrate.simpson as of scipy 1.11, trapezoid, numpy.gradient
    with edge_order 1), one line of samples at a time; numpy is at least 1.13. *)
From Verif Require Import PyBase NumpyModel AxisModel NdModel FieldModel.

(** * Methods of integration: the samples x of the grid and y of the data *)
(** scipy.integrate.trapezoid(y, x), an argument of integrate, 1791 *)
Fixpoint trapezoid (x y : list Q) : Q :=
  match x, y with
  | x0 :: ((x1 :: _) as x'), y0 :: ((y1 :: _) as y') => (x1 - x0) * (y1 + y0) / 2 + trapezoid x' y'
  | _, _ => 0
  end.
(** scipy.integrate.simpson(y, x=x), the default of 1791: the parabola through three
    samples; a division by zero gives zero in scipy, too *)
Definition simpson_piece (h0 h1 y0 y1 y2 : Q) : Q :=
  (h0 + h1) / 6 * (y0 * (2 - 1 / (h0 / h1)) + y1 * ((h0 + h1) * ((h0 + h1) / (h0 * h1))) + y2 * (2 - h0 / h1)).
(** samples 0, 2, 4, ... start a parabola if two more samples follow *)
Fixpoint simpson_pieces (x y : list Q) : Q :=
  match x, y with
  | x0 :: x1 :: ((x2 :: _) as x'), y0 :: y1 :: ((y2 :: _) as y') =>
      simpson_piece (x1 - x0) (x2 - x1) y0 y1 y2 + simpson_pieces x' y'
  | _, _ => 0
  end.
(** an even number of samples: the last interval, below the parabola through the last
    three samples *)
Definition simpson_last (h0 h1 y0 y1 y2 : Q) : Q :=
  (2 * (h1 * h1) + 3 * h0 * h1) / (6 * (h1 + h0)) * y2 + (h1 * h1 + 3 * h0 * h1) / (6 * h0) * y1
  - h1 * h1 * h1 / (6 * h0 * (h0 + h1)) * y0.
Definition simpson (x y : list Q) : Q :=
  let n := length y in
  if Nat.even n then
    if (n =? 2)%nat then 1 / 2 * (nth 1 x 0 - nth 0 x 0) * (nth 1 y 0 + nth 0 y 0)
    else simpson_pieces x y
         + simpson_last (nth (n - 2) x 0 - nth (n - 3) x 0) (nth (n - 1) x 0 - nth (n - 2) x 0)
                        (nth (n - 3) y 0) (nth (n - 2) y 0) (nth (n - 1) y 0)
  else simpson_pieces x y.

(** What can be passed as method, 1791-1804: the two names, a function of scipy, or
    something that is neither a function nor a known name *)
Inductive line_method := MSimpson | MTrapezoid.
Inductive method := MConstant | MFast | MLines (m : line_method) | MUnknown.
Definition line_integral (m : line_method) : list Q -> list Q -> Q :=
  match m with MSimpson => simpson | MTrapezoid => trapezoid end.

(** One round of the loop 1745-1749; the field is turned into an array by scipy *)
Definition scipy_step (m : line_method) (f : field Q) (axis : Z) : res (field Q) :=
  let l := f_top f in
  let! ax := getidx (l_axes l) axis in
  let! n := getidx (f_shape f) axis in
  if negb (Z.of_nat (length (ax_grid ax)) =? n)%Z then Err ValueError
  else if (n =? 0)%Z && (match m with MSimpson => true | MTrapezoid => false end) then Err IndexError  (* y[-1] *)
  else
    let! d := np_reduce (line_integral m (ax_grid ax)) (f_data f) (AxInt axis) false in
    let! axes := delidx (l_axes l) axis in
    let! ats := delidx (l_ats l) axis in
    let! tao := delidx (l_tao l) axis in
    Ok (mkField d (mkLayer axes ats tao (l_name l) (l_unit l)) []).
Fixpoint scipy_loop (m : line_method) (f : field Q) (axes : list Z) : res (field Q) :=
  match axes with
  | [] => Ok f
  | a :: rest => let! g := scipy_step m f a in scipy_loop m g rest
  end.
(** Field._integrate_scipy, 1743-1751 *)
Definition integrate_scipy (m : line_method) (f : field Q) (axes : list Z) : res (field Q) :=
  scipy_loop m f (rev (sort_Z axes)).

(** Field.integrate(axes=None, method=simpson), 1791-1817 *)
Inductive axes_arg := AllAxes | OneAxis (a : Z) | TheAxes (l : list Z).
Definition integrate (spl : spline_fn) (f : field Q) (axes : axes_arg) (m : method) : res (field Q) :=
  let l := match axes with
           | AllAxes => zrange (dims (f_shape f))
           | OneAxis a => [a]
           | TheAxes l => l
           end in
  match m with
  | MUnknown => Err ValueError
  | MConstant => integrate_constant spl f l
  | MFast => integrate_fast f l
  | MLines m => integrate_scipy m f l
  end.

(** * Derivative *)
(** numpy.gradient(y, x, edge_order=1) at sample i of n, called by 1832: differences of
    the first and last two samples, the parabola through three samples elsewhere *)
Definition gradient_at (x y : Z -> Q) (n i : Z) : Q :=
  if (i =? 0)%Z then (y 1%Z - y 0%Z) / (x 1%Z - x 0%Z)
  else if (i =? n - 1)%Z then (y (n - 1)%Z - y (n - 2)%Z) / (x (n - 1)%Z - x (n - 2)%Z)
  else
    let d1 := x i - x (i - 1)%Z in
    let d2 := x (i + 1)%Z - x i in
    - (d2) / (d1 * (d1 + d2)) * y (i - 1)%Z + (d2 - d1) / (d1 * d2) * y i + d1 / (d2 * (d1 + d2)) * y (i + 1)%Z.
Definition np_gradient (a : nda Q) (x : list Q) (axis : Z) : res (nda Q) :=
  let! k := py_pos (length (a_shape a)) axis in
  let n := nth k (a_shape a) 0%Z in
  if negb (Z.of_nat (length x) =? n)%Z then Err ValueError
  else if (length x <=? 1)%nat then Err IndexError      (* diffx[0] *)
  else Ok (mkarr (a_shape a)
             (fun idx => gradient_at (fun i => nth (Z.to_nat i) x 0) (fun i => a_at a (upd idx k i)) n (nth k idx 0%Z))).
(** Field._derivative, 1819-1836 *)
Definition derivative_grid (f : field Q) (axis : Z) : res (field Q) :=
  let l := f_top f in
  let! ax := getidx (l_axes l) axis in
  let! d := np_gradient (f_data f) (ax_grid ax) axis in
  Ok (mkField d (mkLayer (l_axes l) (l_ats l) (l_tao l) (String.append (l_name l) "'") (l_unit l)) []).
(** Field.derivative(axis, staggered=False), 1854-1868 *)
Definition derivative (spl : spline_fn) (f : field Q) (axis : Z) (staggered : bool) : res (field Q) :=
  if staggered then derivative_stagger spl f axis else derivative_grid f axis.

(** * The extent *)
(** Field.extent, 998-1004 *)
Definition get_extent {V} (f : field V) : list Q :=
  flat_map (fun ax => [fst (ax_extent ax); snd (ax_extent ax)]) (f_axes f).
Definition with_axes {V} (f : field V) (axes : list axis) : field V :=
  mkField (f_data f) (mkLayer axes (f_ats f) (f_tao f) (l_name (f_top f)) (l_unit (f_top f))) (f_inner f).
(** The new axes after one round of the loop 1012-1020 *)
Definition extent_step {V} (spl : spline_fn) (f : field V) (e : list Q) (k : nat) : res (list axis) :=
  let! ax := getidx (f_axes f) (Z.of_nat k) in
  let! lin := islinear ax in
  if negb lin then Err TypeError
  else
    let! n := getidx (f_shape f) (Z.of_nat k) in
    let! new := mk_axis spl (ax_name ax) (ax_unit ax) None None
                  (Some (nth (2 * k) e 0, nth (2 * k + 1) e 0)) (Some n) in
    setaxisobj (f_axes f) (f_shape f) (Z.of_nat k) new.
(** The loop: the field as it is left behind, and the error if there is one *)
Fixpoint extent_loop {V} (spl : spline_fn) (f : field V) (e : list Q) (ks : list nat) : field V * res unit :=
  match ks with
  | [] => (f, Ok tt)
  | k :: rest =>
      match extent_step spl f e k with
      | Err x => (f, Err x)
      | Ok axes => extent_loop spl (with_axes f axes) e rest
      end
  end.
(** field.extent = e, 1006-1020 *)
Definition set_extent {V} (spl : spline_fn) (f : field V) (e : list Q) : field V * res unit :=
  if negb (dims (f_shape f) * 2 =? Z.of_nat (length e))%Z then (f, Err TypeError)
  else extent_loop spl f e (seq 0 (length (f_axes f))).

(** Field.ensure_positive_axes, 1711-1720: the axes of the field it is called on decide *)
Fixpoint positive_loop {V} (spl : spline_fn) (ret : field V) (i : nat) (axes : list axis) : res (field V) :=
  match axes with
  | [] => Ok ret
  | ax :: rest =>
      let! ret' := (if isreversed ax then field_flip spl ret (Z.of_nat i) else Ok ret) in
      positive_loop spl ret' (S i) rest
  end.
Definition ensure_positive_axes {V} (spl : spline_fn) (f : field V) : res (field V) :=
  positive_loop spl f 0 (f_axes f).
