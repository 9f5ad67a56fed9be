(** Particle deposition: postpic/particles/_particlestogrid.pyx, the three
    functions histogram, histogram2d, histogram3d.  No proofs in this file.

    Simplifications: doubles are exact rationals; C ints are unbounded, except that
    the conversion [<int>x] of a double outside the range of a 32 bit int is
    undefined in C and therefore given by an oracle [ub]; np.spacing is an oracle. *)
From Verif Require Import PyBase NumpyModel.
From Verif Require Export NdModel.

(** arrays of rationals *)
Notation arr := (nda Q).

(** np.zeros(shape): a negative dimension raises ValueError *)
Definition np_zeros (sh : list Z) : res arr :=
  if forallb (fun n => (0 <=? n)%Z) sh then Ok (mkarr sh (fun _ => 0)) else Err ValueError.

(** [ret[idx] += v] in code compiled with boundscheck(False), wraparound(False)
    (_particlestogrid.pyx 36-37, 133-134, 282-283): an index outside the array is
    a memory fault. *)
Definition add_at (a : arr) (idx : list Z) (v : Q) : res arr :=
  if in_shape (a_shape a) idx
  then Ok (mkarr (a_shape a) (fun j => if idx_eqb idx j then a_at a j + v else a_at a j))
  else Err MemFault.

Fixpoint add_all (a : arr) (ws : list (list Z * Q)) : res arr :=
  match ws with
  | [] => Ok a
  | (idx, v) :: rest => let! a' := add_at a idx v in add_all a' rest
  end.

(** [ret[supp:supp+n0, supp:supp+n1, ...]]: _particlestogrid.pyx 130, 278, 465 *)
Definition crop (supp : Z) (bins : list Z) (a : arr) : arr :=
  mkarr (map (Z.max 0) bins) (fun idx => a_at a (map (Z.add supp) idx)).

(** _particlestogrid.pyx 29-34: the table of particle shapes *)
Inductive order := NGP | Tophat | Triangle | Spline3.
Inductive shapearg := ShInt (z : Z) | ShName (s : string).

(** [shape in shapes[k]] for k = 0..3 (66, 77, 92, 110); an unknown shape leaves
    [ret] unset and slicing None raises TypeError (130). *)
Definition order_of (s : shapearg) : res order :=
  match s with
  | ShInt z =>
      if (z =? 0)%Z then Ok NGP
      else if (z =? 1)%Z then Ok Tophat
      else if (z =? 2)%Z then Ok Triangle
      else if (z =? 3)%Z then Ok Spline3
      else Err TypeError
  | ShName n =>
      if String.eqb n "NGP" then Ok NGP
      else if String.eqb n "tophat" then Ok Tophat
      else if String.eqb n "triangle" then Ok Triangle
      else if String.eqb n "spline3" then Ok Spline3
      else Err TypeError
  end.

(** shape_supp: _particlestogrid.pyx 68, 79, 94, 112 (same in 2d, 3d) *)
Definition supp (o : order) : Z :=
  match o with NGP => 0 | Tophat => 1 | Triangle => 2 | Spline3 => 3 end%Z.

(** truncation toward zero *)
Definition trunc (x : Q) : Z := Z.quot (Qnum x) (Zpos (Qden x)).

Definition int_max : Z := (2 ^ 31 - 1)%Z.
Definition int_min : Z := (- 2 ^ 31)%Z.

(** [<int>x]; [ub] gives the value when x does not fit into an int, where C leaves
    the result undefined (x86-64 yields the smallest int) *)
Definition c_int (ub : Q -> Z) (x : Q) : Z :=
  let t := trunc x in
  if ((int_min <=? t) && (t <=? int_max))%Z then t else ub x.

(** xr: lines 74 (index used directly), 84, 99, 117 *)
Definition cell (ub : Q -> Z) (o : order) (x : Q) : Z :=
  match o with
  | NGP | Triangle => c_int ub x
  | Tophat | Spline3 => c_int ub (x + (1#2))
  end.

(** Weights of the touched cells, lowest cell first, as functions of the position
    x (in units of bins) and the reference cell xr.
    1d: 74-76, 87-91, 103-109, 121-129; 2d: 186-188, 201-204, 229-234, 259-266;
    3d: 347-349, 364-369, 400-408, 439-450. *)
Definition weights_of (o : order) (x : Q) (xr : Z) : list Q :=
  match o with
  | NGP => [1]
  | Tophat => [(1#2) - x + inject_Z xr; (1#2) + x - inject_Z xr]
  | Triangle =>
      let xd := x - inject_Z xr in
      [(1#2) * ((1 - xd) * (1 - xd)); (1#2) + xd - xd * xd; (1#2) * (xd * xd)]
  | Spline3 =>
      let xd := x - inject_Z xr + (1#2) in
      [(1#6) + xd * (- (1#2) + ((1#2) - xd / 6) * xd);
       (2#3) + (- (1) + xd / 2) * xd * xd;
       (1#6) + xd * ((1#2) + ((1#2) - xd / 2) * xd);
       xd * xd * xd / 6]
  end.

(** Index of the lowest touched cell in the padded array relative to xr:
    ret[<int>x] (74), xr+supp-1 (88), xr+supp-1 (103), xr+supp-2 (121);
    xoffset in 2d (206, 235, 267) and 3d (370, 409, 451). *)
Definition base (o : order) : Z :=
  match o with
  | NGP => 0
  | Tophat | Triangle => supp o - 1
  | Spline3 => supp o - 2
  end%Z.

(** number of touched cells per direction *)
Definition width (o : order) : nat :=
  match o with NGP => 1 | Tophat => 2 | Triangle => 3 | Spline3 => 4 end.

(** Range tests.  1d: 72, 85, 101, 119 *)
Definition accept1 ub (o : order) (bins : Z) (x : Q) : bool :=
  match o with
  | NGP => (0 <?q x) && (x <?q inject_Z bins)
  | _ => let xr := cell ub o x in ((0 <=? xr) && (xr <=? bins))%Z
  end.

(** 2d: 184, 200, 228, 258 (the test of the second coordinate is [y >= 0]) *)
Definition accept2 ub (o : order) (xbins ybins : Z) (p : Q * Q) : bool :=
  let '(x, y) := p in
  match o with
  | NGP => (0 <?q x) && (0 <?q y) && (x <?q inject_Z xbins) && (y <?q inject_Z ybins)
  | _ => let xr := cell ub o x in
         let yr := cell ub o y in
         (0 <=? xr)%Z && (0 <=?q y) && (xr <=? xbins)%Z && (yr <=? ybins)%Z
  end.

(** 3d: 345, 363, 399, 438 *)
Definition accept3 ub (o : order) (xbins ybins zbins : Z) (p : Q * Q * Q) : bool :=
  let '(x, y, z) := p in
  match o with
  | NGP => (0 <?q x) && (0 <?q y) && (0 <?q z)
           && (x <?q inject_Z xbins) && (y <?q inject_Z ybins) && (z <?q inject_Z zbins)
  | Tophat =>
      let xr := cell ub o x in
      let yr := cell ub o y in
      let zr := cell ub o z in
      (0 <=? xr)%Z && (0 <=?q y) && (xr <=? xbins)%Z && (yr <=? ybins)%Z
      && (0 <=?q z) && (zr <=? zbins)%Z
  | _ =>
      let xr := cell ub o x in
      let yr := cell ub o y in
      let zr := cell ub o z in
      (0 <=? xr)%Z && (0 <=?q y) && (0 <=? zr)%Z
      && (xr <=? xbins)%Z && (yr <=? ybins)%Z && (zr <=? zbins)%Z
  end.

(** The increments of one accepted particle, lowest cells first.
    1d: unrolled in the source; for tophat (87-91) the source touches the upper cell
    first, the order of the two additions to different cells is not modelled. *)
Definition offsets (o : order) : list nat := seq 0 (width o).
Definition wnth (w : list Q) (k : nat) : Q := nth k w 0.

Definition writes1 ub (o : order) (x : Q) (w : Q) : list (list Z * Q) :=
  let xr := cell ub o x in
  let wx := weights_of o x xr in
  map (fun xs => ([xr + base o + Z.of_nat xs]%Z, wnth wx xs * w)) (offsets o).

Definition writes2 ub (o : order) (p : Q * Q) (w : Q) : list (list Z * Q) :=
  let '(x, y) := p in
  let xr := cell ub o x in
  let yr := cell ub o y in
  let wx := weights_of o x xr in
  let wy := weights_of o y yr in
  flat_map (fun xs => map (fun ys =>
     ([xr + base o + Z.of_nat xs; yr + base o + Z.of_nat ys]%Z, wnth wx xs * wnth wy ys * w))
    (offsets o)) (offsets o).

Definition writes3 ub (o : order) (p : Q * Q * Q) (w : Q) : list (list Z * Q) :=
  let '(x, y, z) := p in
  let xr := cell ub o x in
  let yr := cell ub o y in
  let zr := cell ub o z in
  let wx := weights_of o x xr in
  let wy := weights_of o y yr in
  let wz := weights_of o z zr in
  flat_map (fun xs => flat_map (fun ys => map (fun zs =>
     ([xr + base o + Z.of_nat xs; yr + base o + Z.of_nat ys; zr + base o + Z.of_nat zs]%Z,
      wnth wx xs * wnth wy ys * wnth wz zs * w))
    (offsets o)) (offsets o)) (offsets o).

(** [weights[i]] with bounds checks switched off; [None] means 1.0 *)
Definition weight_at (ws : option (list Q)) (i : nat) : res Q :=
  match ws with
  | None => Ok 1
  | Some l => match nth_error l i with Some w => Ok w | None => Err MemFault end
  end.

(** The particle loops 70-76, 82-91, ...; weights are only read for accepted
    particles. *)
Fixpoint deposit {P} (accept : P -> bool) (writes : P -> Q -> list (list Z * Q))
    (ws : option (list Q)) (i : nat) (ps : list P) (a : arr) : res arr :=
  match ps with
  | [] => Ok a
  | p :: rest =>
      if accept p then
        let! w := weight_at ws i in
        let! a' := add_all a (writes p w) in
        deposit accept writes ws (S i) rest a'
      else deposit accept writes ws (S i) rest a
  end.

(** 53-57: a range that is smaller than the float spacing at xmax is widened.
    [spacing] is np.spacing, which has the sign of its argument. *)
Definition widen (spacing : Q -> Q) (r : Q * Q) : Q * Q :=
  let '(xmin, xmax) := r in
  let sx := spacing xmax in
  if qabs (xmax - xmin) <?q sx then (xmin - sx, xmax + sx) else (xmin, xmax).

(** 60: 1.0/(xmax - xmin)*bins; cython checks the divisor (cdivision is off) *)
Definition inv_dx (r : Q * Q) (bins : Z) : res Q :=
  let '(xmin, xmax) := r in
  if (xmax - xmin) ==?q 0 then Err ZeroDivisionError
  else Ok (1 / (xmax - xmin) * inject_Z bins).

(** 71, 83, 98, 116: position in units of bins *)
Definition scaled (xmin dx v : Q) : Q := (v - xmin) * dx.

(** _particlestogrid.pyx 38-130 *)
Definition histogram ub spacing (data : list Q) (range : Q * Q) (bins : Z)
    (ws : option (list Q)) (shape : shapearg) : res (arr * list Q) :=
  let r := widen spacing range in
  let! edges := np_linspace (fst r) (snd r) (bins + 1) in
  let! dx := inv_dx r bins in
  let! o := order_of shape in
  let! ret := np_zeros [bins + 2 * supp o]%Z in
  let! ret := deposit (accept1 ub o bins) (writes1 ub o) ws 0
                (map (scaled (fst r) dx) data) ret in
  Ok (crop (supp o) [bins] ret, edges).

(** _particlestogrid.pyx 135-278 *)
Definition histogram2d ub spacing (datax datay : list Q) (ws : option (list Q))
    (rx ry : Q * Q) (xbins ybins : Z) (shape : shapearg)
    : res (arr * list Q * list Q) :=
  let! _ := guard (Nat.eqb (length datax) (length datay)) ValueError in
  let rx := widen spacing rx in
  let ry := widen spacing ry in
  let! xedges := np_linspace (fst rx) (snd rx) (xbins + 1) in
  let! yedges := np_linspace (fst ry) (snd ry) (ybins + 1) in
  let! dx := inv_dx rx xbins in
  let! dy := inv_dx ry ybins in
  let! o := order_of shape in
  let! ret := np_zeros [xbins + 2 * supp o; ybins + 2 * supp o]%Z in
  let! ret := deposit (accept2 ub o xbins ybins) (writes2 ub o) ws 0
                (combine (map (scaled (fst rx) dx) datax) (map (scaled (fst ry) dy) datay))
                ret in
  Ok (crop (supp o) [xbins; ybins] ret, xedges, yedges).

(** _particlestogrid.pyx 284-465 *)
Definition histogram3d ub spacing (datax datay dataz : list Q) (ws : option (list Q))
    (rx ry rz : Q * Q) (xbins ybins zbins : Z) (shape : shapearg)
    : res (arr * list Q * list Q * list Q) :=
  let! _ := guard (Nat.eqb (length datax) (length datay)) ValueError in
  let! _ := guard (Nat.eqb (length datax) (length dataz)) ValueError in
  let rx := widen spacing rx in
  let ry := widen spacing ry in
  let rz := widen spacing rz in
  let! xedges := np_linspace (fst rx) (snd rx) (xbins + 1) in
  let! yedges := np_linspace (fst ry) (snd ry) (ybins + 1) in
  let! zedges := np_linspace (fst rz) (snd rz) (zbins + 1) in
  let! dx := inv_dx rx xbins in
  let! dy := inv_dx ry ybins in
  let! dz := inv_dx rz zbins in
  let! o := order_of shape in
  let! ret := np_zeros [xbins + 2 * supp o; ybins + 2 * supp o; zbins + 2 * supp o]%Z in
  let! ret := deposit (accept3 ub o xbins ybins zbins) (writes3 ub o) ws 0
                (combine (combine (map (scaled (fst rx) dx) datax)
                                  (map (scaled (fst ry) dy) datay))
                         (map (scaled (fst rz) dz) dataz)) ret in
  Ok (crop (supp o) [xbins; ybins; zbins] ret, xedges, yedges, zedges).
