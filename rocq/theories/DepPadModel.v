(** The arrays of _particlestogrid.pyx before the cells outside the range are cut off: histogram 38-129,
    histogram2d 135-277, histogram3d 284-464, as in DepModel, with shape_supp and the edges.
    No proofs in this file. *)
From Verif Require Import PyBase NumpyModel DepModel.

(** 38-129 *)
Definition padded1 ub spacing (data : list Q) (range : Q * Q) (bins : Z)
    (ws : option (list Q)) (shape : shapearg) : res (arr * Z * list Q) :=
  let r := widen spacing range in
  let! edges := np_linspace (fst r) (snd r) (bins + 1) in
  let! dx := inv_dx r bins in
  let! o := order_of shape in
  let! ret := np_zeros [bins + 2 * supp o]%Z in
  let! ret := deposit (accept1 ub o bins) (writes1 ub o) ws 0
                (map (scaled (fst r) dx) data) ret in
  Ok (ret, supp o, edges).
(** 135-277 *)
Definition padded2 ub spacing (datax datay : list Q) (ws : option (list Q))
    (rx ry : Q * Q) (xbins ybins : Z) (shape : shapearg)
    : res (arr * Z * list Q * list Q) :=
  let! _ := guard (Nat.eqb (length datax) (length datay)) ValueError in
  let rx := widen spacing rx in
  let ry := widen spacing ry in
  let! xedges := np_linspace (fst rx) (snd rx) (xbins + 1) in
  let! yedges := np_linspace (fst ry) (snd ry) (ybins + 1) in
  let! dx := inv_dx rx xbins in
  let! dy := inv_dx ry ybins in
  let! o := order_of shape in
  let! ret := np_zeros [xbins + 2 * supp o; ybins + 2 * supp o]%Z in
  let! ret := deposit (accept2 ub o xbins ybins) (writes2 ub o) ws 0
                (combine (map (scaled (fst rx) dx) datax) (map (scaled (fst ry) dy) datay))
                ret in
  Ok (ret, supp o, xedges, yedges).
(** 284-464 *)
Definition padded3 ub spacing (datax datay dataz : list Q) (ws : option (list Q))
    (rx ry rz : Q * Q) (xbins ybins zbins : Z) (shape : shapearg)
    : res (arr * Z * list Q * list Q * list Q) :=
  let! _ := guard (Nat.eqb (length datax) (length datay)) ValueError in
  let! _ := guard (Nat.eqb (length datax) (length dataz)) ValueError in
  let rx := widen spacing rx in
  let ry := widen spacing ry in
  let rz := widen spacing rz in
  let! xedges := np_linspace (fst rx) (snd rx) (xbins + 1) in
  let! yedges := np_linspace (fst ry) (snd ry) (ybins + 1) in
  let! zedges := np_linspace (fst rz) (snd rz) (zbins + 1) in
  let! dx := inv_dx rx xbins in
  let! dy := inv_dx ry ybins in
  let! dz := inv_dx rz zbins in
  let! o := order_of shape in
  let! ret := np_zeros [xbins + 2 * supp o; ybins + 2 * supp o; zbins + 2 * supp o]%Z in
  let! ret := deposit (accept3 ub o xbins ybins zbins) (writes3 ub o) ws 0
                (combine (combine (map (scaled (fst rx) dx) datax)
                                  (map (scaled (fst ry) dy) datay))
                         (map (scaled (fst rz) dz) dataz)) ret in
  Ok (ret, supp o, xedges, yedges, zedges).
