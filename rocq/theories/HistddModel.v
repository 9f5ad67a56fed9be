(** histogramdd (postpic/particles/_routines.py 39-150) and the density histogram of
    MultiSpecies (postpic/particles/particles.py 1014-1102).  No proofs in this file. *)
From Verif Require Import PyBase NumpyModel DepModel.

(** The [data] argument: a 1-d array or list of numbers, a sequence of 1-d arrays, or
    a two dimensional numpy array given by its rows. *)
Inductive hdata :=
| DVec (l : list Q)
| DSeq (l : list (list Q))
| DMat (ncols : nat) (rows : list (list Q)).

(** The [range] argument: None, a flat pair, or a sequence with one entry per axis
    (each None or a pair whose entries may be None).  Numbers are python numbers. *)
Inductive hrange :=
| RNone
| RPair (a b : option Q)
| RSeq (l : list (option (option Q * option Q))).

(** The [bins] argument: None, one number, or a sequence. *)
Inductive hbins := BNone | BInt (n : Z) | BSeq (l : list Z).

Definition column (m : list (list Q)) (i : nat) : list Q := map (fun row => nth i row 0) m.

(** _routines.py 86-96: an array with more than three rows is read column by column,
    any other two dimensional array row by row; a 1-d array becomes a 1-tuple.
    [data[0]] raises IndexError on empty input. *)
Definition normal_data (d : hdata) : res (list (list Q)) :=
  match d with
  | DVec [] => Err IndexError
  | DVec l => Ok [l]
  | DSeq [] => Err IndexError
  | DSeq l => Ok l
  | DMat nc rows =>
      let l := if Nat.ltb 3 (length rows) then map (column rows) (seq 0 nc) else rows in
      match l with [] => Err IndexError | _ => Ok l end
  end.

(** 99-100: a pair whose first entry is a number becomes a 1-tuple.  np.isscalar(None)
    is False, so (None, b) stays a flat sequence whose entries cannot be indexed:
    every later lookup raises TypeError and is replaced by the data range. *)
Definition normal_range (r : hrange) : res (option (list (option (option Q * option Q)))) :=
  match r with
  | RNone => Ok None
  | RPair (Some a) b => Ok (Some [Some (Some a, b)])
  | RPair None b => Ok (Some [None; None])
  | RSeq [] => Err IndexError
  | RSeq l => Ok (Some l)
  end.

Definition q_min (a b : Q) : Q := if a <=?q b then a else b.
Definition q_max (a b : Q) : Q := if a <=?q b then b else a.
(** np.min, np.max: empty input raises ValueError *)
Definition np_min (l : list Q) : res Q :=
  match l with [] => Err ValueError | x :: t => Ok (fold_left q_min t x) end.
Definition np_max (l : list Q) : res Q :=
  match l with [] => Err ValueError | x :: t => Ok (fold_left q_max t x) end.

(** 115-126: the range of axis number [ax] with data [d]; a missing range or bound
    raises TypeError inside and is filled from the data, a missing entry of the
    sequence is an uncaught IndexError. *)
Definition axis_range (kr : option (list (option (option Q * option Q)))) (ax : nat) (d : list Q)
    : res (Q * Q) :=
  let entry := match kr with
               | None => Ok None
               | Some l => match nth_error l ax with Some e => Ok e | None => Err IndexError end
               end in
  let! e := entry in
  let lo := match e with Some (Some a, _) => Ok a | _ => np_min d end in
  let hi := match e with Some (_, Some b) => Ok b | _ => np_max d end in
  let! a := lo in
  let! b := hi in
  Ok (a, b).

(** 101-107 *)
Definition normal_bins (b : hbins) (ndim : nat) : list Z :=
  match b with
  | BInt n => repeat n ndim
  | BNone => match ndim with
             | 1%nat => [800] | 2%nat => [500; 500] | _ => [200; 200; 200]
             end%Z
  | BSeq l => l
  end.

(** 76-150.  In one dimension surplus bins are ignored (131), otherwise np.zeros(bins)
    has the wrong number of dimensions for the typed buffer: ValueError. *)
Definition histogramdd ub spacing (d : hdata) (r : hrange) (ws : option (list Q)) (b : hbins)
    (shape : option shapearg) : res (arr * list (list Q)) :=
  let sh := match shape with None => ShInt 2 | Some s => s end in
  let! data := normal_data d in
  let! _ := guard (Nat.leb (length data) 3) ValueError in
  let! kr := normal_range r in
  let bins := normal_bins b (length data) in
  match data with
  | [dx] =>
      let! rx := axis_range kr 0 dx in
      match bins with
      | [] => Err IndexError
      | n :: _ =>
          let! he := histogram ub spacing dx rx n ws sh in
          Ok (fst he, [snd he])
      end
  | [dx; dy] =>
      let! rx := axis_range kr 0 dx in
      let! ry := axis_range kr 1 dy in
      match bins with
      | [nx; ny] =>
          let! he := histogram2d ub spacing dx dy ws rx ry nx ny sh in
          let '(h, ex, ey) := he in Ok (h, [ex; ey])
      | nx :: ny :: _ => Err ValueError
      | _ => Err IndexError
      end
  | [dx; dy; dz] =>
      let! rx := axis_range kr 0 dx in
      let! ry := axis_range kr 1 dy in
      let! rz := axis_range kr 2 dz in
      match bins with
      | [nx; ny; nz] =>
          let! he := histogram3d ub spacing dx dy dz ws rx ry rz nx ny nz sh in
          let '(h, ex, ey, ez) := he in Ok (h, [ex; ey; ez])
      | nx :: ny :: nz :: _ => Err ValueError
      | _ => Err IndexError
      end
  | _ => Err AssertionError
  end.

(** product of a list (np.prod) *)
Definition q_prod (l : list Q) : Q := fold_right Qmult 1 l.

(** particles.py 1087-1091 createedges *)
Definition create_edges (r : option (Q * Q)) (n : Z) : res (list Q) :=
  match r with
  | Some (a, b) => np_linspace a b (n + 1)
  | None => np_linspace 0 1 (n + 1)
  end.

(** [bins[i]] of the keyword argument: a number cannot be indexed *)
Definition bins_at (b : hbins) (i : nat) : res Z :=
  match b with
  | BSeq l => match nth_error l i with Some n => Ok n | None => Err IndexError end
  | _ => Err TypeError
  end.

Fixpoint edges_of (b : hbins) (i : nat) (ranges : list (option (Q * Q))) : res (list (list Q)) :=
  match ranges with
  | [] => Ok []
  | r :: rest =>
      let! n := bins_at b i in
      let! e := create_edges r n in
      let! es := edges_of b (S i) rest in
      Ok (e :: es)
  end.

(** particles.py 1042-1102 _createHistgram, from the point where the scalar functions
    have been evaluated to [data] and the weights to [w]; simextent and simgrid off.
    [ranges] holds rangex, rangey, rangez.  1084-1094: without data the number of edges
    is taken from the length of the first dimension of the zero array. *)
Definition create_hist ub spacing (data : list (list Q)) (w : list Q)
    (ranges : list (option (Q * Q))) (b : hbins) (shape : option shapearg)
    : res (arr * list (list Q)) :=
  let! _ := guard (Nat.leb (length data) 3) TypeError in
  match data with
  | [] => Err IndexError
  | [] :: _ =>
      let! sh := match b with BNone => Err TypeError | BInt n => Ok [n] | BSeq l => Ok l end in
      let! h := np_zeros sh in
      let! n0 := match sh with [] => Err TypeError | n :: _ => Ok n end in
      let! es := edges_of b 0 (firstn (Z.to_nat n0) ranges) in
      Ok (h, es)
  | _ =>
      let kr := RSeq (map (fun r => match r with
                                    | None => None
                                    | Some (a, c) => Some (Some a, Some c)
                                    end) ranges) in
      let! he := histogramdd ub spacing (DSeq data) kr (Some w) b shape in
      let '(h, edges) := he in
      let! widths := fold_right (fun e acc =>
           let! ws := acc in
           let! e1 := getidx e 1 in
           let! e0 := getidx e 0 in
           Ok ((e1 - e0) :: ws)) (Ok []) edges in
      let dV := q_prod widths in
      Ok (mkarr (a_shape h) (fun idx => a_at h idx / dV), edges)
  end.
