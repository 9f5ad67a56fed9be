(** Specification of particle deposition, independent of the model: the cardinal
    B-splines and the cells of a range. *)
From Verif Require Import PyBase QSum.

(** Share of a particle at distance u (in units of cells) from the centre of a cell.
    Order 0: the whole particle if it is in the half open cell.  Order n: the overlap
    of the cell with a particle smeared over the B-spline of degree n-1 and width n. *)
Definition bspline (degree : nat) (u : Q) : Q :=
  let a := qabs u in
  match degree with
  | 0%nat => if (- (1#2) <=?q u) && (u <?q (1#2)) then 1 else 0
  | 1%nat => if a <=?q 1 then 1 - a else 0
  | 2%nat => if a <=?q (1#2) then (3#4) - a * a
             else if a <=?q (3#2) then (1#2) * (((3#2) - a) * ((3#2) - a)) else 0
  | _ => if a <=?q 1 then (2#3) - a * a + a * a * a / 2
         else if a <=?q 2 then (2 - a) * (2 - a) * (2 - a) / 6 else 0
  end.

(** distance from which on a particle does not touch a cell *)
Definition reach (degree : nat) : Q :=
  match degree with 0%nat => 1#2 | 1%nat => 1 | 2%nat => 3#2 | _ => 2 end.

(** width of one of n cells of the interval, and the centre of cell i *)
Definition cell_width (r : Q * Q) (n : Z) : Q := (snd r - fst r) / inject_Z n.
Definition cell_centre (r : Q * Q) (n i : Z) : Q :=
  fst r + (inject_Z i + (1#2)) * cell_width r n.
(** distance of the particle at v from the centre of cell i in units of cells *)
Definition cell_dist (r : Q * Q) (n i : Z) (v : Q) : Q :=
  (v - cell_centre r n i) / cell_width r n.

(** the weights of the particles: all 1 when none are given *)
Definition weights_list (ws : option (list Q)) (n : nat) : list Q :=
  match ws with None => repeat 1 n | Some l => l end.

(** Positions x (in units of cells, cells at [0,n)) of particles whose deposit is the
    B-spline one.  For a coordinate tested through its rounded cell number ([tested_cell])
    the excluded band is where truncation toward zero rounds a negative number up;
    for a coordinate tested by its sign ([tested_sign]) it is where the particle overlaps
    the first cell from below but is dropped.  In both cases a cubic particle above the
    upper end is dropped although it overlaps the last cell. *)
Definition upper_ok (deg : nat) (n : Z) (x : Q) : Prop :=
  match deg with
  | 3%nat => x < inject_Z n + (1#2) \/ inject_Z n + (3#2) <= x
  | _ => True
  end.
Definition tested_cell (deg : nat) (n : Z) (x : Q) : Prop :=
  match deg with
  | 0%nat => ~ x == 0
  | 2%nat => 0 <= x \/ x <= - (1)
  | _ => - (1#2) <= x \/ x <= - (3#2)
  end /\ upper_ok deg n x.
Definition tested_sign (deg : nat) (n : Z) (x : Q) : Prop :=
  match deg with
  | 0%nat => ~ x == 0
  | 1%nat => 0 <= x \/ x <= - (1#2)
  | 2%nat => 0 <= x \/ x <= - (1)
  | _ => 0 <= x \/ x <= - (3#2)
  end /\ upper_ok deg n x.

(** position of v in units of cells *)
Definition cell_pos (r : Q * Q) (n : Z) (v : Q) : Q := (v - fst r) / cell_width r n.

(** the particle with all of its shape is inside the range *)
Definition shape_inside (deg : nat) (r : Q * Q) (n : Z) (v : Q) : Prop :=
  fst r + inject_Z (Z.of_nat deg) * (1#2) * cell_width r n <= v
  /\ v <= snd r - inject_Z (Z.of_nat deg) * (1#2) * cell_width r n.

(** C ints: positions that fit into a 32 bit integer *)
Definition fits_int (x : Q) : Prop := - inject_Z (2 ^ 31 - 1) <= x /\ x < inject_Z (2 ^ 31 - 1).

(** *** Requested ranges *)
Definition is_min (d : list Q) (v : Q) : Prop := In v d /\ forall x, In x d -> v <= x.
Definition is_max (d : list Q) (v : Q) : Prop := In v d /\ forall x, In x d -> x <= v.
(** what a requested bound means: itself, or the extreme value of the data *)
Definition resolves (req : option Q) (extreme : list Q -> Q -> Prop) (d : list Q) (v : Q) : Prop :=
  match req with Some a => v = a | None => extreme d v end.
Definition resolves_range (req : option (option Q * option Q)) (d : list Q) (r : Q * Q) : Prop :=
  resolves (match req with Some (a, _) => a | None => None end) is_min d (fst r)
  /\ resolves (match req with Some (_, b) => b | None => None end) is_max d (snd r).

(** requested ranges (none, or both bounds) as requests *)
Definition both (r : option (Q * Q)) : option (option Q * option Q) :=
  match r with None => None | Some (a, c) => Some (Some a, Some c) end.
