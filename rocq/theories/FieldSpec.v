(** Specifications for fields, stated through observable attributes only:
    matrix entries, shape, axes (grid, grid_node, extent, len), the per-axis lists. *)
From Coq Require Import Permutation.
From Verif Require Import PyBase QSum NumpyModel AxisModel AxisSpec NdModel FieldModel.

(** One axis per dimension, of the length of that dimension; per-axis lists of the
    same length. *)
Definition consistent {V} (f : field V) : Prop :=
  length (f_axes f) = length (f_shape f) /\
  (forall k ax n, nth_error (f_axes f) k = Some ax -> nth_error (f_shape f) k = Some n -> ax_len ax = n) /\
  length (f_ats f) = length (f_shape f) /\
  length (f_tao f) = length (f_shape f).

(** no more dimensions than numpy allows *)
Definition few_dims {V} (f : field V) : Prop := (length (f_shape f) <= max_dims)%nat.

(** len(ax) is the number of its grid points *)
Definition axis_counted (ax : axis) : Prop := ax_len ax = Z.of_nat (length (ax_grid ax)).
(** ... and there is one more node than grid points *)
Definition axis_noded (ax : axis) : Prop :=
  axis_counted ax /\ length (ax_node ax) = S (length (ax_grid ax)).

(** What a user can call on a field. *)
Inductive fop : Type :=
| OGet (keys : list ikey)
| OCutout (ext : list (num * num))
| OTranspose (axes : option (list Z))
| OSwapaxes (a b : Z)
| OFlip (a : Z)
| ORot90 (k a b : Z)
| OSqueeze
| OAtleast (n : Z)
| OReduce (red : list Q -> Q) (ax : axisarg) (keepdims : bool)
| OUfuncReduce (red : list Q -> Q) (ax : axisarg)
| OHalf (a : Z)
| OAutoreduce (fuel : nat) (maxlen : Z)
| OPad (c : Q) (p : padarg)
| OMap (g : Q -> Q)
| OOp2 (op : Q -> Q -> Q) (g : field Q)
| OOpArray (op : Q -> Q -> Q) (b : nda Q)
| OIntConst (axes : list Z)
| OIntFast (axes : list Z)
| ODeriv (a : Z)
| OMapGrid (a : Z) (transform jac : Q -> Q) (preserve : bool)
| OArrayOp (op : Q -> Q -> Q) (a : nda Q)
| OOuter (op : Q -> Q -> Q) (g : field Q)
| OAutopad (c : Q) (padsize : Z -> Z) (axes : option (list Z))
| OAutocutout (win : Z -> Q -> list Q) (axes : option (list Z)) (fr : Q * Q).

Definition apply_op (spl : spline_fn) (f : field Q) (o : fop) : res (field Q) :=
  match o with
  | OGet keys => field_getitem spl f keys
  | OCutout ext => field_cutout spl f ext
  | OTranspose axes => field_transpose f axes
  | OSwapaxes a b => field_swapaxes f a b
  | OFlip a => field_flip spl f a
  | ORot90 k a b => field_rot90 spl f k a b
  | OSqueeze => field_squeeze spl f
  | OAtleast n => field_atleast_nd spl f n
  | OReduce red ax kd => field_reduce spl red f ax kd
  | OUfuncReduce red ax => field_ufunc_reduce red f ax
  | OHalf a => field_half_resolution spl f a
  | OAutoreduce fuel m => field_autoreduce fuel spl f m
  | OPad c p => field_pad spl c f p
  | OMap g => field_map g f
  | OOp2 op g => field_op2 op f g
  | OOpArray op b => field_op_array op f b
  | OIntConst axes => integrate_constant spl f axes
  | OIntFast axes => integrate_fast f axes
  | ODeriv a => derivative_stagger spl f a
  | OMapGrid a t j p => map_axis_grid spl f a t j p
  | OArrayOp op a => array_op_field op a f
  | OOuter op g => field_outer op f g
  | OAutopad c ps axes => field_fft_autopad spl c ps f axes
  | OAutocutout win axes fr => field_autocutout spl win f axes fr
  end.
(** A finite history of successful calls. *)
Fixpoint run_ops (spl : spline_fn) (f : field Q) (ops : list fop) : res (field Q) :=
  match ops with
  | [] => Ok f
  | o :: rest => let! g := apply_op spl f o in run_ops spl g rest
  end.

(** One axis per dimension of the length of that dimension, per-axis lists of the
    same length, and every length is the number of grid points. *)
Definition well_formed {V} (f : field V) : Prop :=
  consistent f /\ Forall axis_counted (f_axes f) /\ few_dims f.
(** The operands of binary operations are made by the same operations. *)
Definition operand_ok (o : fop) : Prop :=
  match o with
  | OOp2 _ g | OOuter _ g => Forall axis_counted (f_axes g) /\ length (f_ats g) = length (f_axes g)
                             /\ length (f_tao g) = length (f_axes g)
  | _ => True
  end.
(** Calls that do not change the number of samples by padding. *)
Definition no_padding (o : fop) : Prop :=
  match o with OPad _ _ | OAutopad _ _ _ => False | _ => True end.

(** A slice that starts at a non-negative position and steps forward. *)
Definition forward (k : Z + slice) : Prop :=
  match k with
  | inl _ => True
  | inr sl => (s_step sl = None \/ s_step sl = Some 1%Z) /\
              match s_start sl with Some s => 0 <= s | None => True end%Z
  end.
(** The slices asked for, as positions along each axis, are forward. *)
Definition forward_keys (axes : list axis) (keys : list ikey) : Prop :=
  forall ax key k, In (ax, key) (combine axes keys) -> normalize_slice ax key = Ok k -> forward k.
Definition forward_extents (axes : list axis) (ext : list (num * num)) : Prop :=
  forall ax e sl, In (ax, e) (combine axes ext) ->
    extent_to_slice ax (Some (fst e)) (Some (snd e)) = Ok sl -> forward (inr sl).
Definition calm (f : field Q) (o : fop) : Prop :=
  match o with
  | OGet keys => forward_keys (f_axes f) keys
  | OCutout ext => forward_extents (f_axes f) ext
  | OOp2 _ g | OOuter _ g => Forall axis_noded (f_axes g)
  | _ => True
  end.
Fixpoint calm_history (spl : spline_fn) (f : field Q) (ops : list fop) : Prop :=
  match ops with
  | [] => True
  | o :: rest => calm f o /\ forall g, apply_op spl f o = Ok g -> calm_history spl g rest
  end.

(** Two axes with the same observable attributes. *)
Definition axis_same (a b : axis) : Prop :=
  ax_name a = ax_name b /\ ax_unit a = ax_unit b /\ ax_node a = ax_node b /\ ax_grid a = ax_grid b /\
  fst (ax_extent a) == fst (ax_extent b) /\ snd (ax_extent a) == snd (ax_extent b) /\ ax_n a = ax_n b.
(** Two arrays with the same shape and entries. *)
Definition nda_same {V} (a b : nda V) : Prop :=
  a_shape a = a_shape b /\ forall idx, in_shape (a_shape a) idx = true -> a_at a idx = a_at b idx.
Definition nda_sameQ (a b : nda Q) : Prop :=
  a_shape a = a_shape b /\ forall idx, in_shape (a_shape a) idx = true -> a_at a idx == a_at b idx.
(** Two fields nobody can tell apart by their data and attributes. *)
Definition field_same {V} (f g : field V) : Prop :=
  nda_same (f_data f) (f_data g) /\ Forall2 axis_same (f_axes f) (f_axes g) /\
  f_ats f = f_ats g /\ f_tao f = f_tao g /\
  l_name (f_top f) = l_name (f_top g) /\ l_unit (f_top f) = l_unit (f_top g).

(** The coordinates of the sample with index idx. *)
Fixpoint coords (axes : list axis) (idx : list Z) : list Q :=
  match axes, idx with
  | ax :: axes', i :: idx' => nth (Z.to_nat i) (ax_grid ax) 0 :: coords axes' idx'
  | _, _ => []
  end.
(** The field carries the value v at the position c (one coordinate per axis). *)
Definition sample {V} (f : field V) (c : list Q) (v : V) : Prop :=
  exists idx, in_shape (f_shape f) idx = true /\ c = coords (f_axes f) idx /\ v = a_at (f_data f) idx.

(** No axis has length zero. *)
Definition nonempty (sh : list Z) : Prop := Forall (fun n => 0 < n)%Z sh.

(** The axis of a Field kept as _matrix inside another Field: grid points and nodes
    describe the same cells, but possibly in opposite order. *)
Definition axis_loose (ax : axis) : Prop :=
  length (ax_node ax) = S (length (ax_grid ax)) /\ axis_counted ax /\
  (cells_up (ax_node ax) (ax_grid ax) \/ cells_down (ax_node ax) (ax_grid ax) \/
   cells_up (ax_node ax) (rev (ax_grid ax)) \/ cells_down (ax_node ax) (rev (ax_grid ax))).
Definition layer_fits (sh : list Z) (l : layer) : Prop :=
  Forall axis_loose (l_axes l) /\ map ax_len (l_axes l) = sh /\
  length (l_ats l) = length sh /\ length (l_tao l) = length sh.
(** A field with proper axes, no empty dimension and at most three dimensions; the
    Fields wrapped in its matrix fit too.  Every field with a plain array as matrix
    and proper axes is one. *)
Definition orderly {V} (f : field V) : Prop :=
  nonempty (f_shape f) /\ (length (f_shape f) <= 3)%nat /\ Forall axis_proper (f_axes f) /\
  Forall (layer_fits (f_shape f)) (f_top f :: f_inner f).

(** Position a of the list holds x and position b holds y. *)
Definition put2 {A} (l : list A) (a : nat) (x : A) (b : nat) (y : A) : list A := upd (upd l a x) b y.

(** The axis read backwards. *)
Definition axis_back (ax : axis) : axis :=
  mkAxis (ax_name ax) (ax_unit ax) (rev (ax_node ax)) (rev (ax_grid ax))
         (snd (ax_extent ax), fst (ax_extent ax)) (ax_n ax).
(** Rotation by q quarter turns in the plane of two dimensions with na and nb
    samples: where entry (i, j) of the result is found, the shape of the result, and
    the axes of the result. *)
Definition turn_index (q : Z) (na nb i j : Z) : Z * Z :=
  match q with
  | 1 => (j, nb - 1 - i)
  | 2 => (na - 1 - i, nb - 1 - j)
  | 3 => (na - 1 - j, i)
  | _ => (i, j)
  end%Z.
Definition turn_pair {A} (q : Z) (x y : A) : A * A :=
  match q with 1%Z | 3%Z => (y, x) | _ => (x, y) end.
Definition turn_axes (q : Z) (x y : axis) : axis * axis :=
  match q with
  | 1%Z => (axis_back y, x)
  | 2%Z => (axis_back x, axis_back y)
  | 3%Z => (y, axis_back x)
  | _ => (x, y)
  end.

(** the samples of g are those of f with two coordinates exchanged (odd q) or as they are *)
Definition turned_samples {V} (q : Z) (a b : nat) (f g : field V) : Prop :=
  forall c v, length c = length (f_shape f) ->
    (sample g (put2 c a (fst (turn_pair q (nth a c 0) (nth b c 0))) b (snd (turn_pair q (nth a c 0) (nth b c 0)))) v
     <-> sample f c v).
(** n turns by k quarters, one after the other *)
Fixpoint turn_times {V} (spl : spline_fn) (n : nat) (k a0 a1 : Z) (f : field V) : res (field V) :=
  match n with O => Ok f | S n' => let! g := field_rot90 spl f k a0 a1 in turn_times spl n' k a0 a1 g end.
(** p lists the numbers 0 .. n-1 in some order; p' undoes p *)
Definition rearranges (n : nat) (p : list nat) : Prop := Permutation p (seq 0 n).
Definition undoes (n : nat) (p p' : list nat) : Prop :=
  forall i, (i < n)%nat -> nth (nth i p' 0%nat) p 0%nat = i.

(** The positions of 0 .. n-1 that are not listed in p, in order; entries at positions. *)
Definition others (n : nat) (p : list nat) : list nat :=
  filter (fun i => negb (existsb (Nat.eqb i) p)) (seq 0 n).
Definition entries_at {A} (d : A) (l : list A) (is : list nat) : list A := map (fun i => nth i l d) is.
(** js lists, once each, the indices of an array of shape sh that agree with idx at
    the positions not in p. *)
Definition lists_fibre (sh : list Z) (p : list nat) (idx : list Z) (js : list (list Z)) : Prop :=
  NoDup js /\
  forall j, In j js <-> in_shape sh j = true /\ entries_at 0%Z j (others (length sh) p) = idx.
(** An axis argument without negative numbers, except for a single one. *)
Definition plain_axes (ax : axisarg) : Prop :=
  match ax with AxTuple l => Forall (fun i => (0 <= i)%Z) l \/ (length l <= 1)%nat | _ => True end.
(** The axis ax' has one cell covering the extent of ax. *)
Definition one_cell (ax ax' : axis) : Prop :=
  axis_uniform (fst (ax_extent ax)) (snd (ax_extent ax)) 1 ax' /\ ax_name ax' = ax_name ax /\ ax_unit ax' = ax_unit ax.

(** ** Broadcasting, dimension by dimension counted from the last one *)
Definition from_end {A} (l : list A) (j : nat) : option A := nth_error (rev l) j.
Definition broadcastable (s1 s2 : list Z) : Prop :=
  forall j a b, from_end s1 j = Some a -> from_end s2 j = Some b -> a = b \/ a = 1%Z \/ b = 1%Z.
(** the length of a dimension of the result *)
Definition joint_len (a b : option Z) : option Z :=
  match a, b with
  | Some a, Some b => Some (if (a =? 1)%Z then b else a)
  | Some a, None => Some a
  | None, b => b
  end.
(** the axis of a dimension of the result *)
Definition joint_axis (x y : option axis) : option axis :=
  match x, y with
  | Some x, Some y => Some (if (ax_len x =? 1)%Z && negb (ax_len y =? 1)%Z then y else x)
  | Some x, None => Some x
  | None, y => y
  end.
(** i is the index of the entry of an operand of shape sh that is used for entry idx *)
Definition operand_index (sh idx i : list Z) : Prop :=
  length i = length sh /\
  forall j n k, from_end sh j = Some n -> from_end idx j = Some k -> from_end i j = Some (if (n =? 1)%Z then 0%Z else k).

(** an axis that stands for entries outside a list of axes *)
Definition axis0 : axis := mkAxis "" "" [] [] (0, 0) 0.

(** ** Integrals: the sum over cells of value times size of the cell *)
Definition cell_width (ax : axis) (i : Z) : Q :=
  nth (S (Z.to_nat i)) (ax_node ax) 0 - nth (Z.to_nat i) (ax_node ax) 0.
(** the size of cell j, taken along the dimensions p *)
Definition cell_size (axes : list axis) (p : list nat) (j : list Z) : Q :=
  fold_right Qmult 1 (map (fun k => cell_width (nth k axes axis0) (nth k j 0%Z)) p).
(** v is the integral of f along p, at the index idx along the other dimensions *)
Definition is_integral (f : field Q) (p : list nat) (idx : list Z) (v : Q) : Prop :=
  exists js, lists_fibre (f_shape f) p idx js /\
    v == fold_right Qplus 0 (map (fun j => a_at (f_data f) j * cell_size (f_axes f) p j) js).
(** g has the dimensions of f that are not in p *)
Definition remains {V W} (f : field V) (p : list nat) (g : field W) : Prop :=
  let keep := others (length (f_shape f)) p in
  f_shape g = entries_at 0%Z (f_shape f) keep /\ f_axes g = entries_at axis0 (f_axes f) keep /\
  f_ats g = entries_at None (f_ats f) keep /\ f_tao g = entries_at None (f_tao f) keep /\
  l_name (f_top g) = l_name (f_top f) /\ l_unit (f_top g) = l_unit (f_top f).
(** axes requests the positions p; negative numbers are not covered *)
Definition requested (n : nat) (axes : list Z) (p : list nat) : Prop :=
  NoDup p /\ (forall k, In k p <-> In (Z.of_nat k) axes) /\ forall a, In a axes -> (0 <= a < Z.of_nat n)%Z.

(** ** Coarsening *)
(** A field that wraps no other field, with proper axes and at most three dimensions. *)
Definition simple_field {V} (f : field V) : Prop :=
  consistent f /\ f_inner f = [] /\ (length (f_shape f) <= 3)%nat /\ Forall axis_proper (f_axes f).
(** The mean over block idx, when every dimension is cut into blocks of bs cells. *)
Definition block_mean (bs : list Z) (v : list Z -> Q) (idx : list Z) : Q :=
  total bs (fun o => v (map2 Z.add (map2 Z.mul idx bs) o)) / inject_Z (fold_right Z.mul 1%Z bs).
(** The axis r has one cell for b cells of ax. *)
Definition axis_blocks (b : Z) (ax r : axis) : Prop :=
  ax_len r = (ax_len ax / b)%Z /\
  (forall i, (0 <= i <= ax_len r)%Z -> nth (Z.to_nat i) (ax_node r) 0 = nth (Z.to_nat (b * i)) (ax_node ax) 0) /\
  (forall i, (0 <= i < ax_len r)%Z ->
     nth (Z.to_nat i) (ax_grid r) 0 == block_mean [b] (fun o => nth (Z.to_nat (nth 0 o 0%Z)) (ax_grid ax) 0) [i]) /\
  ax_name r = ax_name ax /\ ax_unit r = ax_unit ax.
(** g is f with every dimension cut into blocks of bs cells. *)
Definition coarsened (f : field Q) (bs : list Z) (g : field Q) : Prop :=
  f_shape g = map2 Z.div (f_shape f) bs /\
  (forall idx, in_shape (f_shape g) idx = true -> a_at (f_data g) idx == block_mean bs (a_at (f_data f)) idx) /\
  (forall k, (k < length (f_axes f))%nat ->
     if (nth k bs 1 =? 1)%Z then nth k (f_axes g) axis0 = nth k (f_axes f) axis0
     else axis_blocks (nth k bs 1%Z) (nth k (f_axes f) axis0) (nth k (f_axes g) axis0)) /\
  f_ats g = f_ats f /\ l_name (f_top g) = l_name (f_top f) /\ l_unit (f_top g) = l_unit (f_top f).
(** b is the smallest power of two with n / b <= maxlen. *)
Definition least_halving (maxlen n b : Z) : Prop :=
  exists j, (0 <= j)%Z /\ b = (2 ^ j)%Z /\ (n / b <= maxlen)%Z /\ (forall i, (0 <= i < j)%Z -> maxlen < n / 2 ^ i)%Z.

(** ** Padding *)
Definition ascending_uniform (ax : axis) : Prop :=
  exists a b n, (1 <= n)%nat /\ a < b /\ axis_uniform a b n ax.
(** z is the number of cells of width dx that the width p asks for: itself a number of
    cells, or a length of which no part may remain uncovered. *)
Definition asks_cells (dx : Q) (p : num) (z : Z) : Prop :=
  (0 <= z)%Z /\
  match p with NInt n => z = n | NReal q => inject_Z (z - 1) * dx < q /\ q <= inject_Z z * dx end.
Definition num_nonneg (p : num) : Prop := match p with NInt n => (0 <= n)%Z | NReal q => 0 <= q end.
(** the index in the padded array *)
Definition shifted (idx : list Z) (w : list (Z * Z)) : list Z := map2 (fun i p => (i + fst p)%Z) idx w.
(** r continues ax by p0 cells in front and p1 cells behind *)
Definition axis_continues (p0 p1 : Z) (ax r : axis) : Prop :=
  ax_len r = (p0 + ax_len ax + p1)%Z /\ ascending_uniform r /\ ax_name r = ax_name ax /\ ax_unit r = ax_unit ax /\
  (forall i, (0 <= i < ax_len ax)%Z -> nth (Z.to_nat (i + p0)) (ax_grid r) 0 == nth (Z.to_nat i) (ax_grid ax) 0) /\
  (forall i, (0 <= i <= ax_len ax)%Z -> nth (Z.to_nat (i + p0)) (ax_node r) 0 == nth (Z.to_nat i) (ax_node ax) 0) /\
  (forall i, (0 <= i < ax_len r)%Z -> cell_width r i == cell_width ax 0).
(** g is f with w_k cells of value c added around every dimension k *)
Definition padded {V} (c : V) (f : field V) (w : list (Z * Z)) (g : field V) : Prop :=
  length w = length (f_shape f) /\
  f_shape g = map2 (fun n p => (fst p + n + snd p)%Z) (f_shape f) w /\
  (forall idx, in_shape (f_shape f) idx = true -> a_at (f_data g) (shifted idx w) = a_at (f_data f) idx) /\
  (forall idx, in_shape (f_shape g) idx = true ->
     (forall j, in_shape (f_shape f) j = true -> idx <> shifted j w) -> a_at (f_data g) idx = c) /\
  (forall k, (k < length (f_shape f))%nat ->
     axis_continues (fst (nth k w (0, 0)%Z)) (snd (nth k w (0, 0)%Z)) (nth k (f_axes f) axis0) (nth k (f_axes g) axis0)) /\
  f_ats g = f_ats f /\ l_name (f_top g) = l_name (f_top f) /\ l_unit (f_top g) = l_unit (f_top f).

(** ** Indexing *)
(** What indexing every axis by its key gave: a coordinate (the dimension is dropped)
    or an axis.  The axes that are kept, the entries of the kept dimensions, and the
    coordinates of sample idx. *)
Fixpoint kept_axes (rs : list (Q + axis)) : list axis :=
  match rs with [] => [] | inl _ :: rs' => kept_axes rs' | inr ax :: rs' => ax :: kept_axes rs' end.
Fixpoint kept_entries {A} (rs : list (Q + axis)) (l : list A) : list A :=
  match rs, l with
  | inl _ :: rs', _ :: l' => kept_entries rs' l'
  | inr _ :: rs', x :: l' => x :: kept_entries rs' l'
  | _, _ => []
  end.
Fixpoint point_at (rs : list (Q + axis)) (idx : list Z) : list Q :=
  match rs with
  | [] => []
  | inl x :: rs' => x :: point_at rs' idx
  | inr ax :: rs' => nth (Z.to_nat (hd 0%Z idx)) (ax_grid ax) 0 :: point_at rs' (tl idx)
  end.
(** the coordinates of sample j of a field *)
Definition point_of (axes : list axis) (j : list Z) : list Q := point_at (map inr axes) j.

(** ** squeeze, atleast_nd *)
(** the dimensions that are not of length one *)
Definition long_dims (sh : list Z) : list nat := filter (fun k => negb (nth k sh 0 =? 1)%Z) (seq 0 (length sh)).
(** g is f without its dimensions of length one *)
Definition squeezed {V} (f g : field V) : Prop :=
  let keep := long_dims (f_shape f) in
  f_shape g = entries_at 0%Z (f_shape f) keep /\ Forall2 axis_same (entries_at axis0 (f_axes f) keep) (f_axes g) /\
  (forall j, in_shape (f_shape f) j = true -> a_at (f_data g) (entries_at 0%Z j keep) = a_at (f_data f) j) /\
  f_ats g = entries_at None (f_ats f) keep /\ f_tao g = entries_at None (f_tao f) keep /\
  l_name (f_top g) = l_name (f_top f) /\ l_unit (f_top g) = l_unit (f_top f).
(** one point at zero in a cell of width one *)
Definition point_axis (ax : axis) : Prop :=
  ax_name ax = ""%string /\ ax_unit ax = ""%string /\ ax_len ax = 1%Z /\ ax_node ax = [- (1 # 2); 1 # 2] /\
  (exists x, ax_grid ax = [x] /\ x == 0) /\ ax_extent ax = (- (1 # 2), 1 # 2).
(** g is f with m more dimensions of length one *)
Definition with_dims {V} (f : field V) (m : nat) (g : field V) : Prop :=
  f_shape g = f_shape f ++ repeat 1%Z m /\
  (exists axs, f_axes g = f_axes f ++ axs /\ length axs = m /\ Forall point_axis axs) /\
  (forall j, in_shape (f_shape f) j = true -> a_at (f_data g) (j ++ repeat 0%Z m) = a_at (f_data f) j) /\
  (exists st, f_ats g = f_ats f ++ repeat st m /\ f_tao g = f_tao f ++ repeat None m) /\
  l_name (f_top g) = l_name (f_top f) /\ l_unit (f_top g) = l_unit (f_top f).

(** ** autocutout *)
(** prof is the mean of |f| over all dimensions but k *)
Definition projection (f : field Q) (k : nat) (prof : list Q) : Prop :=
  length prof = Z.to_nat (nth k (f_shape f) 0%Z) /\
  forall i, (0 <= i < nth k (f_shape f) 0)%Z ->
    exists js, lists_fibre (f_shape f) (others (length (f_shape f)) [k]) [i] js /\
      nth (Z.to_nat i) prof 0 == qsum (map (fun j => qabs (a_at (f_data f) j)) js) / inject_Z (Z.of_nat (length js)).
(** r is the part e .. ff-1 of ax *)
Definition axis_part (ax : axis) (e ff : Z) (r : axis) : Prop :=
  ax_len r = (ff - e)%Z /\ ax_name r = ax_name ax /\ ax_unit r = ax_unit ax /\
  (forall i, (0 <= i < ff - e)%Z -> nth (Z.to_nat i) (ax_grid r) 0 = nth (Z.to_nat (i + e)) (ax_grid ax) 0) /\
  (forall i, (0 <= i <= ff - e)%Z -> nth (Z.to_nat i) (ax_node r) 0 = nth (Z.to_nat (i + e)) (ax_node ax) 0).
(** the outer and inner interval chosen for every dimension *)
Definition cuts := list ((Z * Z) * (Z * Z)).
Definition cut_of (iv : cuts) (k : nat) : (Z * Z) * (Z * Z) := nth k iv ((0, 0), (0, 0))%Z.
(** the factor of sample idx of the result: one window per requested dimension *)
Definition window_at (win : Z -> Q -> list Q) (iv : cuts) (ks : list nat) (idx : list Z) : Q :=
  fold_right (fun k acc =>
    let '((e, ff), (b, c)) := cut_of iv k in
    nth (Z.to_nat (nth k idx 0%Z)) (win (ff - e)%Z (1 - inject_Z (c - b) / inject_Z (ff - e))) 0 * acc) 1 ks.

(** ** New coordinates along one axis *)
(** t is strictly monotone on the points of the axis *)
Definition strictly_monotone_on (ax : axis) (t : Q -> Q) : Prop :=
  let pts := ax_node ax ++ ax_grid ax in
  (forall x y, In x pts -> In y pts -> x < y -> t x < t y) \/ (forall x y, In x pts -> In y pts -> x < y -> t y < t x).
(** j is the factor by which t stretches each cell *)
Definition stretches (ax : axis) (t j : Q -> Q) : Prop :=
  forall i, (i < length (ax_grid ax))%nat ->
    t (nth (S i) (ax_node ax) 0) - t (nth i (ax_node ax) 0) ==
    j (nth i (ax_grid ax) 0) * (nth (S i) (ax_node ax) 0 - nth i (ax_node ax) 0).
