(** Specification of assigning to a part of a Field (C116). *)
From Verif Require Import PyBase NumpyModel AxisModel AxisSpec NdModel FieldModel.

(** numpy's rule for shapes: dimension k of the part, counted from the last one, is that of the value
    or the value repeats itself *)
Definition from_end (sh : list Z) (k : nat) : Z := nth k (rev sh) 1%Z.
Definition can_fill (s t : list Z) : Prop := forall k, (k < length s)%nat -> from_end s k = 1%Z \/ ((k < length t)%nat /\ from_end s k = from_end t k).
(** [i] is the index of the value which belongs to index [j] of the part *)
Definition filled_from (s j i : list Z) : Prop :=
  length i = length s /\ forall k, (k < length s)%nat -> nth k (rev i) 0%Z = if (from_end s k =? 1)%Z then 0%Z else nth k (rev j) 0%Z.
(** the point with index [i] lies between the ends of the box, the first of which belongs to it *)
Definition inside (ax : axis) (box : Q * Q) (i : Z) : Prop :=
  let x := nth (Z.to_nat i) (ax_grid ax) 0 in (fst box <= x /\ x < snd box) \/ (snd box < x /\ x <= fst box).
(** the box runs in the direction of the axis and touches it *)
Definition box_on (ax : axis) (box : Q * Q) : Prop :=
  (axis_up ax /\ fst box <= snd box /\ ((fst (ax_extent ax) <= fst box <= snd (ax_extent ax)) \/ (fst (ax_extent ax) <= snd box <= snd (ax_extent ax)))) \/
  (axis_down ax /\ snd box < fst box /\ ((snd (ax_extent ax) <= fst box <= fst (ax_extent ax)) \/ (snd (ax_extent ax) <= snd box <= fst (ax_extent ax)))).
Definition box_key (box : Q * Q) : ikey := IKey (KSlice (Some (NReal (fst box))) (Some (NReal (snd box))) None).
(** every Field in the matrix has one axis per dimension *)
Definition counted {V} (f : field V) : Prop := Forall (fun l => length (l_axes l) = length (f_shape f)) (f_top f :: f_inner f).
Fixpoint in_box (axes : list axis) (boxes : list (Q * Q)) (i : list Z) : Prop :=
  match axes, boxes, i with
  | ax :: axes', b :: boxes', k :: i' => inside ax b k /\ in_box axes' boxes' i'
  | [], [], [] => True
  | _, _, _ => False
  end.
(** what is shown by indexing an array each of whose elements is its own index *)
Definition place_of (sh : list Z) (sls : list (Z + slice)) : res (nda (list Z)) := np_getitem (mkarr sh (fun i => i)) sls.
