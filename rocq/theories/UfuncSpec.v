(** What numpy functions of Fields should give, entry by entry. *)
From Verif Require Import PyBase NumpyModel AxisModel NdModel FieldModel FieldSpec UfuncModel.

(** shape and axes of what stands beside an operator *)
Definition shape_of {V} (o : operand V) : list Z :=
  match o with AField f => f_shape f | AArr a => a_shape a | _ => [] end.
Definition axes_at {V} (o : operand V) : list axis := match o with AField f => f_axes f | _ => [] end.
(** v is the value that o contributes to entry idx of the result *)
Definition contributes {V} (o : operand V) (idx : list Z) (v : V) : Prop :=
  match o with
  | AField f => exists i, operand_index (f_shape f) idx i /\ v = a_at (f_data f) i
  | AArr a => exists i, operand_index (a_shape a) idx i /\ v = a_at a i
  | ANum x => v = x
  | AOther _ => False
  end.
(** a consistent Field of up to three dimensions around a plain array; any array; any number *)
Definition sound {V} (o : operand V) : Prop :=
  match o with
  | AField f => consistent f /\ f_inner f = [] /\ (length (f_shape f) <= 3)%nat
  | AArr _ | ANum _ => True
  | AOther _ => False
  end.
Definition is_field {V} (o : operand V) : Prop := exists f, o = AField f.
(** s can be repeated to the shape t: from the last dimension on, every length of s is one or
    that of t, and s has no more dimensions *)
Definition repeats_to (s t : list Z) : Prop :=
  (length s <= length t)%nat /\ forall j a b, from_end s j = Some a -> from_end t j = Some b -> a = b \/ a = 1%Z.
(** two operands fit: Fields broadcast to one another; what is not a Field repeats to the
    shape of the Field *)
Definition fit {V} (x y : operand V) : Prop :=
  match x, y with
  | AField f, AField g => broadcastable (f_shape f) (f_shape g)
  | AField f, _ => repeats_to (shape_of y) (f_shape f)
  | _, AField g => repeats_to (shape_of x) (f_shape g)
  | _, _ => False
  end.
(** the Field which gives name and unit: the first one *)
Definition first_of {V} (x y : operand V) (f : field V) : Prop :=
  x = AField f \/ (~ is_field x /\ y = AField f).
(** the values of f along dimension k through idx, up to and with the entry idx *)
Definition line_up_to {V} (a : nda V) (k : nat) (idx : list Z) (l : list V) : Prop :=
  length l = Z.to_nat (nth k idx 0%Z + 1) /\
  forall i d, (i < length l)%nat -> nth i l d = a_at a (upd idx k (Z.of_nat i)).
(** v is the values of l, combined from the left *)
Inductive combined {V} (op : V -> V -> V) : list V -> V -> Prop :=
| combined_one x : combined op [x] x
| combined_more l x v : combined op l v -> combined op (l ++ [x]) (op v x).
