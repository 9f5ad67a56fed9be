(** What an expression means, and what a caller keeps (C120). *)
From Verif Require Import PyBase NumpyModel NdModel AxisModel FieldModel FieldSpec UfuncSpec EvalModel.

(** the array a thing gives *)
Inductive array_of {V} : thing V -> nda V -> Prop :=
| of_arr : forall a, array_of (TArr a) a
| of_field : forall f, array_of (TField f) (f_data f).
(** the value of an expression for the entry idx, if names are read like this *)
Inductive means {V} (look : string -> option (thing V)) (idx : list Z) : expr V -> V -> Prop :=
| m_name : forall x t a i, look x = Some t -> array_of t a -> operand_index (a_shape a) idx i -> means look idx (Name x) (a_at a i)
| m_number : forall v, means look idx (Number v) v
| m_apply1 : forall f e v, means look idx e v -> means look idx (Apply1 f e) (f v)
| m_apply2 : forall f a b v w, means look idx a v -> means look idx b w -> means look idx (Apply2 f a b) (f v w)
| m_apply3 : forall f a b c u v w, means look idx a u -> means look idx b v -> means look idx c w -> means look idx (Apply3 f a b c) (f u v w).
(** a name of the expression *)
Inductive occurs {V} (x : string) : expr V -> Prop :=
| o_name : occurs x (Name x)
| o_apply1 : forall f e, occurs x e -> occurs x (Apply1 f e)
| o_apply2a : forall f a b, occurs x a -> occurs x (Apply2 f a b)
| o_apply2b : forall f a b, occurs x b -> occurs x (Apply2 f a b)
| o_apply3a : forall f a b c, occurs x a -> occurs x (Apply3 f a b c)
| o_apply3b : forall f a b c, occurs x b -> occurs x (Apply3 f a b c)
| o_apply3c : forall f a b c, occurs x c -> occurs x (Apply3 f a b c).
(** first here, then there *)
Definition first_in {V} (l g : dict V) (x : string) : option (thing V) := match find l x with Some t => Some t | None => find g x end.
(** the field is self but for the values, and these are those of the expression *)
Definition evaluated {V} (look : string -> option (thing V)) (self : field V) (e : expr V) (f : field V) : Prop :=
  f_top f = f_top self /\ f_inner f = [] /\ f_shape f = f_shape self /\ forall idx, in_shape (f_shape self) idx = true -> means look idx e (a_at (f_data f) idx).
(** the caller has assigned what it names, and put nothing of its own into the dictionary of locals() *)
Definition assigned {V} (fr : frame V) (e : expr V) : Prop :=
  match fr with
  | InFunction vars kept => (forall x, occurs x e -> ~ In (x, None) vars) /\ NoDup (map fst vars) /\ (forall x t, In (x, t) kept -> In x (map fst vars))
  | _ => True
  end.
