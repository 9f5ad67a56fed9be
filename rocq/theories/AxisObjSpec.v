(** Specification of Axis objects in a program (C115). *)
From Verif Require Import PyBase NumpyModel NdModel AxisModel AxisObjModel.

(** What the program made, in order: the axis, whether nobody can write to its arrays, and the name
    and unit it has by now. *)
Record maker := mkmaker { k_axis : axis; k_sealed : bool; k_name : string; k_unit : string }.
Definition renamed (m : maker) (s : string) : maker := mkmaker (k_axis m) (k_sealed m) s (k_unit m).
Definition reunited (m : maker) (s : string) : maker := mkmaker (k_axis m) (k_sealed m) (k_name m) s.
Definition unsealed (m : maker) : maker := mkmaker (k_axis m) false (k_name m) (k_unit m).
Fixpoint change {A} (f : A -> A) (k : nat) (l : list A) : list A :=
  match l, k with [], _ => [] | x :: r, O => f x :: r | x :: r, S k => x :: change f k r end.
Definition again (f : maker -> maker) (k : nat) (l : list maker) : list maker :=
  match nth_error l k with Some m => l ++ [f m] | None => l end.
Definition made_by (spl : spline_fn) (l : list maker) (o : op) : list maker :=
  match o with
  | New name unit gn g ext n =>
      match mk_axis spl name unit gn g ext n with Ok a => l ++ [mkmaker a true name unit] | Err _ => l end
  | Copy k => again (fun m => m) k l
  | Deep k => again unsealed k l
  | Rename k s => change (fun m => renamed m s) k l
  | Reunit k s => change (fun m => reunited m s) k l
  | _ => l
  end.
Definition made (spl : spline_fn) (h : list op) : list maker := fold_left (made_by spl) h [].
Definition is_write (o : op) : bool := match o with WriteGrid _ _ _ | WriteNode _ _ _ => true | _ => false end.
Definition no_writes (h : list op) : Prop := forall o, In o h -> is_write o = false.
(** the same axis but for its name and unit *)
Definition same_points (a b : axis) : Prop := ax_node a = ax_node b /\ ax_grid a = ax_grid b /\ ax_extent a = ax_extent b /\ ax_n a = ax_n b.
