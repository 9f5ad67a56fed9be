(** Specification of sharing between Field objects (C51). *)
From Verif Require Import PyBase NumpyModel AxisModel NdModel FieldModel HeapModel.

(** the object whose memory the result of a command refers to *)
Definition data_source (c : cmd) : option nat :=
  match c with
  | CCopy false x => Some x
  | CReplace _ (AOf y) => Some y
  | CView _ x => Some x
  | MMatrix _ (AOf y) => Some y
  | _ => None
  end.
(** the object whose lists of states and origins the result of a command refers to *)
Definition list_source (c : cmd) : option nat := match c with CMap _ x => Some x | _ => None end.
(** objects connected by a history of such commands *)
Inductive kin (src : cmd -> option nat) (h : list (cmd * res nat)) : nat -> nat -> Prop :=
| kin_refl x : kin src h x x
| kin_step c r x : In (c, Ok r) h -> src c = Some x -> kin src h r x
| kin_sym x y : kin src h x y -> kin src h y x
| kin_trans x y z : kin src h x y -> kin src h y z -> kin src h x z.
(** the object which is modified *)
Definition target (c : cmd) : option nat :=
  match c with
  | MSet x _ _ | MInplace _ x | MMatrix x _ | MAxis x _ _ | MAts x _ _ | MTao x _ _ => Some x
  | _ => None
  end.
(** modifications which do not make an object refer to the array of another one *)
Definition through (P : nat -> Prop) (c : cmd) : Prop :=
  (exists x, target c = Some x /\ P x) /\ forall x y, c <> MMatrix x (AOf y).
(** what a program can have made *)
Definition reachable (spl : spline_fn) (h : list (cmd * res nat)) (w : world) : Prop :=
  exec spl (map fst h) empty_world = (w, map snd h).
Definition exists_in (w : world) (y : nat) : Prop := (y < length (w_objs w))%nat.
(** What is left of object y when the world changes from w to w': it still exists, with its name and
    unit, and keeps its data, axes, and lists of states and origins under the given conditions. *)
Definition keeps (w w' : world) (y : nat) (data axes lists : Prop) : Prop :=
  exists f f', value w y = Ok f /\ value w' y = Ok f' /\ l_name (f_top f') = l_name (f_top f) /\ l_unit (f_top f') = l_unit (f_top f) /\
    (data -> f_data f' = f_data f) /\ (axes -> f_axes f' = f_axes f) /\ (lists -> f_ats f' = f_ats f /\ f_tao f' = f_tao f).
(** commands whose result refers to no part of another object *)
Definition independent (c : cmd) : Prop := target c = None /\ data_source c = None /\ list_source c = None.
(** what the result of a command is, seen from the values before *)
Definition array_value (w : world) (a : arr_arg) : res (nda Q) := match a with AFresh b => Ok b | AOf y => rmap f_data (value w y) end.
Definition result (spl : spline_fn) (w : world) (c : cmd) : res (field Q) :=
  match c with
  | CNew f => Ok (mkField (f_data f) (f_top f) [])
  | CCopy _ x => value w x
  | CReplace x a => let! f := value w x in let! m := array_value w a in Ok (mkField m (f_top f) [])
  | CMap op x => let! f := value w x in field_map op f
  | CBinary op x y => let! f := value w x in let! g := value w y in field_op2 op f g
  | CArray op x a => let! f := value w x in field_op_array op f a
  | CReduce red x ax keep => let! f := value w x in field_reduce spl red f ax keep
  | CView v x => let! f := value w x in apply_view spl v f
  | MMatrix x a => let! f := value w x in let! m := array_value w a in Ok (mkField m (f_top f) [])
  | MAxis x i ax => let! f := value w x in let! axes := setaxisobj (f_axes f) (f_shape f) i ax in Ok (mkField (f_data f) (mkLayer axes (f_ats f) (f_tao f) (l_name (f_top f)) (l_unit (f_top f))) [])
  | MAts x i b => let! f := value w x in let! ats := setidx (f_ats f) i b in Ok (mkField (f_data f) (mkLayer (f_axes f) ats (f_tao f) (l_name (f_top f)) (l_unit (f_top f))) [])
  | MTao x i q => let! f := value w x in let! tao := setidx (f_tao f) i q in Ok (mkField (f_data f) (mkLayer (f_axes f) (f_ats f) tao (l_name (f_top f)) (l_unit (f_top f))) [])
  | MSet _ _ _ | MInplace _ _ => Err TypeError      (* see [shown] *)
  end.
