(** Field.evaluate (postpic/datahandling.py 1057-1060, 1062-1099) and the variables of its caller.

    What is used of python (up to 3.12): the attribute f_locals of a frame is, for the body of a class or
    code run by exec, the namespace itself; at the top level it is the namespace of the module; and for a
    function it is a dictionary kept with the frame, the one locals() gives, in which the variables of the
    function are renewed whenever it is asked for.  What is used of numexpr: a name is looked up in
    local_dict and, after a KeyError, in global_dict; the arrays are repeated to one shape; the operations
    are applied entry by entry.  Not modelled: the keyword arguments of ne.evaluate, types of the samples.
    No proofs in this file. *)
From Verif Require Import PyBase NumpyModel AxisModel NdModel FieldModel UfuncModel.

(** * Expressions, as numexpr reads them; an operation is any function of the samples *)
Inductive expr (V : Type) := Name (x : string) | Number (v : V) | Apply1 (f : V -> V) (e : expr V) | Apply2 (f : V -> V -> V) (a b : expr V) | Apply3 (f : V -> V -> V -> V) (a b c : expr V).
Arguments Name {V}. Arguments Number {V}. Arguments Apply1 {V}. Arguments Apply2 {V}. Arguments Apply3 {V}.
Fixpoint names {V} (e : expr V) : list string :=
  match e with
  | Name x => [x]
  | Number _ => []
  | Apply1 _ e => names e
  | Apply2 _ a b => names a ++ names b
  | Apply3 _ a b c => names a ++ names b ++ names c
  end.
Fixpoint value_of {V} (env : string -> option V) (e : expr V) : option V :=
  match e with
  | Name x => env x
  | Number v => Some v
  | Apply1 f e => match value_of env e with Some v => Some (f v) | None => None end
  | Apply2 f a b => match value_of env a, value_of env b with Some v, Some w => Some (f v w) | _, _ => None end
  | Apply3 f a b c => match value_of env a, value_of env b, value_of env c with Some u, Some v, Some w => Some (f u v w) | _, _, _ => None end
  end.
(** * Namespaces.  Anything that is no array, number or Field is an object *)
Inductive thing (V : Type) := TArr (a : nda V) | TField (f : field V) | TObject.
Arguments TArr {V}. Arguments TField {V}. Arguments TObject {V}.
Definition dict (V : Type) := list (string * thing V).
Fixpoint find {V} (d : dict V) (x : string) : option (thing V) :=
  match d with [] => None | (y, t) :: r => if String.eqb x y then Some t else find r x end.
(** getArguments of numexpr: the value of a name, as np.asarray of it; an object has no type it knows *)
Definition argument {V} (local global : dict V) (x : string) : res (nda V) :=
  match (match find local x with Some t => Some t | None => find global x end) with
  | Some (TArr a) => Ok a
  | Some (TField f) => Ok (f_data f)
  | Some TObject => Err ValueError
  | None => Err KeyError
  end.
(** ne.evaluate(ex, local_dict, global_dict): all names are looked up first, KeyErrors come before
    unknown types *)
Definition bound {V} (local global : dict V) (x : string) : bool :=
  match find local x, find global x with None, None => false | _, _ => true end.
Fixpoint entry_of {V} (args : list (string * nda V)) (idx : list Z) (x : string) : option V :=
  match args with [] => None | (y, a) :: r => if String.eqb x y then Some (a_at a (bidx (a_shape a) idx)) else entry_of r idx x end.
Definition ne_evaluate {V} (zero : V) (e : expr V) (local global : dict V) : res (nda V) :=
  let! _ := guard (forallb (bound local global) (names e)) KeyError in
  let! arrs := mapM (argument local global) (names e) in
  let! sh := join_shapes (map a_shape arrs) in
  let args := combine (names e) arrs in
  Ok (mkarr sh (fun idx => match value_of (entry_of args idx) e with Some v => v | None => zero end)).
(** replace_data, 1057-1060 with the setter of matrix, 950-954: copy.copy and a new matrix *)
Fixpoint shape_eqb (a b : list Z) : bool :=
  match a, b with [], [] => true | x :: a, y :: b => (x =? y)%Z && shape_eqb a b | _, _ => false end.
Definition replace_data {V} (f : field V) (a : nda V) : res (field V) :=
  if shape_eqb (a_shape a) (f_shape f) then Ok (mkField a (f_top f) []) else Err ValueError.
(** * The caller *)
(** the frame which calls: a function with its variables ([None]: not yet assigned) and the dictionary
    kept with it, the top level of a module, or the body of a class *)
Inductive frame (V : Type) := InFunction (vars : list (string * option (thing V))) (kept : dict V) | AtTop | InBody (space : dict V).
Arguments InFunction {V}. Arguments AtTop {V}. Arguments InBody {V}.
Definition declared {V} (vars : list (string * option (thing V))) (x : string) : bool := existsb (fun p => String.eqb x (fst p)) vars.
(** the dictionary is renewed: variables of the function are set or removed, other entries stay *)
Definition renewed {V} (vars : list (string * option (thing V))) (kept : dict V) : dict V :=
  flat_map (fun p => match snd p with Some t => [(fst p, t)] | None => [] end) vars ++ filter (fun p => negb (declared vars (fst p))) kept.
(** frame.f_locals *)
Definition f_locals {V} (fr : frame V) (globals : dict V) : dict V :=
  match fr with InFunction vars kept => renewed vars kept | AtTop => globals | InBody space => space end.
(** 1081-1097; the frame afterwards, its globals are never changed.  Dictionaries which are given are not
    changed either *)
Definition evaluate {V} (zero : V) (self : field V) (e : expr V) (local global : option (dict V)) (fr : frame V) (globals : dict V) : frame V * res (field V) :=
  let l := match local with Some d => d | None => f_locals fr globals end in
  let g := match global with Some d => d | None => globals end in
  let r := let! a := ne_evaluate zero e l g in replace_data self a in
  let fr := match local, fr with
            | None, InFunction vars _ => InFunction vars []           (* the dictionary kept is cleared *)
            | None, InBody _ => InBody []
            | _, fr => fr
            end in
  (fr, r).
(** the variables of the caller, as statements of the caller read them *)
Definition reads_var {V} (fr : frame V) (globals : dict V) (x : string) : option (thing V) :=
  match fr with
  | InFunction vars _ => if declared vars x then match List.find (fun p => String.eqb x (fst p)) vars with Some (_, t) => t | None => None end else find globals x
  | AtTop => find globals x
  | InBody space => match find space x with Some t => Some t | None => find globals x end
  end.
