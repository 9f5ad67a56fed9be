(** Numpy functions (ufuncs) and operators applied to Fields: Field.__array_ufunc__
    (postpic/datahandling.py 754-852), Field.__array_wrap__ (859-886) and the operators of
    NDArrayOperatorsMixin (postpic/_compat/mixins.py, copied from numpy).

    Left out: ufunc.at, the keyword arguments where, dtype, casting and keepdims, outputs given as None
    and the types of the samples.  A Field whose matrix is a Field again (after flip)
    enters with its samples only; FieldModel.data_op2 treats these. *)
From Verif Require Import PyBase NumpyModel AxisModel NdModel FieldModel.

(** A ufunc with its numbers of inputs and outputs; output k for some inputs is [u_fun k inputs].
    [u_fun 0 []] stands for the identity that reductions of nothing give. *)
Record ufunc (V : Type) := mkUfunc { u_nin : nat; u_nout : nat; u_fun : nat -> list V -> V }.
Arguments mkUfunc {V}. Arguments u_nin {V}. Arguments u_nout {V}. Arguments u_fun {V}.

(** What can stand beside a Field: a Field, a numpy array, a number (numbers.Number), or anything
    else; [disables] tells that its attribute __array_ufunc__ is None *)
Inductive operand (V : Type) :=
| AField (f : field V) | AArr (a : nda V) | ANum (x : V) | AOther (disables : bool).
Arguments AField {V}. Arguments AArr {V}. Arguments ANum {V}. Arguments AOther {V}.

(** ufunc(...), ufunc.reduce, ufunc.accumulate, ufunc.outer, ufunc.reduceat and the undocumented
    method inner *)
Inductive umethod := MCall | MReduce (ax : axisarg) | MAccumulate (ax : Z) | MOuter | MReduceat | MInner.

(** NotImplemented; one or several new Fields; the objects given as out, with their new contents *)
Inductive outcome (V : Type) :=
| RNotImpl | RFields (l : list (field V)) | ROut (l : list (operand V)).
Arguments RNotImpl {V}. Arguments RFields {V}. Arguments ROut {V}.

(** * numpy on arrays *)
Fixpoint join_shapes (l : list (list Z)) : res (list Z) :=
  match l with [] => Ok [] | s :: l' => let! r := join_shapes l' in bshape s r end.
Definition np_fill {V} (u : ufunc V) (sh : list Z) (arrs : list (nda V)) : list (nda V) :=
  map (fun k => mkarr sh (fun idx => u_fun u k (map (fun a => a_at a (bidx (a_shape a) idx)) arrs)))
      (seq 0 (u_nout u)).
Definition np_call {V} (u : ufunc V) (arrs : list (nda V)) : res (list (nda V)) :=
  let! sh := join_shapes (map a_shape arrs) in Ok (np_fill u sh arrs).
(** the ufunc put between the elements of a list *)
Definition fold1 {V} (u : ufunc V) (l : list V) : V :=
  match l with
  | [] => u_fun u 0%nat []
  | x :: l' => fold_left (fun a b => u_fun u 0%nat [a; b]) l' x
  end.
Definition np_accumulate {V} (u : ufunc V) (a : nda V) (ax : Z) : res (nda V) :=
  if Nat.eqb (length (a_shape a)) 0 then Err TypeError
  else
    let! k := py_pos (length (a_shape a)) ax in
    Ok (mkarr (a_shape a)
          (fun idx => fold1 u (map (fun i => a_at a (upd idx k i)) (zrange (nth k idx 0%Z + 1))))).
Definition np_outer {V} (u : ufunc V) (a b : nda V) : nda V :=
  let n := length (a_shape a) in
  mkarr (a_shape a ++ a_shape b)
        (fun idx => u_fun u 0%nat [a_at a (firstn n idx); a_at b (skipn n idx)]).
(** reduce, accumulate and outer exist for functions of two arguments with one result only *)
Definition np_method {V} (u : ufunc V) (m : umethod) (arrs : list (nda V)) : res (list (nda V)) :=
  let binary := (Nat.eqb (u_nin u) 2 && Nat.eqb (u_nout u) 1)%bool in
  match m, arrs with
  | MCall, _ => np_call u arrs
  | MReduce ax, [a] => if binary then rmap (fun r => [r]) (np_reduce (fold1 u) a ax false) else Err ValueError
  | MAccumulate ax, [a] => if binary then rmap (fun r => [r]) (np_accumulate u a ax) else Err ValueError
  | MOuter, [a; b] => if binary then Ok [np_outer u a b] else Err ValueError
  | _, _ => Err TypeError
  end.
(** The same with the results stored into the arrays [outs].  In a plain call the inputs are
    repeated up to the shape of the outputs, which themselves are never repeated. *)
Definition np_into {V} (u : ufunc V) (m : umethod) (arrs outs : list (nda V)) : res (list (nda V)) :=
  if negb (Nat.eqb (length outs) (match m with MCall => u_nout u | _ => 1%nat end)) then Err TypeError
  else
    let! rs := (match m with
                | MCall => let! sh := join_shapes (map a_shape (arrs ++ outs)) in Ok (np_fill u sh arrs)
                | _ => np_method u m arrs
                end) in
    if forallb (fun p => idx_eqb (a_shape (fst p)) (a_shape (snd p))) (combine rs outs) then Ok rs else Err ValueError.

(** * Field.__array_ufunc__ *)
(** 748-749 and 764-766 *)
Definition handled {V} (o : operand V) : bool := match o with AOther _ => false | _ => true end.
(** x.matrix if x is a Field, else x: 823 *)
Definition unwrap {V} (o : operand V) : res (nda V) :=
  match o with
  | AField f => Ok (f_data f)
  | AArr a => Ok a
  | ANum x => Ok (mkarr [] (fun _ => x))
  | AOther _ => Err TypeError
  end.
(** axes, axes_transform_state, transformed_axes_origins of the result *)
Definition props := (list (option axis) * list (option bool) * list (option Q))%type.
Definition props_of {V} (f : field V) : props := (map Some (f_axes f), f_ats f, f_tao f).
Definition props_of_entries (es : list entry) : props :=
  (map (fun e => fst (fst e)) es, map (fun e => snd (fst e)) es, map snd es).
(** 779-785; _get_axes_ats_tao_binary_ufunc_broadcasting returns the lists of the Field if the
    other is a number, 663-665 *)
Definition props2 {V} (a b : operand V) : res props :=
  match a, b with
  | AField f, ANum _ => Ok (props_of f)
  | AField f, AArr x => rmap props_of_entries (op2_entries (Some (f_top f)) None (length (f_shape f)) (length (a_shape x)))
  | AField f, AField g =>
      rmap props_of_entries (op2_entries (Some (f_top f)) (Some (f_top g)) (length (f_shape f)) (length (f_shape g)))
  | AField _, AOther _ => Err AttributeError
  | ANum _, AField g => Ok (props_of g)
  | AArr x, AField g => rmap props_of_entries (op2_entries None (Some (f_top g)) (length (a_shape x)) (length (f_shape g)))
  | AOther _, AField _ => Err AttributeError
  | _, _ => Err NameError
  end.
(** 804-818: for an array, j.shape[j] is asked of the integer j *)
Definition props_outer1 {V} (o : operand V) : res props :=
  match o with
  | AField f => Ok (props_of f)
  | AArr a => if Nat.eqb (length (a_shape a)) 0 then Ok ([], [], []) else Err AttributeError
  | _ => Ok ([], [], [])
  end.
Fixpoint props_outer {V} (l : list (operand V)) : res props :=
  match l with
  | [] => Ok ([], [], [])
  | o :: l' =>
      let! p := props_outer1 o in
      let! q := props_outer l' in
      let '(a, s, t) := p in
      let '(a', s', t') := q in Ok (a ++ a', s ++ s', t ++ t')
  end.
(** 792-803 *)
Definition props_reduce {V} (f : field V) (ax : axisarg) : res props :=
  let is := match ax with
            | AxNone => zlist (length (f_axes f))
            | AxInt i => [i]
            | AxTuple t => t
            end in
  let order := rev (sorted_set is) in
  let! axes := del_all (f_axes f) order in
  let! ats := del_all (f_ats f) order in
  let! tao := del_all (f_tao f) order in
  Ok (map Some axes, ats, tao).
(** 772-820; "raise NotImplemented" is a TypeError *)
Definition result_props {V} (self : field V) (m : umethod) (inputs : list (operand V)) : res props :=
  match m with
  | MCall => match inputs with [_] => Ok (props_of self) | [a; b] => props2 a b | _ => Err TypeError end
  | MAccumulate _ => Ok (props_of self)
  | MReduce ax => props_reduce self ax
  | MOuter => props_outer inputs
  | MReduceat | MInner => Err NameError
  end.
(** the contents of an output after the call; its other attributes stay *)
Definition set_data {V} (o : operand V) (a : nda V) : operand V :=
  match o with
  | AField f => AField (mkField a (f_top f) (f_inner f))
  | AArr _ => AArr a
  | _ => o
  end.
Definition array_ufunc {V} (self : field V) (u : ufunc V) (m : umethod) (inputs outs : list (operand V))
    : res (outcome V) :=
  match m with
  | MReduceat | MInner => Ok RNotImpl
  | _ =>
      if forallb handled (inputs ++ outs) then
        match outs with
        | [] =>
            let! p := result_props self m inputs in
            let! arrs := mapM unwrap inputs in
            let! rs := np_method u m arrs in
            let '(axes, ats, tao) := p in
            let! fs := mapM (fun r => field_of r (l_name (f_top self)) (l_unit (f_top self)) axes ats tao) rs in
            Ok (RFields fs)
        | _ =>
            let! arrs := mapM unwrap inputs in
            let! old := mapM unwrap outs in
            let! rs := np_into u m arrs old in
            Ok (ROut (map2 set_data outs rs))
        end
      else Ok RNotImpl
  end.

(** * Calling a ufunc *)
Definition disables {V} (o : operand V) : bool := match o with AOther b => b | _ => false end.
Fixpoint first_field {V} (l : list (operand V)) : option (field V) :=
  match l with
  | [] => None
  | AField f :: _ => Some f
  | _ :: l' => first_field l'
  end.
Definition num_inputs {V} (u : ufunc V) (m : umethod) : nat :=
  match m with MCall => u_nin u | MReduce _ | MAccumulate _ => 1%nat | _ => 2%nat end.
(** numpy checks the number of arguments, refuses objects that disable ufuncs, and asks the
    first Field among the inputs and the outputs; if it returns NotImplemented (as every other
    Field then does) a TypeError is raised.  Calls without any Field do not concern us. *)
Definition call_ufunc {V} (u : ufunc V) (m : umethod) (inputs outs : list (operand V)) : res (outcome V) :=
  if negb (Nat.eqb (length inputs) (num_inputs u m)) then Err TypeError
  else if existsb disables (inputs ++ outs) then Err TypeError
  else
    match first_field (inputs ++ outs) with
    | None => Err TypeError
    | Some self =>
        let! r := array_ufunc self u m inputs outs in
        match r with RNotImpl => Err TypeError | _ => Ok r end
    end.

(** * Operators *)
(** mixins.py 30-47: x op y where one is a Field.  A number leaves the operation to the Field on
    its right; an array calls the ufunc itself.  If the other object disables ufuncs the Field
    leaves the operation to it. *)
Definition binary_operator {V} (u : ufunc V) (x y : operand V) : res (outcome V) :=
  match x, y with
  | AField _, AOther true => Ok RNotImpl
  | AField _, _ => call_ufunc u MCall [x; y] []
  | AOther true, AField _ => Ok RNotImpl
  | _, AField _ => call_ufunc u MCall [x; y] []
  | _, _ => Err TypeError
  end.
(** 66-71 *)
Definition unary_operator {V} (u : ufunc V) (f : field V) : res (outcome V) := call_ufunc u MCall [AField f] [].
(** x op= y: 50-56.  numpy's own class gives the Field as out; the copy in postpic, for numpy before 1.13, its matrix. *)
Definition inplace_operator {V} (u : ufunc V) (f : field V) (y : operand V) : res (field V) :=
  let! r := call_ufunc u MCall [AField f; y] [AField f] in
  match r with ROut [AField g] => Ok g | _ => Err TypeError end.

(** * Field.__array_wrap__, 859-886 *)
(** [context]: the inputs of the ufunc, if known.  The result is a Field or the plain array. *)
Definition array_wrap {V} (self : field V) (array : operand V) (context : option (list (operand V))) : res (operand V) :=
  match array with
  | AField f => Ok (AField f)
  | AArr a =>
      let! p := (match context with
                 | Some [AField f; b] => props2 (AField f) b
                 | Some [b; AField f] => props2 (AField f) b
                 | _ => Ok (props_of self)
                 end) in
      let '(axes, ats, tao) := p in
      if Nat.eqb (length (a_shape a)) (length axes)
      then rmap AField (field_of a (l_name (f_top self)) (l_unit (f_top self)) axes ats tao)
      else Ok (AArr a)
  | _ => Err AttributeError
  end.
