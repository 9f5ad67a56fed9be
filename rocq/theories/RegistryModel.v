(** scalarproperties.py: the registry of particle scalars, and the resolution of names in
    particles.py.  No proofs in this file. *)
From Verif Require Import PyBase NumpyModel NdModel.
Open Scope string_scope.

(** ScalarProperty, scalarproperties.py 33-66.  The cached numexpr function (73-75) is a
    function of the expression and not modelled. *)
Record sprop := mksp { sp_expr : string; sp_name : option string; sp_unit : option string; sp_symbol0 : option string }.
Definition sp_symbol (p : sprop) : option string :=
  match sp_symbol0 p with None => sp_name p | s => s end.
(** ScalarProperty(expr), 37 *)
Definition anonymous (expr : string) : sprop := mksp expr None None None.

(** dict with keys str or None, in insertion order *)
Definition key_eqb (a b : option string) : bool :=
  match a, b with Some x, Some y => String.eqb x y | None, None => true | _, _ => false end.
Definition registry := list (option string * sprop).
Fixpoint reg_get (r : registry) (k : option string) : option sprop :=
  match r with [] => None | (j, p) :: r' => if key_eqb j k then Some p else reg_get r' k end.
Definition reg_mem (r : registry) (k : option string) : bool := match reg_get r k with Some _ => true | None => false end.
(** dict.update({k: p}): replaced in place, or appended *)
Fixpoint reg_set (r : registry) (k : option string) (p : sprop) : registry :=
  match r with [] => [(k, p)] | (j, q) :: r' => if key_eqb j k then (j, p) :: r' else (j, q) :: reg_set r' k p end.
Fixpoint reg_del (r : registry) (k : option string) : registry :=
  match r with [] => [] | (j, q) :: r' => if key_eqb j k then r' else (j, q) :: reg_del r' k end.
(** add, 124-133: the registry afterwards and the exception *)
Definition add (r : registry) (p : sprop) : registry * res unit :=
  if reg_mem r (sp_symbol p) then (r, Err KeyError)
  else match sp_symbol p with
       | None => (r, Err ValueError)
       | Some _ => (reg_set r (sp_symbol p) p, Ok tt)
       end.
(** remove, 142-143 *)
Definition remove (r : registry) (k : option string) : registry * res unit :=
  if reg_mem r k then (reg_del r k, Ok tt) else (r, Err KeyError).
(** __getitem__, 114-115; __len__, 121-122; __iter__, 117-119 *)
Definition getitem (r : registry) (k : option string) : res sprop :=
  match reg_get r k with Some p => Ok p | None => Err KeyError end.
Definition reg_len (r : registry) : nat := length r.
Definition reg_iter (r : registry) : list (option string) := map fst r.
(** __call__, 145-155 *)
Definition identify (r : registry) (expr : string) : sprop :=
  match reg_get r (Some expr) with
  | Some p => p
  | None =>
      match find (fun k => match reg_get r k with Some p => String.eqb (sp_expr p) expr | None => false end) (reg_iter r) with
      | Some k => match reg_get r k with Some p => p | None => anonymous expr end
      | None => anonymous expr
      end
  end.
(** a user changing the registry *)
Inductive regop := RAdd (p : sprop) | RRemove (k : option string).
Definition reg_step (r : registry) (o : regop) : registry :=
  match o with RAdd p => fst (add r p) | RRemove k => fst (remove r k) end.
Definition reg_run (l : list regop) (r : registry) : registry := fold_left reg_step l r.

(** * Resolution of names, particles.py 295-334 *)
(** 75-76 *)
Definition atomic_names : list string := ["weight"; "x"; "y"; "z"; "px"; "py"; "pz"; "mass"; "charge"; "id"; "time"].
Definition synonyms : list (string * string) := [("w", "weight"); ("m", "mass"); ("q", "charge"); ("t", "time")].
Fixpoint sget {V} (l : list (string * V)) (k : string) : option V :=
  match l with [] => None | (j, v) :: r => if String.eqb j k then Some v else sget r k end.
Definition synonym (name : string) : string := match sget synonyms name with Some f => f | None => name end.
(** What is outside: the variables numexpr finds in an expression and its evaluation, the
    atomic properties of the species, the numeric attributes of numpy and scipy.constants. *)
Record outside (V : Type) := mkout {
  o_names : string -> list string;
  o_eval : string -> list V -> res V;
  o_atom : string -> res V;
  o_numpy : string -> option V;
  o_scipy : string -> option V }.
Arguments mkout {V}. Arguments o_names {V}. Arguments o_eval {V}. Arguments o_atom {V}. Arguments o_numpy {V}. Arguments o_scipy {V}.
Definition vars (V : Type) := list (string * V).
(** 306-327: the loop over the variables; [ev] evaluates another ScalarProperty *)
Fixpoint load {V} (ev : sprop -> vars V -> res (V * vars V)) (E : outside V) (r : registry) (names : list string) (vs : vars V) : res (vars V) :=
  match names with
  | [] => Ok vs
  | name :: rest =>
      let! vs' :=
        match sget vs name with
        | Some _ => Ok vs
        | None =>
            let full := synonym name in
            match sget vs full with
            | Some v => Ok ((name, v) :: vs)
            | None =>
                if existsb (String.eqb full) atomic_names then
                  let! v := o_atom E full in Ok ((name, v) :: vs)
                else
                  match reg_get r (Some name) with
                  | Some p => let! x := ev p vs in Ok ((name, fst x) :: snd x)
                  | None =>
                      match o_scipy E name, o_numpy E name with
                      | Some v, _ | None, Some v => Ok ((name, v) :: vs)
                      | None, None => Err KeyError
                      end
                  end
            end
        end in
      load ev E r rest vs'
  end.
(** _eval_single_sp; [n] bounds the depth of the recursion (RecursionError: Diverges) *)
Fixpoint eval_sp {V} (n : nat) (E : outside V) (r : registry) (p : sprop) (vs : vars V) : res (V * vars V) :=
  match n with
  | O => Err Diverges
  | S n' =>
      let names := o_names E (sp_expr p) in
      let! vs' := load (eval_sp n' E r) E r names vs in
      let! args := mapM (fun x => match sget vs' x with Some v => Ok v | None => Err KeyError end) names in
      let! v := o_eval E (sp_expr p) args in
      Ok (v, vs')
  end.
(** MultiSpecies.__call__ with a string, 650-657, for one species *)
Definition evaluate {V} (n : nat) (E : outside V) (r : registry) (expr : string) : res V :=
  rmap fst (eval_sp n E r (identify r expr) []).
