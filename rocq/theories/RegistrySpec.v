(** Specifications for the registry (C42) and the resolution of names (C73). *)
From Verif Require Import PyBase NumpyModel NdModel RegistryModel.
Open Scope string_scope.

(** ** the registry as a function from symbols to properties *)
Definition table := string -> option sprop.
(** the symbol, by default the name *)
Definition symbol_of (p : sprop) : option string := match sp_symbol0 p with Some s => Some s | None => sp_name p end.
Definition table_step (t : table) (o : regop) : table :=
  match o with
  | RAdd p =>
      match symbol_of p with
      | Some s => match t s with Some _ => t | None => fun k => if String.eqb k s then Some p else t k end
      | None => t
      end
  | RRemove (Some s) => fun k => if String.eqb k s then None else t k
  | RRemove None => t
  end.
Definition table_run (l : list regop) : table := fold_left table_step l (fun _ => None).
(** the symbols in the order in which they were added *)
Definition order_step (t : table * list string) (o : regop) : table * list string :=
  (table_step (fst t) o,
   match o with
   | RAdd p => match symbol_of p with Some s => match fst t s with Some _ => snd t | None => (snd t ++ [s])%list end | None => snd t end
   | RRemove (Some s) => filter (fun k => negb (String.eqb k s)) (snd t)
   | RRemove None => snd t
   end).
Definition order_run (l : list regop) : list string := snd (fold_left order_step l (fun _ => None, [])).

(** ** what a name means *)
Definition atom_of (name : string) : option string :=
  if existsb (String.eqb name) ["x"; "y"; "z"; "px"; "py"; "pz"; "id"] then Some name
  else if existsb (String.eqb name) ["weight"; "w"] then Some "weight"
  else if existsb (String.eqb name) ["mass"; "m"] then Some "mass"
  else if existsb (String.eqb name) ["charge"; "q"] then Some "charge"
  else if existsb (String.eqb name) ["time"; "t"] then Some "time" else None.
Inductive means {V} (E : outside V) (r : registry) : string -> V -> Prop :=
| m_atom name full v : atom_of name = Some full -> o_atom E full = Ok v -> means E r name v
| m_known name p vs v : atom_of name = None -> reg_get r (Some name) = Some p ->
    mean_all E r (o_names E (sp_expr p)) vs -> o_eval E (sp_expr p) vs = Ok v -> means E r name v
| m_scipy name v : atom_of name = None -> reg_get r (Some name) = None -> o_scipy E name = Some v -> means E r name v
| m_numpy name v : atom_of name = None -> reg_get r (Some name) = None -> o_scipy E name = None -> o_numpy E name = Some v -> means E r name v
with mean_all {V} (E : outside V) (r : registry) : list string -> list V -> Prop :=
| ma_nil : mean_all E r [] []
| ma_cons name v names vs : means E r name v -> mean_all E r names vs -> mean_all E r (name :: names) (v :: vs).
(** the value of a property: its expression with the meaning of every variable inserted *)
Definition has_value {V} (E : outside V) (r : registry) (p : sprop) (v : V) : Prop :=
  exists vs, mean_all E r (o_names E (sp_expr p)) vs /\ o_eval E (sp_expr p) vs = Ok v.
