(** Access to particle properties by text, by ScalarProperty and by function, the labels found for
    them, and the old accessor methods: particles.py _findscalarattr (45-59), MultiSpecies.__call__
    (623-658), __call_sp (661-673), __call_func (675-684), the methods 688-957, and the decorator
    helper.deprecated (97-120).  No proofs in this file. *)
From Coq Require Import QArith.
From Verif Require Import PyBase NumpyModel NdModel RegistryModel CollectModel.
Open Scope string_scope.

(** What numexpr returns for one species: an array of shape () or one number per particle. *)
Inductive pval (V : Type) := One (v : V) | Each (l : list V).
Arguments One {V}. Arguments Each {V}.
(** One of self._ssas: len(ss) and what its properties are. *)
Record species (V : Type) := mkspecies { s_len : nat; s_out : outside (pval V) }.
Arguments mkspecies {V}. Arguments s_len {V}. Arguments s_out {V}.
(** ssdata, 663-667 *)
Definition ssdata {V} (n : nat) (r : registry) (p : sprop) (s : species V) : res (list V) :=
  let! x := eval_sp n (s_out s) r p [] in
  Ok (match fst x with One v => repeat v (s_len s) | Each l => l end).
(** __call_sp, 661-673; np.hstack joins the arrays *)
Definition call_sp {V} (n : nat) (r : registry) (p : sprop) (ms : list (species V)) : res (list V) :=
  match ms with
  | [] => Ok []
  | _ => let! data := mapM (ssdata n r p) ms in Ok (concat data)
  end.
(** What may be given: a text, a ScalarProperty, a function with the attributes name and unit if it
    has them. *)
Inductive argument (V : Type) := GText (s : string) | GProp (p : sprop) | GFunc (name unit : option string) (f : list (species V) -> res (list V)).
Arguments GText {V}. Arguments GProp {V}. Arguments GFunc {V}.
(** __call__, 623-658, and __call_func, without the warning *)
Definition call {V} (n : nat) (r : registry) (a : argument V) (ms : list (species V)) : res (list V) :=
  match a with
  | GProp p => call_sp n r p ms
  | GText s => call_sp n r (identify r s) ms
  | GFunc _ _ f => f ms
  end.
(** _findscalarattr, 45-59, for the attributes name and unit.  Objects other than texts are never
    found in particle_scalars. *)
Inductive attrib := Name | Unit.
Definition sp_attr (k : attrib) (p : sprop) : option string := match k with Name => sp_name p | Unit => sp_unit p end.
Definition find_attr {V} (r : registry) (a : argument V) (k : attrib) : string :=
  let ret := match a with
             | GText _ => None
             | GProp p => sp_attr k p
             | GFunc name unit _ => match k with Name => name | Unit => unit end
             end in
  let ret := match a with
             | GText s => match reg_get r (Some s) with Some p => sp_attr k p | None => ret end
             | _ => ret
             end in
  match ret with None => "unknown" | Some x => x end.
(** The arguments of createField as CollectModel takes them (sps in 1060-1102 and 1161-1163).  The
    symbol is only used with simextent and simgrid; there a function or an anonymous property is not
    modelled. *)
Definition scalar_of (n : nat) (r : registry) (ms : list (species Q)) (a : argument Q) : scalar :=
  mkscalar (match a with GText s => s | GProp p => match sp_symbol p with Some s => s | None => "" end | GFunc _ _ _ => "" end)
    (call n r a ms) (find_attr r a Name) (find_attr r a Unit).

(** * The old methods *)
(** A statement in the body of the class: the definition of a method (its name, the text within
    self("...") of the message, the text evaluated), or the assignment of an attribute to it. *)
Inductive statement := ADef (method hint text : string) | AName (method name : string) | AUnit (method unit : string).
Record method := mkmethod { m_name : string; m_hint : string; m_text : string; m_label : option string; m_unit : option string }.
(** assignments to a method which is not defined would be a NameError *)
Fixpoint set_attr (k : attrib) (m v : string) (l : list method) : res (list method) :=
  match l with
  | [] => Err NameError
  | x :: r => if String.eqb (m_name x) m
              then Ok (match k with Name => mkmethod (m_name x) (m_hint x) (m_text x) (Some v) (m_unit x)
                                  | Unit => mkmethod (m_name x) (m_hint x) (m_text x) (m_label x) (Some v) end :: r)
              else rmap (cons x) (set_attr k m v r)
  end.
Definition run_statement (l : res (list method)) (s : statement) : res (list method) :=
  let! l := l in
  match s with
  | ADef m h t => Ok (l ++ [mkmethod m h t None None])%list
  | AName m v => set_attr Name m v l
  | AUnit m v => set_attr Unit m v l
  end.
(** 688-957 *)
Definition class_body : list statement :=
  [ ADef "time" "{name}" "time"; AName "time" "time"; AUnit "time" "s";
    ADef "weight" "{name}" "weight"; AName "weight" "Particle weight"; AUnit "weight" "npartpermacro";
    ADef "ID" "id" "id";
    ADef "mass" "{name}" "mass"; AUnit "mass" "kg"; AName "mass" "m";
    ADef "mass_u" "{name}" "mass_u"; AUnit "mass_u" "u"; AName "mass_u" "m";
    ADef "charge" "{name}" "charge"; AUnit "charge" "C"; AName "charge" "q";
    ADef "charge_e" "{name}" "charge_e"; AUnit "charge" "qe"; AName "charge" "q";
    ADef "Eruhe" "{name}" "Eruhe";
    ADef "Px" "px" "px"; AUnit "Px" ""; AName "Px" "Px";
    ADef "Py" "py" "py"; AUnit "Py" ""; AName "Py" "Py";
    ADef "Pz" "pz" "pz"; AUnit "Pz" ""; AName "Pz" "Pz";
    ADef "P" "p" "p"; AUnit "P" ""; AName "P" "P";
    ADef "X" "x" "x"; AUnit "X" "m"; AName "X" "X";
    ADef "X_um" "x_um" "x_um"; AUnit "X_um" "$\mu m$"; AName "X_um" "X";
    ADef "Y" "y" "y"; AUnit "Y" "m"; AName "Y" "Y";
    ADef "Y_um" "Y_mu" "y_um"; AUnit "Y_um" "$\mu m$"; AName "Y_um" "Y";
    ADef "Z" "z" "z"; AUnit "Z" "m"; AName "Z" "Z";
    ADef "Z_um" "z_um" "z_um"; AUnit "Z_um" "$\mu m$"; AName "Z_um" "Z";
    ADef "beta" "{name}" "beta"; AUnit "beta" "$\beta$"; AName "beta" "beta";
    ADef "betax" "{name}" "betax"; AUnit "betax" "$\beta$"; AName "betax" "betax";
    ADef "betay" "{name}" "betay"; AUnit "betay" "$\beta$"; AName "betay" "betay";
    ADef "betaz" "{name}" "betaz"; AUnit "betaz" "$\beta$"; AName "betaz" "betaz";
    ADef "V" "v" "v"; AUnit "V" "m/s"; AName "V" "V";
    ADef "Vx" "vx" "vx"; AUnit "Vx" "m/s"; AName "Vx" "Vx";
    ADef "Vy" "vy" "vy"; AUnit "Vy" "m/s"; AName "Vy" "Vy";
    ADef "Vz" "vz" "vz"; AUnit "Vz" "m/s"; AName "Vz" "Vz";
    ADef "gamma" "{name}" "gamma"; AUnit "gamma" "$\gamma$"; AName "gamma" "gamma";
    ADef "gamma_m1" "{name}" "gamma_m1"; AUnit "gamma_m1" "$\gamma - 1$"; AName "gamma_m1" "gamma_m1";
    ADef "Ekin" "{name}" "Ekin"; AUnit "Ekin" "J"; AName "Ekin" "Ekin";
    ADef "Ekin_MeV" "{name}" "Ekin_MeV"; AUnit "Ekin_MeV" "MeV"; AName "Ekin_MeV" "Ekin";
    ADef "Ekin_MeV_amu" "{name}" "Ekin_MeV_amu"; AUnit "Ekin_MeV_amu" "MeV / amu"; AName "Ekin_MeV_amu" "Ekin / amu";
    ADef "Ekin_MeV_qm" "{name}" "Ekin_MeV_qm"; AUnit "Ekin_MeV_qm" "MeV*q/m"; AName "Ekin_MeV_qm" "Ekin * q/m";
    ADef "Ekin_keV" "{name}" "Ekin_keV"; AUnit "Ekin_keV" "keV"; AName "Ekin_keV" "Ekin";
    ADef "Ekin_keV_amu" "{name}" "Ekin_keV_amu"; AUnit "Ekin_keV_amu" "keV / amu"; AName "Ekin_keV_amu" "Ekin / amu";
    ADef "Ekin_keV_qm" "{name}" "Ekin_keV_qm"; AUnit "Ekin_keV_qm" "keV*q/m"; AName "Ekin_keV_qm" "Ekin * q/m";
    ADef "angle_xy" "{name}" "angle_xy"; AUnit "angle_xy" "rad"; AName "angle_xy" "anglexy";
    ADef "angle_yz" "{name}" "ange_yz"; AUnit "angle_yz" "rad"; AName "angle_yz" "angleyz";
    ADef "angle_zx" "{name}" "angle_zx"; AUnit "angle_zx" "rad"; AName "angle_zx" "anglezx";
    ADef "angle_yx" "{name}" "angle_yx"; AUnit "angle_yx" "rad"; AName "angle_yx" "angleyx";
    ADef "angle_zy" "{name}" "angle_zy"; AUnit "angle_zy" "rad"; AName "angle_zy" "anglezy";
    ADef "angle_xz" "{name}" "angle_xz"; AUnit "angle_xz" "rad"; AName "angle_xz" "anglexz";
    ADef "angle_xaxis" "{name}" "angle_xaxis"; AUnit "angle_xaxis" "rad"; AName "angle_xaxis" "angle_xaxis";
    ADef "r_xy" "{name}" "r_xy"; AUnit "r_xy" "m"; AName "r_xy" "r_xy";
    ADef "r_yz" "{name}" "r_yz"; AUnit "r_yz" "m"; AName "r_yz" "r_yz";
    ADef "r_zx" "{name}" "r_zx"; AUnit "r_zx" "m"; AName "r_zx" "r_zx";
    ADef "r_xyz" "{name}" "r_xyz"; AUnit "r_xyz" "m"; AName "r_xyz" "r_xyz" ].
Definition methods : res (list method) := fold_left run_statement class_body (Ok []).
Definition find_method (m : string) : option method :=
  match methods with Ok l => find (fun x => String.eqb (m_name x) m) l | Err _ => None end.
(** MultiSpecies.m as an object: a function of the collection with its attributes *)
Definition accessor {V} (n : nat) (r : registry) (m : string) : option (argument V) :=
  match find_method m with
  | Some x => Some (GFunc (m_label x) (m_unit x) (call n r (GText (m_text x))))
  | None => None
  end.
(** ms.m(), for names of no other attribute of a collection (add, compress, ..) *)
Definition access {V} (n : nat) (r : registry) (m : string) (ms : list (species V)) : res (list V) :=
  match accessor n r m with Some a => call n r a ms | None => Err AttributeError end.
(** The text the message of the warning asks for (helper.deprecated, 102-109): {name} is the name of
    the function. *)
Definition advised (m : string) : option string :=
  match find_method m with
  | Some x => Some (if String.eqb (m_hint x) "{name}" then m else m_hint x)
  | None => None
  end.
