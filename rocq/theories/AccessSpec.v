(** Specification of the access to particle properties (C114). *)
From Coq Require Import Ascii.
From Verif Require Import PyBase NumpyModel NdModel RegistryModel RegistrySpec AccessModel.
Open Scope string_scope.

(** the numbers of all particles of one species: one for all of them, or one for each *)
Definition spread {V} (s : species V) (x : pval V) (l : list V) : Prop :=
  match x with
  | One v => length l = s_len s /\ forall k y, nth_error l k = Some y -> y = v
  | Each l' => l = l'
  end.
(** the numbers of the particles of all species, one species after the other *)
Inductive spread_all {V} (r : registry) (p : sprop) : list (species V) -> list V -> Prop :=
| sa_nil : spread_all r p [] []
| sa_cons s ms x l rest : has_value (s_out s) r p x -> spread s x l -> spread_all r p ms rest -> spread_all r p (s :: ms) (l ++ rest)%list.
(** arrays have as many numbers as there are particles *)
Definition full {V} (s : species V) : Prop := forall e args l, o_eval (s_out s) e args = Ok (Each l) -> length l = s_len s.
(** the name or the unit a registered property is shown with *)
Definition known_as (o : option sprop) (k : attrib) : string :=
  match o with Some p => match (match k with Name => sp_name p | Unit => sp_unit p end) with Some x => x | None => "unknown" end | None => "unknown" end.

(** ** the old methods: names in capitals became names in small letters *)
Definition small (c : ascii) : ascii :=
  let n := nat_of_ascii c in if andb (Nat.leb 65 n) (Nat.leb n 90) then ascii_of_nat (n + 32) else c.
Fixpoint lower (s : string) : string := match s with EmptyString => EmptyString | String c r => String (small c) (lower r) end.
Definition capitals : list string := ["ID"; "P"; "Px"; "Py"; "Pz"; "V"; "Vx"; "Vy"; "Vz"; "X"; "X_um"; "Y"; "Y_um"; "Z"; "Z_um"].
Definition kept_names : list string :=
  ["time"; "weight"; "mass"; "mass_u"; "charge"; "charge_e"; "Eruhe"; "beta"; "betax"; "betay"; "betaz"; "gamma"; "gamma_m1";
   "Ekin"; "Ekin_MeV"; "Ekin_MeV_amu"; "Ekin_MeV_qm"; "Ekin_keV"; "Ekin_keV_amu"; "Ekin_keV_qm";
   "angle_xy"; "angle_yz"; "angle_zx"; "angle_yx"; "angle_zy"; "angle_xz"; "angle_xaxis"; "r_xy"; "r_yz"; "r_zx"; "r_xyz"].
(** [modern m t]: the old method m is what is now the property t *)
Definition modern (m t : string) : Prop := (In m capitals /\ t = lower m) \/ (In m kept_names /\ t = m).
