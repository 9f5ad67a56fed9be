(** Formulas over the real numbers: polar coordinates (helper.py) and the default particle
    scalars (scalarproperties.py).  Exact real arithmetic; the sign of zero is not
    modelled.  No proofs in this file. *)
From Coq Require Import Reals.
From Verif Require Import PyBase NumpyModel NdModel RegistryModel.
Open Scope string_scope.
Open Scope R_scope.

(** np.arctan2 *)
Definition arctan2 (y x : R) : R :=
  if Rlt_dec 0 x then atan (y / x)
  else if Rlt_dec x 0 then (if Rle_dec 0 y then atan (y / x) + PI else atan (y / x) - PI)
  else if Rlt_dec 0 y then PI / 2 else if Rlt_dec y 0 then - (PI / 2) else 0.

(** helper.py 184-187 *)
Definition polar2linear (theta r : R) : R * R :=
  let x := r * cos theta in let y := r * sin theta in (x, y).
(** 190-195 *)
Definition polar2linear_jac (theta r : R) : list (list R) :=
  let x_theta := - r * sin theta in
  let x_r := cos theta in
  let y_theta := r * cos theta in
  let y_r := sin theta in
  [[x_theta; x_r]; [y_theta; y_r]].
(** 198-199 *)
Definition polar2linear_jacdet (theta r : R) : R := r.
(** 202-205 *)
Definition linear2polar (x y : R) : R * R :=
  let r := sqrt (x ^ 2 + y ^ 2) in let theta := arctan2 y x in (theta, r).
(** helper.jac_det, 326-353, of a function returning one or two rows: npl.det of a two by
    two matrix; other sizes are not modelled *)
Definition jac_det (jac : R -> R -> list (list R)) (a b : R) : res R :=
  match jac a b with
  | [[p; q]; [r; s]] => Ok (Rabs (p * s - q * r))
  | _ => Err ValueError
  end.
(** helper.approx_1d_jacobian_det, 411-420; [eps] is sqrt of the machine epsilon.  The
    division by zero of a float is not an error but nan *)
Definition approx_1d_jacobian_det (eps : R) (transform : R -> R) (x : R) : option R :=
  let dx := eps + eps * x in
  if Req_EM_T (2 * dx) 0 then None
  else Some (Rabs ((transform (x + dx) - transform (x - dx)) / (2 * dx))).

(** the radii Field.topolar chooses, datahandling.py 2233-2236; np.min, np.max raise for
    empty grids *)
Definition rmin_list (l : list R) : res R := match l with [] => Err ValueError | x :: r => Ok (fold_left Rmin r x) end.
Definition rmax_list (l : list R) : res R := match l with [] => Err ValueError | x :: r => Ok (fold_left Rmax r x) end.
Definition polar_radii (gx gy : list R) : res (R * R) :=
  let! ax := rmin_list (map Rabs gx) in
  let! ay := rmin_list (map Rabs gy) in
  let! bx := rmax_list (map Rabs gx) in
  let! by_ := rmax_list (map Rabs gy) in
  Ok (sqrt (ax ^ 2 + ay ^ 2), sqrt (bx ^ 2 + by_ ^ 2)).

(** * The default scalars, scalarproperties.py 159-222, in the order of the source *)
Inductive ast :=
| AVar (s : string) | ANum (z : Z) | AAdd (a b : ast) | AMul (a b : ast) | ADiv (a b : ast)
| ASq (a : ast) | ASqrt (a : ast) | AAtan2 (a b : ast).
Definition default_scalars : list sprop :=
  [ mksp "time" (Some "time") (Some "s") None;
    mksp "time" (Some "time") (Some "s") (Some "t");
    mksp "weight" (Some "weight") (Some "npartpermacro") None;
    mksp "weight" (Some "weight") (Some "npartpermacro") (Some "w");
    mksp "id" (Some "id") (Some "") None;
    mksp "mass" (Some "mass") (Some "kg") None;
    mksp "mass" (Some "mass") (Some "kg") (Some "m");
    mksp "mass / atomic_mass" (Some "mass_u") (Some "amu") None;
    mksp "mass / atomic_mass" (Some "mass_u") (Some "amu") (Some "m_u");
    mksp "charge" (Some "charge") (Some "C") None;
    mksp "charge" (Some "charge") (Some "C") (Some "q");
    mksp "charge / elementary_charge" (Some "charge_e") (Some "") None;
    mksp "charge / elementary_charge" (Some "charge_e") (Some "") (Some "q_e");
    mksp "x" (Some "x") (Some "m") None;
    mksp "x * 1e6" (Some "x_um") (Some "$\mu$ m") None;
    mksp "y" (Some "y") (Some "m") None;
    mksp "y * 1e6" (Some "y_um") (Some "$\mu$ m") None;
    mksp "z" (Some "z") (Some "m") None;
    mksp "z * 1e6" (Some "z_um") (Some "$\mu$ m") None;
    mksp "px" (Some "px") (Some "kg*m/s") None;
    mksp "py" (Some "py") (Some "kg*m/s") None;
    mksp "pz" (Some "pz") (Some "kg*m/s") None;
    mksp "sqrt(px**2 + py**2 + pz**2)" (Some "p") (Some "kg*m/s") None;
    mksp "(px**2 + py**2 + pz**2)/(mass * c)**2" (Some "_np2") (Some "") None;
    mksp "_np2 / (sqrt(1 + _np2) + 1)" (Some "gamma_m1") (Some "") None;
    mksp "_np2 / (sqrt(1 + _np2) + 1) + 1" (Some "gamma") (Some "") None;
    mksp "gamma * mass" (Some "gamma_m") (Some "kg") None;
    mksp "beta * c" (Some "v") (Some "m/s") None;
    mksp "px / (gamma * mass)" (Some "vx") (Some "m/s") None;
    mksp "py / (gamma * mass)" (Some "vy") (Some "m/s") None;
    mksp "pz / (gamma * mass)" (Some "vz") (Some "m/s") None;
    mksp "sqrt(gamma_m1**2 + 2 * gamma_m1) / (gamma_m1 + 1)" (Some "beta") (Some "") None;
    mksp "vx / c" (Some "betax") (Some "") None;
    mksp "vy / c" (Some "betay") (Some "") None;
    mksp "vz / c" (Some "betaz") (Some "") None;
    mksp "mass * c**2" (Some "Eruhe") (Some "J") None;
    mksp "gamma_m1 * mass * c**2" (Some "Ekin") (Some "J") None;
    mksp "Ekin / elementary_charge / 1e6" (Some "Ekin_MeV") (Some "MeV") None;
    mksp "Ekin / elementary_charge / 1e6 / mass_u" (Some "Ekin_MeV_amu") (Some "MeV/u") None;
    mksp "Ekin / elementary_charge / 1e6 / mass_u * charge_e" (Some "Ekin_MeV_qm") (Some "MeV * q/m") None;
    mksp "Ekin / elementary_charge / 1e3" (Some "Ekin_keV") (Some "keV/u") None;
    mksp "Ekin / elementary_charge / 1e3 / mass_u" (Some "Ekin_keV_amu") (Some "keV/u") None;
    mksp "Ekin / elementary_charge / 1e3 / mass_u * charge_e" (Some "Ekin_keV_qm") (Some "keV * q/m") None;
    mksp "arctan2(py, px)" (Some "angle_xy") (Some "rad") None;
    mksp "arctan2(px, py)" (Some "angle_yx") (Some "rad") None;
    mksp "arctan2(pz, py)" (Some "angle_yz") (Some "rad") None;
    mksp "arctan2(py, pz)" (Some "angle_zy") (Some "rad") None;
    mksp "arctan2(px, pz)" (Some "angle_zx") (Some "rad") None;
    mksp "arctan2(pz, px)" (Some "angle_xz") (Some "rad") None;
    mksp "arctan2(sqrt(py**2 + pz**2), px)" (Some "angle_xaxis") (Some "rad") None;
    mksp "arctan2(sqrt(pz**2 + px**2), py)" (Some "angle_yaxis") (Some "rad") None;
    mksp "arctan2(sqrt(px**2 + py**2), pz)" (Some "angle_zaxis") (Some "rad") None;
    mksp "sqrt(x**2 + y**2)" (Some "r_xy") (Some "m") None;
    mksp "sqrt(y**2 + z**2)" (Some "r_yz") (Some "m") None;
    mksp "sqrt(z**2 + x**2)" (Some "r_zx") (Some "m") None;
    mksp "sqrt(x**2 + y**2 + z**2)" (Some "r_xyz") (Some "m") None ].
(** the expressions as numexpr parses them *)
Definition default_asts : list (string * ast) :=
  [ ("time", AVar "time");
    ("weight", AVar "weight");
    ("id", AVar "id");
    ("mass", AVar "mass");
    ("mass / atomic_mass", ADiv (AVar "mass") (AVar "atomic_mass"));
    ("charge", AVar "charge");
    ("charge / elementary_charge", ADiv (AVar "charge") (AVar "elementary_charge"));
    ("x", AVar "x");
    ("x * 1e6", AMul (AVar "x") (ANum 1000000));
    ("y", AVar "y");
    ("y * 1e6", AMul (AVar "y") (ANum 1000000));
    ("z", AVar "z");
    ("z * 1e6", AMul (AVar "z") (ANum 1000000));
    ("px", AVar "px");
    ("py", AVar "py");
    ("pz", AVar "pz");
    ("sqrt(px**2 + py**2 + pz**2)", ASqrt (AAdd (AAdd (ASq (AVar "px")) (ASq (AVar "py"))) (ASq (AVar "pz"))));
    ("(px**2 + py**2 + pz**2)/(mass * c)**2", ADiv (AAdd (AAdd (ASq (AVar "px")) (ASq (AVar "py"))) (ASq (AVar "pz"))) (ASq (AMul (AVar "mass") (AVar "c"))));
    ("_np2 / (sqrt(1 + _np2) + 1)", ADiv (AVar "_np2") (AAdd (ASqrt (AAdd (ANum 1) (AVar "_np2"))) (ANum 1)));
    ("_np2 / (sqrt(1 + _np2) + 1) + 1", AAdd (ADiv (AVar "_np2") (AAdd (ASqrt (AAdd (ANum 1) (AVar "_np2"))) (ANum 1))) (ANum 1));
    ("gamma * mass", AMul (AVar "gamma") (AVar "mass"));
    ("beta * c", AMul (AVar "beta") (AVar "c"));
    ("px / (gamma * mass)", ADiv (AVar "px") (AMul (AVar "gamma") (AVar "mass")));
    ("py / (gamma * mass)", ADiv (AVar "py") (AMul (AVar "gamma") (AVar "mass")));
    ("pz / (gamma * mass)", ADiv (AVar "pz") (AMul (AVar "gamma") (AVar "mass")));
    ("sqrt(gamma_m1**2 + 2 * gamma_m1) / (gamma_m1 + 1)", ADiv (ASqrt (AAdd (ASq (AVar "gamma_m1")) (AMul (ANum 2) (AVar "gamma_m1")))) (AAdd (AVar "gamma_m1") (ANum 1)));
    ("vx / c", ADiv (AVar "vx") (AVar "c"));
    ("vy / c", ADiv (AVar "vy") (AVar "c"));
    ("vz / c", ADiv (AVar "vz") (AVar "c"));
    ("mass * c**2", AMul (AVar "mass") (ASq (AVar "c")));
    ("gamma_m1 * mass * c**2", AMul (AMul (AVar "gamma_m1") (AVar "mass")) (ASq (AVar "c")));
    ("Ekin / elementary_charge / 1e6", ADiv (ADiv (AVar "Ekin") (AVar "elementary_charge")) (ANum 1000000));
    ("Ekin / elementary_charge / 1e6 / mass_u", ADiv (ADiv (ADiv (AVar "Ekin") (AVar "elementary_charge")) (ANum 1000000)) (AVar "mass_u"));
    ("Ekin / elementary_charge / 1e6 / mass_u * charge_e", AMul (ADiv (ADiv (ADiv (AVar "Ekin") (AVar "elementary_charge")) (ANum 1000000)) (AVar "mass_u")) (AVar "charge_e"));
    ("Ekin / elementary_charge / 1e3", ADiv (ADiv (AVar "Ekin") (AVar "elementary_charge")) (ANum 1000));
    ("Ekin / elementary_charge / 1e3 / mass_u", ADiv (ADiv (ADiv (AVar "Ekin") (AVar "elementary_charge")) (ANum 1000)) (AVar "mass_u"));
    ("Ekin / elementary_charge / 1e3 / mass_u * charge_e", AMul (ADiv (ADiv (ADiv (AVar "Ekin") (AVar "elementary_charge")) (ANum 1000)) (AVar "mass_u")) (AVar "charge_e"));
    ("arctan2(py, px)", AAtan2 (AVar "py") (AVar "px"));
    ("arctan2(px, py)", AAtan2 (AVar "px") (AVar "py"));
    ("arctan2(pz, py)", AAtan2 (AVar "pz") (AVar "py"));
    ("arctan2(py, pz)", AAtan2 (AVar "py") (AVar "pz"));
    ("arctan2(px, pz)", AAtan2 (AVar "px") (AVar "pz"));
    ("arctan2(pz, px)", AAtan2 (AVar "pz") (AVar "px"));
    ("arctan2(sqrt(py**2 + pz**2), px)", AAtan2 (ASqrt (AAdd (ASq (AVar "py")) (ASq (AVar "pz")))) (AVar "px"));
    ("arctan2(sqrt(pz**2 + px**2), py)", AAtan2 (ASqrt (AAdd (ASq (AVar "pz")) (ASq (AVar "px")))) (AVar "py"));
    ("arctan2(sqrt(px**2 + py**2), pz)", AAtan2 (ASqrt (AAdd (ASq (AVar "px")) (ASq (AVar "py")))) (AVar "pz"));
    ("sqrt(x**2 + y**2)", ASqrt (AAdd (ASq (AVar "x")) (ASq (AVar "y"))));
    ("sqrt(y**2 + z**2)", ASqrt (AAdd (ASq (AVar "y")) (ASq (AVar "z"))));
    ("sqrt(z**2 + x**2)", ASqrt (AAdd (ASq (AVar "z")) (ASq (AVar "x"))));
    ("sqrt(x**2 + y**2 + z**2)", ASqrt (AAdd (AAdd (ASq (AVar "x")) (ASq (AVar "y"))) (ASq (AVar "z")))) ].
(** createdefaultscalarcontext, 226-230 *)
Definition default_registry : registry := fold_left (fun r p => fst (add r p)) default_scalars [].
Definition defaults_accepted : bool :=
  snd (fold_left (fun s p => (fst (add (fst s) p), snd s && is_ok (snd (add (fst s) p)))%bool) default_scalars ([], true)).
(** numexpr: the variables, and the value for real numbers *)
Fixpoint ast_vars (a : ast) : list string :=
  match a with
  | AVar s => [s]
  | ANum _ => []
  | AAdd a b | AMul a b | ADiv a b | AAtan2 a b => nodup string_dec (ast_vars a ++ ast_vars b)%list
  | ASq a | ASqrt a => ast_vars a
  end.
Fixpoint ast_eval (f : string -> R) (a : ast) : R :=
  match a with
  | AVar s => f s
  | ANum z => IZR z
  | AAdd a b => ast_eval f a + ast_eval f b
  | AMul a b => ast_eval f a * ast_eval f b
  | ADiv a b => ast_eval f a / ast_eval f b
  | ASq a => ast_eval f a ^ 2
  | ASqrt a => sqrt (ast_eval f a)
  | AAtan2 a b => arctan2 (ast_eval f a) (ast_eval f b)
  end.
Definition real_names (expr : string) : list string :=
  match sget default_asts expr with Some a => ast_vars a | None => [] end.
Definition real_eval (expr : string) (args : list R) : res R :=
  match sget default_asts expr with
  | Some a => Ok (ast_eval (fun s => match sget (combine (ast_vars a) args) s with Some v => v | None => 0 end) a)
  | None => Err BareException
  end.
(** one particle with the raw properties [prop], in a world with speed of light c etc. *)
Definition particle (prop : string -> R) (c amu qe : R) : outside R :=
  mkout real_names real_eval (fun k => Ok (prop k)) (fun _ => None)
    (fun k => if String.eqb k "c" then Some c else if String.eqb k "atomic_mass" then Some amu
              else if String.eqb k "elementary_charge" then Some qe else None).
(** the value of a default scalar for one particle; no default is nested deeper than ten *)
Definition scalar (prop : string -> R) (c amu qe : R) (expr : string) : res R :=
  evaluate 10 (particle prop c amu qe) default_registry expr.
