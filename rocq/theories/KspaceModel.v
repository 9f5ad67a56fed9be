(** Reconstruction and propagation of waves: helper.kspace, kspace_epoch_like,
    kspace_propagate, omega_free, omega_yee_factory; DumpreaderCalc.kspace_Ex etc.
    No proofs in this file.

    Field objects live in a store.  Arrays are never written to here, and every Field object has
    lists of its own (copy, 636-655), so that an object is the value of its attributes.  Light
    speed is the argument [c]; grids are real numbers as in FftModel. *)
From Coq Require Import Reals String Ascii List ZArith.
From Verif Require Import PyBase NumpyModel NdModel FieldModel CplxModel FftModel.
Import ListNotations.
Local Open Scope R_scope.

(** * Store of Field objects *)
Definition store := list rfield.
Definition ST (A : Type) := store -> store * res A.
Definition sret {A} (x : A) : ST A := fun s => (s, Ok x).
Definition lift {A} (r : res A) : ST A := fun s => (s, r).
Definition sbind {A B} (m : ST A) (k : A -> ST B) : ST B := fun s => let (s', r) := m s in match r with Ok x => k x s' | Err e => (s', Err e) end.
Notation "'st!' x := m 'in' k" := (sbind m (fun x => k)) (at level 200, x name, m at level 100, k at level 200).
Definition load (a : nat) : ST rfield := fun s => (s, match nth_error s a with Some f => Ok f | None => Err MemFault end).
Definition alloc (f : rfield) : ST nat := fun s => (s ++ [f], Ok (length s)).
Definition assign (a : nat) (f : rfield) : ST unit := fun s => (upd s a f, Ok tt).
Fixpoint sfor {A B} (f : A -> ST B) (l : list A) : ST (list B) :=
  match l with [] => sret [] | x :: r => st! y := f x in st! ys := sfor f r in sret (y :: ys) end.

(** dictionaries from names to Field objects *)
Definition dict := list (string * nat).
Fixpoint dget (d : dict) (k : string) : option nat :=
  match d with [] => None | (j, a) :: r => if String.eqb j k then Some a else dget r k end.
(** f -> g for every value *)
Definition dmap (f : nat -> ST nat) (d : dict) : ST dict := sfor (fun p => st! a := f (snd p) in sret (fst p, a)) d.
Fixpoint dset (d : dict) (k : string) (a : nat) : dict :=
  match d with [] => [(k, a)] | (j, b) :: r => if String.eqb j k then (j, a) :: r else (j, b) :: dset r k a end.

(** Field.ensure_transform_state, 2099-2125, for one boolean: the object itself when there is
    nothing to do *)
Definition in_domain (f : rfield) (b : bool) : res bool :=
  let! todo := mapM (fun i => rmap (fun s => (i, negb (state_is b s))) (getidx (rf_ats f) i)) (all_dims f) in
  Ok (match filter snd todo with [] => true | _ => false end).
Definition ensure_at (spl : rspline) (b : bool) (a : nat) : ST nat :=
  st! f := load a in
  st! ok := lift (in_domain f b) in
  if ok : bool then sret a else st! g := lift (ensure_domain spl f b) in alloc g.
(** copy.deepcopy *)
Definition deepcopy (a : nat) : ST nat := st! f := load a in alloc f.

(** * Dispersion relations *)
(** sum(ki**2 for ki in mesh) *)
Definition k_squared (axes : list raxis) (idx : list Z) : R :=
  fold_right Rplus 0 (map (fun i => mesh axes i idx ^ 2) (zrange (Z.of_nat (length axes)))).
(** omega_free, 535-543 *)
Definition omega_free (c : R) (axes : list raxis) (idx : list Z) : R := c * sqrt (k_squared axes idx).
(** omega_yee_factory, 517-532; zip stops at the shorter list.  An argument of arcsin above one
    is nan in the code *)
Definition omega_yee (c : R) (dx : list R) (dt : R) (axes : list raxis) (idx : list Z) : R :=
  let tmp := fold_right Rplus 0 (map (fun p => (sin (/ 2 * mesh axes (fst p) idx * snd p) / snd p) ^ 2) (combine (zrange (Z.of_nat (length axes))) dx)) in
  2 * asin (c * dt * sqrt tmp) / dt.
Definition dispersion := list raxis -> list Z -> R.

(** * kspace, helper.py 740-930 *)
Inductive interp := INone | ILinear | IFourier.
(** axesidentify[component[1]] *)
Definition axis_letter (a : ascii) : res Z :=
  if existsb (Ascii.eqb a) ["X"; "x"]%char then Ok 0%Z else if existsb (Ascii.eqb a) ["Y"; "y"]%char then Ok 1%Z
  else if existsb (Ascii.eqb a) ["Z"; "z"]%char then Ok 2%Z else if existsb (Ascii.eqb a) ["R"; "r"]%char then Ok 90%Z
  else if Ascii.eqb a "t"%char then Ok 91%Z else Err KeyError.
(** field_keys[letter][axis] *)
Definition field_key (l : ascii) (i : Z) : option string :=
  if existsb (Ascii.eqb l) ["E"; "B"]%char
  then if (i =? 0)%Z then Some (String l "x") else if (i =? 1)%Z then Some (String l "y") else if (i =? 2)%Z then Some (String l "z") else None
  else None.
(** the grids in space of a Field in the frequency domain, as lists per dimension *)
Definition spatial_grids (f : rfield) : res (list (list R)) := rmap (map snd) (conjugate_grid f (all_dims f)).
Definition firsts (gs : list (list R)) : res (list R) := mapM (fun g => getidx g 0) gs.
Definition lengths (gs : list (list R)) : res (list R) := mapM (fun g => let! b := getidx g (-1) in let! a := getidx g 0 in Ok (b - a)) gs.
Definition spacings (gs : list (list R)) : res (list R) := mapM (fun g => let! b := getidx g 1 in let! a := getidx g 0 in Ok (b - a)) gs.
Definition all_close (a b : list R) : bool := forallb (fun p => rclose (fst p) (snd p)) (combine a b).
(** 836-845: nan and inf are replaced by 0 *)
Definition prefactor (electric : bool) (omega : dispersion) (axes : list raxis) (idx : list Z) : R :=
  if electric
  then if Req_EM_T (k_squared axes idx) 0 then 0 else omega axes idx / k_squared axes idx
  else if Req_EM_T (omega axes idx) 0 then 0 else -1 / omega axes idx.
Section Kspace.
(** [lin]: shift_grid_by(.., interpolation='linear'); [cut]: indexing with the slices of the
    extent, which are made from the first argument (_kspace_helper_cutfields, 597-599) *)
Variables (spl : rspline) (lin : rfield -> list (Z * R) -> res rfield) (cut : option (rfield -> rfield -> res rfield)).
(** 787-789 *)
Definition cut_fields (component : string) (fields : dict) : ST dict :=
  match cut with
  | None => sret fields
  | Some ct =>
      st! fields := dmap (ensure_at spl false) fields in
      match dget fields component with
      | None => lift (Err KeyError)
      | Some m =>
          st! fm := load m in
          dmap (fun a => st! f := load a in st! g := lift (ct fm f) in alloc g) fields
      end
  end.
(** one turn of the loop 852-927.  e.message does not exist in python 3 (862) *)
Definition other_field (ip : interp) (other : ascii) (fields : dict) (pol : Z) (sh : list Z) (axes : list raxis) (pre : list Z -> R)
    (origin Dx dx : list R) (result : nat) (i : Z) : ST unit :=
  let mesh_i := ((pol - i) mod 3)%Z in
  if (mesh_i <? Z.of_nat (length axes))%Z
  then
    match field_key other ((pol + i) mod 3)%Z with
    | None => lift (Err KeyError)
    | Some key =>
        match dget fields key with
        | None => lift (Err AttributeError)
        | Some a =>
            st! a := deepcopy a in
            st! f := load a in
            st! st := lift (rstate (rf_ats f) (all_dims f)) in
            st! a := (match st with
                      | None => match ip with ILinear => ensure_at spl false a | _ => ensure_at spl true a end
                      | Some _ => sret a end) in
            st! f := load a in
            st! st := lift (rstate (rf_ats f) (all_dims f)) in
            st! gs := lift (match st with Some true => spatial_grids f | _ => Ok (map ra_grid (rf_axes f)) end) in
            st! fo := lift (firsts gs) in
            st! oDx := lift (lengths gs) in
            if negb (if list_eq_dec Z.eq_dec (a_shape (rf_data f)) sh then true else false) then lift (Err ValueError)
            else if negb (all_close Dx oDx) then lift (Err ValueError)
            else
              let shift := combine (zrange (Z.of_nat (length origin))) (map2 (fun so fo => so - fo) origin fo) in
              if negb (match ip with
                       | INone => all_close origin fo
                       | _ => forallb (fun p => Rltb (Rabs (snd (fst p))) (2 * snd p)) (combine shift dx)
                       end) then lift (Err ValueError)
              else
                st! a := (match ip with
                          | ILinear => st! a := ensure_at spl false a in st! f := load a in st! g := lift (lin f shift) in alloc g
                          | _ => sret a end) in
                st! a := ensure_at spl true a in
                st! _ := (match ip with
                          | IFourier => st! f := load a in st! tao := lift (move_origins (rf_tao f) shift) in assign a (mkrf (rf_data f) (rf_axes f) (rf_ats f) tao)
                          | _ => sret tt end) in
                st! f := load a in
                st! r := load result in
                assign result (with_data r (mkarr (a_shape (rf_data r)) (fun idx =>
                  Cadd (a_at (rf_data r) idx) (Cmul (RtoC ((if (i =? 1)%Z then 1 else -1) * pre idx * mesh axes mesh_i idx)) (a_at (rf_data f) idx)))))
        end
    end
  else sret tt.
Definition kspace (omega : dispersion) (ip : interp) (component : string) (fields : dict) : ST nat :=
  match component with
  | EmptyString => lift (Err IndexError)
  | String pol rest =>
      let other := if Ascii.eqb pol "E"%char then "B"%char else "E"%char in
      st! fields := cut_fields component fields in
      match rest with
      | EmptyString => lift (Err IndexError)
      | String ax _ =>
          st! polaxis := lift (axis_letter ax) in
          match (match field_key pol polaxis with Some k => dget fields k | None => None end) with
          | None => lift (Err ValueError)
          | Some a =>
              st! a := ensure_at spl true a in
              st! f := load a in
              st! gs := lift (spatial_grids f) in
              st! origin := lift (firsts gs) in
              st! Dx := lift (lengths gs) in
              st! dx := lift (spacings gs) in
              let pre := prefactor (Ascii.eqb pol "E"%char) omega (rf_axes f) in
              let turn := other_field ip other fields polaxis (a_shape (rf_data f)) (rf_axes f) pre origin Dx dx a in
              st! _ := turn 1%Z in
              st! _ := turn 2%Z in
              sret a
          end
      end
  end.
End Kspace.

(** * kspace_epoch_like, 682-737 *)
(** abs((1-a) + a*exp(1j*dt*omega)) with a = 0.5 (641-655, 672) *)
Definition lin_response (dt w : R) : R := sqrt (Cabs2 (Cadd (RtoC (/ 2)) (Cmul (RtoC (/ 2)) (cis (dt * w))))).
(** fields[c] / lin_res_k: a Field with lists of its own.  lin_res_k (680) has no origins, so that
    states and origins are those of the dividend (709-711) *)
Definition divided (f : rfield) (resp : list Z -> R) : rfield :=
  with_data f (mkarr (a_shape (rf_data f)) (fun idx => Cmul (RtoC (/ resp idx)) (a_at (rf_data f) idx))).
(** The kspace at the end is called without omega_func: light speed is used there *)
Definition kspace_epoch_like (c : R) (spl : rspline) lin cut (omega : dispersion) (dt : R) (align_to : ascii) (component : string) (fields : dict) : ST nat :=
  match component with
  | String pol (String ax _) =>
      st! _ := lift (axis_letter ax) in
      match dget fields component with
      | None => lift (Err ValueError)                         (* list.remove *)
      | Some _ =>
          st! fields := cut_fields spl cut component fields in
          st! fields := dmap (ensure_at spl true) fields in
          match dget fields component with
          | None => lift (Err KeyError)
          | Some m =>
              st! fm := load m in
              let resp idx := lin_response dt (omega (rf_axes fm) idx) in
              let div a := st! f := load a in alloc (divided f resp) in
              st! fields :=
                (if Ascii.eqb pol align_to
                 then st! a := div m in sret (dset fields component a)
                 else sfor (fun p => if String.eqb (fst p) component then sret p else st! a := div (snd p) in sret (fst p, a)) fields) in
              kspace spl lin None (omega_free c) IFourier component fields
          end
      end
  | _ => lift (Err IndexError)
  end.

(** * DumpreaderCalc.kspace_Ex .. kspace_Bz, _field_calc.py 253-305: the fields which are read *)
Definition fields_read (component : string) (dims : Z) : list string :=
  let two (k : string) := if (2 <=? dims)%Z then [k] else [] in
  let three (k : string) := if (3 <=? dims)%Z then [k] else [] in
  (if String.eqb component "Ex" then ["Ex"] ++ two "Bz" ++ three "By"
   else if String.eqb component "Ey" then ["Ey"; "Bz"] ++ three "Bx"
   else if String.eqb component "Ez" then ["Ez"; "By"] ++ two "Bx"
   else if String.eqb component "Bx" then ["Bx"] ++ two "Ez" ++ three "Ey"
   else if String.eqb component "By" then ["By"; "Ez"] ++ three "Ex"
   else if String.eqb component "Bz" then ["Bz"; "Ey"] ++ two "Ex"
   else [])%list%string.

(** * kspace_propagate, 968-1110 *)
Record prop_args := mkpa { p_dt : R; p_vect : option (list R); p_move : option bool; p_remove : option bool; p_zeroth : bool }.
(** what the generator keeps *)
Record gen := mkgen { g_fft : bool; g_phase : list Z -> C; g_window : option (list (Z * R)); g_cur : nat }.
Definition truth (o : option bool) : bool := match o with Some b => b | None => false end.
Definition fft_at (spl : rspline) (a : nat) : ST nat := st! f := load a in st! g := lift (fft spl false false f (all_dims f)) in alloc g.
(** moving_window_vect /= npl.norm(moving_window_vect) *)
Definition norm2 (v : list R) : R := sqrt (fold_right Rplus 0 (map (fun x => x ^ 2) v)).
Definition unit_vector (v : list R) : list R := map (fun x => x / norm2 v) v.
(** 1016-1083, up to the loop.  A vector of length zero (nan) is not modelled *)
Definition prop_start (c : R) (spl : rspline) (p : prop_args) (a : nat) : ST gen :=
  st! f := load a in
  st! st := lift (rstate (rf_ats f) (all_dims f)) in
  match st with
  | None => lift (Err ValueError)
  | Some st =>
      st! a := (if st then sret a else fft_at spl a) in
      st! k := load a in
      let phase idx := cis (- (omega_free c (rf_axes k) idx * p_dt p)) in
      st! v := (match p_vect p with
                | None => sret None
                | Some v =>
                    if negb (Z.of_nat (length v) =? dims (a_shape (rf_data k)))%Z then lift (Err ValueError)
                    else if Req_EM_T (norm2 v) 0 then lift (Err MemFault) else sret (Some (unit_vector v))
                end) in
      let dflt o := match v, o with Some _, None => true | _, _ => truth o end in
      st! a := (if dflt (p_remove p)
                then match v with
                     | None => lift (Err ValueError)
                     | Some v =>
                         let arg idx := fold_right Rplus 0 (map (fun q => snd q * mesh (rf_axes k) (fst q) idx) (combine (zrange (Z.of_nat (length v))) v)) in
                         alloc (with_data k (mkarr (a_shape (rf_data k)) (fun idx => if Rltb (arg idx) 0 then C0 else a_at (rf_data k) idx)))
                     end
                else sret a) in
      sret (mkgen (negb st) phase
             (if dflt (p_move p) then Some (match v with Some v => combine (zrange (Z.of_nat (length v))) (map (fun x => c * p_dt p * x) v) | None => [(0%Z, 0)] end) else None) a)
  end.
Definition shown (spl : rspline) (g : gen) (a : nat) : ST nat := if g_fft g then fft_at spl a else sret a.
(** one turn of the loop, 1085-1099 *)
Definition prop_step (spl : rspline) (g : gen) : ST (gen * nat) :=
  st! k := load (g_cur g) in
  st! a := alloc (with_data k (mkarr (a_shape (rf_data k)) (fun idx => Cmul (a_at (rf_data k) idx) (g_phase g idx)))) in
  st! _ := (match g_window g with
            | None => sret tt
            | Some w => st! f := load a in st! tao := lift (move_origins (rf_tao f) w) in assign a (mkrf (rf_data f) (rf_axes f) (rf_ats f) tao)
            end) in
  st! y := shown spl g a in
  sret (mkgen (g_fft g) (g_phase g) (g_window g) a, y).
Fixpoint prop_steps (spl : rspline) (n : nat) (g : gen) : ST (list nat) :=
  match n with
  | O => sret []
  | S n => st! gy := prop_step spl g in st! ys := prop_steps spl n (fst gy) in sret (snd gy :: ys)
  end.
(** the first n values of the generator.  A window without a vector is refused after the zeroth
    step (1080-1082) *)
Definition prop_run (c : R) (spl : rspline) (p : prop_args) (n : nat) (a : nat) : ST (list nat) :=
  match n with
  | O => sret []
  | S m =>
      st! g := prop_start c spl p a in
      st! zero := (if p_zeroth p then st! y := shown spl g (g_cur g) in sret [y] else sret []) in
      let n := if p_zeroth p then m else S m in
      st! ys := (match n with
                 | O => sret []
                 | S _ => match g_window g, p_vect p with Some _, None => lift (Err ValueError) | _, _ => prop_steps spl n g end
                 end) in
      sret (zero ++ ys)
  end.
(** kspace_propagate, 1097-1110: a single result for nsteps = 1; islice refuses negative numbers *)
Definition kspace_propagate (c : R) (spl : rspline) (p : prop_args) (nsteps : Z) (a : nat) : ST (list nat) :=
  if (nsteps <? 0)%Z then lift (Err ValueError) else prop_run c spl p (Z.to_nat nsteps) a.
(** 1048-1049: np.asarray hands back an array of float64 itself, which is then divided in place *)
Definition vect_after (is_float_array : bool) (v : list R) : list R := if is_float_array then unit_vector v else v.
