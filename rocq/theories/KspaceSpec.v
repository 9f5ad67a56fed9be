(** Specification of reconstruction and propagation of waves (C47, C48, C83-C86). *)
From Coq Require Import Reals String Ascii List ZArith.
From Verif Require Import PyBase NumpyModel NdModel FieldModel CplxModel FftModel FftSpec KspaceModel.
Import ListNotations.
Local Open Scope R_scope.

(** a field on uniform grids, every axis of which is in one of the two domains *)
Definition wellformed (f : rfield) : Prop :=
  consistent f /\ (exists U, on_grid f (seq 0 (ndim f)) U) /\ (0 < ndim f)%nat /\ forall a, (a < ndim f)%nat -> exists s, nth_error (rf_ats f) a = Some (Some s).
(** it is in the frequency domain *)
Definition all_in (b : bool) (f : rfield) : Prop := in_state f (seq 0 (ndim f)) b.
Definition comp (electric : bool) (p : nat) : string :=
  String (if electric then "E" else "B")%char (match p with 0%nat => "x" | 1%nat => "y" | _ => "z" end)%string.
(** the wave vector of a mode; missing dimensions have none *)
Definition wave_vector (axes : list raxis) (idx : list Z) (a : nat) : R :=
  match nth_error axes a with Some ax => nth (Z.to_nat (nth a idx 0%Z)) (ra_grid ax) 0 | None => 0 end.
Definition dot3 (k v : nat -> R) : R := k 0%nat * v 0%nat + k 1%nat * v 1%nat + k 2%nat * v 2%nat.
Definition turn3 (p i : nat) : nat := ((p + i) mod 3)%nat.
(** the component p of the vector product of the wave vector with a complex vector *)
Definition cross (k : nat -> R) (v : nat -> C) (p : nat) : C :=
  Csub (Cmul (RtoC (k (turn3 p 1))) (v (turn3 p 2))) (Cmul (RtoC (k (turn3 p 2))) (v (turn3 p 1))).
Definition cdot (k : nat -> R) (v : nat -> C) : C := Cadd (Cadd (Cmul (RtoC (k 0%nat)) (v 0%nat)) (Cmul (RtoC (k 1%nat)) (v 1%nat))) (Cmul (RtoC (k 2%nat)) (v 2%nat)).
(** the spectra of the fields given to kspace *)
Definition spectrum (spl : rspline) (s : store) (fields : dict) (key : string) (idx : list Z) : C :=
  match dget fields key with
  | Some a => match nth_error s a with
              | Some f => match ensure_domain spl f true with Ok F => a_at (rf_data F) idx | Err _ => C0 end
              | None => C0 end
  | None => C0
  end.
(** different names stand for different objects, and all objects exist *)
Definition distinct (fields : dict) (s : store) : Prop :=
  (forall k j a, dget fields k = Some a -> dget fields j = Some a -> k = j) /\ (forall k a, dget fields k = Some a -> (a < length s)%nat).
Definition all_wellformed (fields : dict) (s : store) : Prop := forall k a f, dget fields k = Some a -> nth_error s a = Some f -> wellformed f.
(** the names needed in nd dimensions: the field itself and, for each dimension not along its
    axis, the other field along the third direction *)
Definition needed (electric : bool) (p nd : nat) : list string :=
  comp electric p :: map (fun d => comp (negb electric) (3 - p - d)) (filter (fun d => negb (Nat.eqb d p)) (seq 0 nd)).
(** nothing that existed before is changed, except perhaps at X *)
Definition unchanged_except (X : nat -> Prop) (s s' : store) : Prop := forall a f, nth_error s a = Some f -> ~ X a -> nth_error s' a = Some f.
(** energy of a field *)
Definition energy (f : rfield) : R := total (a_shape (rf_data f)) (fun idx => Cabs2 (a_at (rf_data f) idx)).
(** the grid in space on which a field lives, whichever domain each of its axes is in at the moment *)
Definition lives_on (f : rfield) (nd : nat) (W : nat -> uni) : Prop :=
  consistent f /\ ndim f = nd /\ exists (B : nat -> bool) U, on_grid f (seq 0 nd) U /\ forall a, (a < nd)%nat ->
    nth_error (rf_ats f) a = Some (Some (B a)) /\ W a = if B a then dual (nth a (rf_tao f) None) (U a) else U a.
(** the positions in space are known: every axis is in space or its origin is remembered *)
Definition origins_known (f : rfield) : Prop :=
  forall a, (a < ndim f)%nat -> nth_error (rf_ats f) a = Some (Some false) \/ exists x, nth_error (rf_tao f) a = Some (Some x).
(** same number of points and spacing; at the same place, or less than two cells away when interpolating *)
Definition compatible (ip : interp) (nd : nat) (W V : nat -> uni) : Prop :=
  forall a, (a < nd)%nat -> u_n (V a) = u_n (W a) /\ u_dx (V a) = u_dx (W a) /\ match ip with INone => u_x0 (V a) = u_x0 (W a) | _ => Rabs (u_x0 (W a) - u_x0 (V a)) < 2 * u_dx (W a) end.
(** all fields which are needed are there, on grids which fit *)
Definition given (ip : interp) (el : bool) (p nd : nat) (W : nat -> uni) (fields : dict) (s : store) : Prop :=
  (exists a f, dget fields (comp el p) = Some a /\ nth_error s a = Some f /\ lives_on f nd W) /\
  forall key, In key (tl (needed el p nd)) -> exists a f V, dget fields key = Some a /\ nth_error s a = Some f /\ lives_on f nd V /\ compatible ip nd W V /\ (ip = IFourier -> origins_known f).
(** the factor in front of the vector product: w / k^2, or - 1 / w; 0 where it is not defined *)
Definition factor (electric : bool) (w : R) (k : nat -> R) : R :=
  if electric then (if Req_EM_T (dot3 k k) 0 then 0 else w / dot3 k k) else (if Req_EM_T w 0 then 0 else - (1 / w)).

(** * Propagation *)
(** free waves *)
Definition frequency (c : R) (axes : list raxis) (idx : list Z) : R := c * sqrt (dot3 (wave_vector axes idx) (wave_vector axes idx)).
(** the field after j steps: every mode turned by the angle - j w dt, remembered origins moved by j * d *)
Definition advanced (c dt : R) (d : option (nat -> R)) (j : nat) (f : rfield) : rfield :=
  mkrf (mkarr (a_shape (rf_data f)) (fun idx => Cmul (a_at (rf_data f) idx) (cis (- (INR j * (frequency c (rf_axes f) idx * dt)))))) (rf_axes f) (rf_ats f)
       (match d with
        | None => rf_tao f
        | Some d => map (fun p => option_map (fun x => x + INR j * d (fst p)) (snd p)) (combine (seq 0 (length (rf_tao f))) (rf_tao f))
        end).
Definition along (v : list R) (k : nat -> R) : R := fold_right Rplus 0 (map (fun p => snd p * k (fst p)) (combine (seq 0 (length v)) v)).
(** without the modes which go against the vector *)
Definition only_along (v : list R) (f : rfield) : rfield :=
  mkrf (mkarr (a_shape (rf_data f)) (fun idx => if Rltb (along v (wave_vector (rf_axes f) idx)) 0 then C0 else a_at (rf_data f) idx)) (rf_axes f) (rf_ats f) (rf_tao f).
(** what the arguments ask for *)
Definition removes (p : prop_args) : option (list R) :=
  match p_vect p with Some v => match p_remove p with Some false => None | _ => Some v end | None => None end.
Definition moves (c : R) (p : prop_args) : option (nat -> R) :=
  match p_vect p with
  | Some v => match p_move p with Some false => None | _ => Some (fun a => c * p_dt p * (nth a v 0 / sqrt (fold_right Rplus 0 (map (fun x => x * x) v)))) end
  | None => None
  end.
Definition start_of (p : prop_args) (f : rfield) : rfield := match removes p with Some v => only_along v f | None => f end.
(** the vector has as many components as the field has dimensions and is not zero; without one
    nothing is asked for which needs one *)
Definition sensible (p : prop_args) (nd : nat) : Prop :=
  match p_vect p with
  | Some v => length v = nd /\ exists x, In x v /\ x <> 0
  | None => p_move p <> Some true /\ p_remove p <> Some true
  end.
Definition window_ok (c : R) (p : prop_args) (f : rfield) : Prop := moves c p = None \/ forall a, (a < ndim f)%nat -> exists x, nth_error (rf_tao f) a = Some (Some x).
(** the same request with another step *)
Definition with_dt (p : prop_args) (dt : R) : prop_args := mkpa dt (p_vect p) (p_move p) (p_remove p) (p_zeroth p).
