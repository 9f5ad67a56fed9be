(** The time profile of a wave at a plane: helper.time_profile_at_plane with both algorithms.  No
    proofs in this file.  Conventions as in KspaceModel. *)
From Coq Require Import Reals String Ascii List ZArith Bool.
From Verif Require Import PyBase NumpyModel NdModel FieldModel CplxModel FftModel KspaceModel.
Import ListNotations.
Local Open Scope R_scope.

(** otheraxes, helper.py 1139-1140: list.remove *)
Definition others_of (dims : list Z) (axis : Z) : res (list Z) :=
  if existsb (Z.eqb axis) dims then Ok (filter (fun i => negb (i =? axis)%Z) dims) else Err ValueError.
(** where the result is measured without a further propagation, 1171-1182 *)
Definition default_plane (dir : R) (ax : raxis) (spacing : R) : res R :=
  if Rltb 0 dir then let! l := getidx (ra_grid ax) (-1) in Ok (l + spacing) else getidx (ra_grid ax) 0.
(** 1204-1210: the sums along the axis, line by line.  A Field with one point along the axis gets
    a Field instead of a generator from kspace_propagate: not modelled *)
Definition zero_components (sh : list Z) (axis : Z) (n : Z) (steps : list rfield) : nda C :=
  mkarr sh (fun idx => match nth_error steps (Z.to_nat (nth (Z.to_nat axis) idx 0%Z)) with
                       | Some k => csum (Z.to_nat n) (fun j => a_at (rf_data k) (upd idx (Z.to_nat axis) (Z.of_nat j)))
                       | None => C0
                       end).
(** setaxisobj, datahandling.py 914-926 *)
Definition set_axis (f : rfield) (i : Z) (ax : raxis) : res rfield :=
  let! id := axesidentify i in
  let! n := getidx (a_shape (rf_data f)) (id mod 90)%Z in
  let! axes := if (Z.of_nat (length (ra_grid ax)) =? n)%Z then setidx (rf_axes f) (id mod 90)%Z ax else Err ValueError in
  Ok (mkrf (rf_data f) axes (rf_ats f) (rf_tao f)).
(** 1120-1135 and 1224-1239: the field in both domains *)
Definition both_domains (spl : rspline) (a : nat) : ST (bool * (nat * nat)) :=
  st! f := load a in
  st! st := lift (rstate (rf_ats f) (all_dims f)) in
  match st with
  | None => lift (Err ValueError)
  | Some st => st! b := fft_at spl a in sret (st, if st then (a, b) else (b, a))
  end.
(** _time_profile_at_plane_iterative, 1113-1213, after 1135, with the field in both domains; [st]:
    it was given in the frequency domain.  [remove] is remove_antipropagating_waves, the
    only argument for kspace_propagate which is not overridden.  fft over no axes, for one
    dimension in space, depends on the version of numpy: not modelled *)
Definition iterate (c : R) (spl : rspline) (axis : Z) (value : option R) (dir t_input : R) (remove : option bool) (st : bool) (k x : rfield) : ST nat :=
  st! axis := lift (axesidentify axis) in
  st! others := lift (others_of (all_dims k) axis) in
  st! axx := lift (getidx (rf_axes x) axis) in
  st! dr := lift (rspacing axx) in
  let dt := dr / c in                                                        (* 1143 *)
  st! axk := lift (getidx (rf_axes k) axis) in
  st! dV := lift (rspacing axk) in
  st! n := lift (getidx (a_shape (rf_data k)) axis) in
  let norm := sqrt (dV * IZR n / (2 * PI / dV)) / sqrt (IZR n) in              (* 1145-1149 *)
  st! ka := alloc (with_data k (mkarr (a_shape (rf_data k)) (fun idx => Cmul (a_at (rf_data k) idx) (RtoC norm)))) in
  let vect := upd (map (fun _ => 0) (all_dims k)) (Z.to_nat axis) dir in        (* 1155-1156 *)
  st! dt0 := (match value with
              | None => sret 0
              | Some v => st! r := lift (default_plane dir axx dr) in sret (dir * (v - r) / c)
              end) in
  st! ks := kspace_propagate c spl (mkpa dt0 (Some vect) (Some true) remove false) 1 ka in
  st! k := load (hd 0%nat ks) in
  st! axk := lift (getidx (rf_axes k) axis) in
  st! inp := lift (getidx (ra_grid axk) 0) in                                  (* 1189 *)
  st! gs := lift (conjugate_grid k [axis]) in
  st! g := lift (zget gs axis) in
  st! out := lift (getidx g 0) in                                             (* 1190 *)
  st! ph := lift (linear_phase (rf_axes k) (rf_ats k) [(axis, out)] (- (inp * out))) in
  st! ka := alloc (with_data k (apply_phase C1 ph (rf_data k))) in              (* 1192 *)
  st! _ := lift (guard (negb (length (ra_grid axx) =? 1)%nat) MemFault) in
  st! ys := kspace_propagate c spl (mkpa dt (Some vect) (Some false) remove true) (Z.of_nat (length (ra_grid axx))) ka in
  st! steps := sfor load ys in
  st! k := load ka in
  st! tax := lift (rmk_axis spl "t" "s" (rlinspace (t_input + dt0) (t_input + dt0 + (IZR n - 1) * dt) (Z.to_nat n))) in
  st! r := lift (set_axis (with_data k (zero_components (a_shape (rf_data k)) axis n steps)) axis tax) in
  st! ats := lift (setidx (rf_ats r) axis (Some false)) in
  st! tao := lift (setidx (rf_tao r) axis None) in
  let r := mkrf (rf_data r) (rf_axes r) ats tao in
  st! y := alloc r in
  if st then sret y
  else match others with
       | [] => lift (Err MemFault)
       | _ => st! F := lift (fft spl false false r others) in alloc F
       end.
Definition time_iterative (c : R) (spl : rspline) (axis : Z) (value : option R) (dir t_input : R) (remove : option bool) (a : nat) : ST nat :=
  st! kx := both_domains spl a in
  st! k := load (fst (snd kx)) in
  st! x := load (snd (snd kx)) in
  iterate c spl axis value dir t_input remove (fst kx) k x.

(** _time_profile_at_plane_fourier, 1216-1318.  The mask of the modes which are left out, 1284 and
    1290, and the number by which the other ones are divided, 1287-1288 *)
Definition fourier_mask (dir : R) (axes : list raxis) (axis : Z) (idx : list Z) : bool :=
  (if Rltb 0 dir then Rltb (mesh axes axis idx) 0 else Rltb 0 (mesh axes axis idx))
  || forallb (fun i => if Req_EM_T (mesh axes i idx) 0 then true else false) (zrange (Z.of_nat (length axes))).
Definition fourier_divisor (axes : list raxis) (axis : Z) (idx : list Z) : R := mesh axes axis idx.
(** the whole function in one dimension: the names of the other axes are joined to an empty text,
    so that numexpr is given '(w/c)**2 - ()' (1254-1255), in which a tuple is subtracted.  More
    dimensions: not modelled, as modes which are not left out are divided by zero (nan) *)
Definition time_fourier (spl : rspline) (axis : Z) (a : nat) : ST nat :=
  st! kx := both_domains spl a in
  st! k := load (fst (snd kx)) in
  st! axis := lift (axesidentify axis) in
  st! others := lift (others_of (all_dims k) axis) in
  match others with
  | [] => lift (Err TypeError)
  | _ => lift (Err MemFault)
  end.
(** time_profile_at_plane, 1321-1378 *)
Definition time_profile_at_plane (c : R) (spl : rspline) (axis : Z) (value : option R) (dir t_input : R) (algorithm : string) (remove : option bool) (a : nat) : ST nat :=
  if String.eqb algorithm "fourier" then time_fourier spl axis a
  else if String.eqb algorithm "iterative" then time_iterative c spl axis value dir t_input remove a
  else lift (Err RuntimeError).
