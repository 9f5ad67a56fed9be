(** Fourier transform of fields: datahandling.py Axis (the parts used), _transform_state,
    _conjugate_grid, fft, ensure_transform_state, _shift_grid_by_fourier, and
    helper._linear_phase.  No proofs in this file.

    Floats are real numbers of the standard library (the grids contain pi).  numpy.fft is the
    discrete Fourier transform with norm='ortho'; the interpolating spline of scipy is the
    argument [spl] as in AxisModel. *)
From Coq Require Import Reals String Ascii List ZArith.
From Verif Require Import PyBase NumpyModel NdModel FieldModel CplxModel.
Import ListNotations.
Local Open Scope R_scope.

Definition Rltb (a b : R) : bool := if Rlt_dec a b then true else false.
Definition Rleb (a b : R) : bool := if Rle_dec a b then true else false.

(** * Axis *)
(** extent and n are the ends of grid_node and the length of grid here *)
Record raxis := mkra { ra_name : string; ra_unit : string; ra_grid : list R; ra_node : list R }.
(** scipy.interpolate.UnivariateSpline(x, y, s=0)(t) *)
Definition rspline := list R -> list R -> R -> R.
Definition diffs (l : list R) : list R := map2 (fun a b => b - a) (removelast l) (tl l).
(** helper.monotonicity, helper.py 360-374 *)
Definition rmonotonicity (l : list R) : Z :=
  if forallb (fun d => Rltb 0 d) (diffs l) then 1%Z
  else if forallb (fun d => Rltb d 0) (diffs l) then (-1)%Z else 0%Z.
Definition rmeans (l : list R) : list R := map2 (fun a b => (a + b) / 2) (removelast l) (tl l).
Definition set_ends (l : list R) (a b : R) : list R :=
  match l with [] => [] | _ :: t => removelast (a :: t) ++ [b] end.
(** grid_node from grid, 168-190 without extent; two points or more, or one.  An empty grid
    raises before (convolve: ValueError) *)
Definition rnodes (spl : rspline) (g : list R) : res (list R) :=
  match g with
  | [] => Err ValueError
  | [x] => Ok [x - / 2; x + / 2]                                             (* 188-189 *)
  | g0 :: _ =>
      let inner :=
        if (3 <? length g)%nat
        then map (fun i => spl (map INR (seq 0 (length g))) g (INR i + / 2)) (seq 0 (length g - 1))   (* 169-171 *)
        else rmeans g in                                                     (* 175 *)
      Ok ((g0 + (g0 - hd 0 inner)) :: inner ++ [last g 0 + (last g 0 - last inner 0)])       (* 185-186 *)
  end.
(** Axis(name, unit, grid=g), 117-230 *)
Definition rmk_axis (spl : rspline) (name unit : string) (g : list R) : res raxis :=
  let! _ := guard (negb (rmonotonicity g =? 0)%Z) ValueError in
  let! gn := rnodes spl g in
  (* 205-208: (not all above) and all below *)
  if negb (forallb (fun p => Rltb (snd p) (fst p)) (combine g (removelast gn)))
     && forallb (fun p => Rltb (fst p) (snd p)) (combine g (tl gn)) then Err ValueError
  else Ok (mkra name unit g gn).
(** helper.islinear, helper.py 356-357, with np.isclose *)
Definition rclose (a b : R) : bool := Rleb (Rabs (a - b)) (/ 100000000 + / 100000 * Rabs b).
Definition rlinspace (a b : R) (n : nat) : list R := map (fun i => a + INR i * ((b - a) / INR (n - 1))) (seq 0 n).
(** Axis.islinear, 250-258 *)
Definition rislinear (ax : raxis) : bool :=
  if (length (ra_grid ax) <? 3)%nat then true
  else forallb (fun p => rclose (fst p) (snd p)) (combine (ra_node ax) (rlinspace (hd 0 (ra_node ax)) (last (ra_node ax) 0) (length (ra_node ax)))).
(** Axis.spacing, 272-276 *)
Definition rspacing (ax : raxis) : res R :=
  if negb (rislinear ax) then Err TypeError
  else let! n1 := getidx (ra_node ax) 1 in let! n0 := getidx (ra_node ax) 0 in Ok (Rabs (n1 - n0)).

(** * Field: the data, the axes and what fft keeps about them.  Name and unit of the field are
    never looked at. *)
Record rfield := mkrf { rf_data : nda C; rf_axes : list raxis; rf_ats : list (option bool); rf_tao : list (option R) }.
Definition state_is (b : bool) (s : option bool) : bool := match s with Some c => Bool.eqb b c | None => false end.
(** all(... for i in axes): stops at the first failure *)
Fixpoint all_axes (p : Z -> res bool) (axes : list Z) : res bool :=
  match axes with
  | [] => Ok true
  | i :: r => let! b := p i in if b then all_axes p r else Ok false
  end.
(** _transform_state(axes), 1886-1889 *)
Definition rstate (ats : list (option bool)) (axes : list Z) : res (option bool) :=
  let! t := all_axes (fun i => rmap (state_is true) (getidx ats i)) axes in
  if t then Ok (Some true)
  else
    let! f := all_axes (fun i => rmap (state_is false) (getidx ats i)) axes in
    Ok (if f then Some false else None).
(** numpy.fft.fftfreq and fftshift *)
Definition fftfreq (n : nat) (d : R) : list R :=
  map (fun z => IZR z * (1 / (INR n * d)))
      (map Z.of_nat (seq 0 ((n - 1) / 2 + 1)) ++ map (fun i => (Z.of_nat i - Z.of_nat (n / 2))%Z) (seq 0 (n / 2))).
Definition fftshift (l : list R) : list R := skipn (length l - length l / 2) l ++ firstn (length l - length l / 2) l.
(** python dictionaries with integer keys *)
Fixpoint zget {A} (d : list (Z * A)) (k : Z) : res A :=
  match d with [] => Err KeyError | (j, v) :: r => if (j =? k)%Z then Ok v else zget r k end.
(** one entry of _conjugate_grid, 1941-1951 *)
Definition conjugate_axis (f : rfield) (i : Z) : res (list R) :=
  let! ax := getidx (rf_axes f) i in
  let! dx := rspacing ax in
  let! n := getidx (a_shape (rf_data f)) i in
  let g := fftshift (map (fun x => 2 * PI * x) (fftfreq (Z.to_nat n) dx)) in
  let! o := getidx (rf_tao f) i in
  match o with
  | None => Ok g
  | Some x0 => let! g0 := getidx g 0 in Ok (map (fun x => x + (x0 - g0)) g)
  end.
(** _conjugate_grid, 1929-1951 *)
Definition conjugate_grid (f : rfield) (axes : list Z) : res (list (Z * list R)) :=
  mapM (fun i => rmap (pair i) (conjugate_axis f i)) axes.
(** the value of the sparse mesh of axis i at the index idx *)
Definition mesh (axes : list raxis) (i : Z) (idx : list Z) : R :=
  nth (Z.to_nat (nth (Z.to_nat i) idx 0%Z)) (match nth_error axes (Z.to_nat i) with Some ax => ra_grid ax | None => [] end) 0.
(** helper._linear_phase, helper.py 933-956.  The text '(v*k-1)' made for a negative axis
    refers to a variable k, which does not exist: KeyError *)
Definition linear_phase (axes : list raxis) (ats : list (option bool)) (dx : list (Z * R)) (phi0 : R) : res (list Z -> C) :=
  let! st := rstate ats (map fst dx) in
  let! _ := guard (forallb (fun p => (0 <=? fst p)%Z) dx) KeyError in
  let arg idx := fold_right Rplus 0 (map (fun p => snd p * mesh axes (fst p) idx) dx) in
  Ok (fun idx => match st with
                 | Some true => cis (arg idx + phi0)
                 | _ => cis (- (arg idx + phi0))
                 end).
(** numpy.fft.fft / ifft along one axis, norm='ortho' *)
Definition np_fft1 (inverse : bool) (a : nda C) (axis : Z) : nda C :=
  let n := nth (Z.to_nat axis) (a_shape a) 0%Z in
  let s := if inverse then 1 else -1 in
  mkarr (a_shape a) (fun idx =>
    let m := nth (Z.to_nat axis) idx 0%Z in
    Cmul (RtoC (/ sqrt (IZR n)))
         (csum (Z.to_nat n) (fun j => Cmul (cis (s * (2 * PI * INR j * IZR m / IZR n))) (a_at a (upd idx (Z.to_nat axis) (Z.of_nat j)))))).
(** fftn / ifftn: the last of the given axes is transformed first *)
Definition np_fftn (inverse : bool) (a : nda C) (axes : list Z) : nda C := fold_right (fun i a => np_fft1 inverse a i) a axes.
(** str.lstrip(chars) *)
Fixpoint lstrip (chars : list ascii) (s : string) : string :=
  match s with
  | EmptyString => EmptyString
  | String c r => if existsb (Ascii.eqb c) chars then lstrip chars r else s
  end.
(** the name and unit of the new axis, 2068-2075 *)
Definition new_name (st : bool) (name : string) : string :=
  if st then if String.eqb name "w" then "t"%string else lstrip ["k"%char] name
  else if String.eqb name "t" then "w"%string else ("k" ++ name)%string.
Definition new_unit (st : bool) (unit : string) : string :=
  if st then lstrip ["1"%char; "/"%char] unit else ("1/" ++ unit)%string.
(** one turn of the loop 2067-2081 *)
Definition new_axis (spl : rspline) (f : rfield) (st : bool) (grids : list (Z * list R)) (ret : rfield) (i : Z) : res rfield :=
  let! ax := getidx (rf_axes f) i in
  let! g := zget grids i in
  let! ax' := rmk_axis spl (new_name st (ra_name ax)) (new_unit st (ra_unit ax)) g in
  (* setaxisobj, 914-926 *)
  let! id := axesidentify i in
  let! n := getidx (a_shape (rf_data ret)) (id mod 90)%Z in
  let! axes := if (Z.of_nat (length (ra_grid ax')) =? n)%Z then setidx (rf_axes ret) (id mod 90)%Z ax' else Err ValueError in
  let! ats := setidx (rf_ats ret) i (Some (negb st)) in
  let! x0 := getidx (ra_grid ax) 0 in
  let! tao := setidx (rf_tao ret) i (Some x0) in
  Ok (mkrf (rf_data ret) axes ats tao).
Fixpoint new_axes (spl : rspline) (f : rfield) (st : bool) (grids : list (Z * list R)) (ret : rfield) (is : list Z) : res rfield :=
  match is with
  | [] => Ok ret
  | i :: r => let! ret := new_axis spl f st grids ret i in new_axes spl f st grids ret r
  end.
Definition apply_phase (c : C) (ph : list Z -> C) (a : nda C) : nda C := mkarr (a_shape a) (fun idx => Cmul c (Cmul (a_at a idx) (ph idx))).
Definition conj_data (temporal : bool) (a : nda C) : nda C := if temporal then mkarr (a_shape a) (fun idx => Cconj (a_at a idx)) else a.
Definition with_data (f : rfield) (a : nda C) : rfield := mkrf a (rf_axes f) (rf_ats f) (rf_tao f).
(** fft, 1979-2097; axes given as integers; [temporal]: exponential_signs='temporal'; numpy is
    at least 1.10 (2038) *)
Definition fft (spl : rspline) (temporal old : bool) (f : rfield) (axes0 : list Z) : res rfield :=
  let axes := sorted_set axes0 in
  let! lin := all_axes (fun i => rmap rislinear (getidx (rf_axes f) i)) axes in       (* 1993 *)
  if negb lin then Err ValueError
  else
    let! st := rstate (rf_ats f) axes in                                            (* 1997 *)
    match st with
    | None => Err ValueError
    | Some st =>
        let! grids := conjugate_grid f axes in                                      (* 2003 *)
        let! x0 := mapM (fun i => let! ax := getidx (rf_axes f) i in rmap (pair i) (getidx (ra_grid ax) 0)) axes in
        let! k0 := mapM (fun p => rmap (pair (fst p)) (getidx (snd p) 0)) grids in
        let phi0 := fold_right Rplus 0 (map2 (fun a b => snd a * snd b) x0 k0) in   (* 2009 *)
        let zeros := map (fun i => (i, 0)) axes in
        let minus_x0 := if old && negb st then zeros else map (fun p => (fst p, - snd p)) x0 in
        let k0' := if old && st then zeros else k0 in
        let! dx := mapM (fun i => let! ax := getidx (rf_axes f) i in rspacing ax) axes in
        let! ns := mapM (fun i => getidx (a_shape (rf_data f)) i) axes in
        let dV := fold_right Rmult 1 dx in
        let N := fold_right Rmult 1 (map IZR ns) in
        let norm := sqrt (dV * N / ((2 * PI) ^ length axes / dV)) in                 (* 2033 *)
        let d0 := conj_data temporal (rf_data f) in
        let! ph := linear_phase (rf_axes f) (rf_ats f) k0' 0 in                      (* 2056 *)
        let d1 := apply_phase C1 ph d0 in
        let d2 := np_fftn st d1 axes in                                             (* 2063-2065 *)
        let! ret := new_axes spl f st grids (with_data f d2) axes in
        let! ph := linear_phase (rf_axes ret) (rf_ats ret) minus_x0 phi0 in          (* 2087 *)
        let d3 := apply_phase (RtoC norm) ph d2 in
        Ok (with_data ret (conj_data temporal d3))
    end.
(** fft() without axes: range(self.dimensions); dimensions is -1 for fields without data *)
Definition all_dims (f : rfield) : list Z := zrange (dims (a_shape (rf_data f))).

(** ensure_transform_state, 2099-2125, for a mapping from axis to state *)
Definition ensure_states (spl : rspline) (f : rfield) (want : list (Z * bool)) : res rfield :=
  let! todo := mapM (fun p => rmap (fun s => (fst p, negb (state_is (snd p) s))) (getidx (rf_ats f) (fst p))) want in
  match filter snd todo with
  | [] => Ok f
  | l => fft spl false false f (map fst l)
  end.
(** a single boolean: one per dimension *)
Definition ensure_domain (spl : rspline) (f : rfield) (b : bool) : res rfield :=
  ensure_states spl f (map (fun i => (i, b)) (all_dims f)).
(** _shift_grid_by_fourier, 2148-2161, without skip_fft; dx has distinct keys, already
    identified (2205) *)
Fixpoint move_origins (tao : list (option R)) (dx : list (Z * R)) : res (list (option R)) :=
  match dx with
  | [] => Ok tao
  | (i, d) :: r =>
      let! o := getidx tao i in
      match o with
      | None => Err TypeError
      | Some x => let! tao := setidx tao i (Some (x + d)) in move_origins tao r
      end
  end.
Definition shift_fourier (spl : rspline) (f : rfield) (dx : list (Z * R)) : res rfield :=
  let axes := sort_Z (map fst dx) in
  let! F := fft spl false false f axes in
  let! tao := move_origins (rf_tao F) dx in
  fft spl false false (mkrf (rf_data F) (rf_axes F) (rf_ats F) tao) axes.
(** shift_grid_by(dx, 'fourier'), 2184-2207 *)
Definition shift_grid_by (spl : rspline) (f : rfield) (dx : list (Z * R)) : res rfield :=
  let! dx := mapM (fun p => rmap (fun i => (i, snd p)) (axesidentify (fst p))) dx in
  shift_fourier spl f dx.
