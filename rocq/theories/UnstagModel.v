(** unstagger_fields, /repo/postpic/helper.py 546-595, and Field.adjust_stagger_to,
    /repo/postpic/datahandling.py 2209-2211.  No proofs in this file.

    Fields are those of FftModel with the information whether their matrix is real.  Only
    method="fourier", the default.  An [origin] given by the caller has one number per dimension, or
    one number for all of them (numpy broadcasting); other lengths are refused by numpy. *)
From Coq Require Import Reals List ZArith.
From Verif Require Import PyBase NumpyModel NdModel CplxModel FftModel.
Import ListNotations.
Local Open Scope R_scope.

Record sfield := mksf { sf_real : bool; sf_field : rfield }.
(** np.median of one row: the middle of the sorted numbers, or the mean of the two middle ones *)
Fixpoint rinsert (x : R) (l : list R) : list R :=
  match l with [] => [x] | y :: r => if Rleb x y then x :: l else y :: rinsert x r end.
Definition rsort (l : list R) : list R := fold_right rinsert [] l.
Definition rmedian (l : list R) : R :=
  let s := rsort l in let n := length l in
  if Nat.even n then (nth (n / 2 - 1) s 0 + nth (n / 2) s 0) / 2 else nth (n / 2) s 0.
(** [ax.grid[0] for ax in field.axes] *)
Definition first_points (f : rfield) : res (list R) := mapM (fun ax => getidx (ra_grid ax) 0) (rf_axes f).
Definition spacings (f : rfield) : res (list R) := mapM rspacing (rf_axes f).
(** np.all(np.isclose(a, b)) of rows of equal length *)
Definition all_close (a b : list R) : bool := forallb (fun p => rclose (fst p) (snd p)) (combine a b).
Definition shape_eqb (a b : list Z) : bool := if list_eq_dec Z.eq_dec a b then true else false.
(** np.median(origins, axis=0): column by column *)
Definition median_rows (rows : list (list R)) : list R :=
  map (fun a => rmedian (map (fun r => nth a r 0) rows)) (seq 0 (length (hd [] rows))).
Definition broadcast_row (n : nat) (l : list R) : res (list R) :=
  if (length l =? n)%nat then Ok l else match l with [x] => Ok (repeat x n) | _ => Err ValueError end.
(** nf.real *)
Definition real_part (f : rfield) : rfield :=
  with_data f (mkarr (a_shape (rf_data f)) (fun i => RtoC (fst (a_at (rf_data f) i)))).
(** one field, 577-593 *)
Definition unstagger_one (spl : rspline) (spacing origin : list R) (f : sfield) : res sfield :=
  let! fo := first_points (sf_field f) in
  let! o := broadcast_row (length fo) origin in
  if all_close o fo then Ok f
  else
    let dx := map2 Rminus o fo in
    if existsb (fun p => Rltb 2 (Rabs (fst p / snd p))) (combine dx spacing) then Err ValueError
    else
      let! nf := shift_grid_by spl (sf_field f) (combine (zrange (Z.of_nat (length dx))) dx) in
      Ok (mksf (sf_real f) (if sf_real f then real_part nf else nf)).
Definition unstagger_fields (spl : rspline) (fields : list sfield) (origin : option (list R)) : res (list sfield) :=
  let shape0 := match fields with f :: _ => a_shape (rf_data (sf_field f)) | [] => [] end in
  let! _ := guard (forallb (fun f => shape_eqb (a_shape (rf_data (sf_field f))) shape0) fields) ValueError in
  let! _ := guard (forallb (fun f => forallb rislinear (rf_axes (sf_field f))) fields) ValueError in
  match fields with
  | [] => Err IndexError
  | f0 :: _ =>
      let! spacing := spacings (sf_field f0) in
      let! others := mapM (fun f => spacings (sf_field f)) fields in
      let! _ := guard (forallb (all_close spacing) others) ValueError in
      let! o := match origin with
                | Some o => Ok o
                | None => let! origins := mapM (fun f => first_points (sf_field f)) fields in
                          Ok (if (2 <? length fields)%nat then median_rows origins else hd [] origins)
                end in
      mapM (unstagger_one spl spacing o) fields
  end.
Definition adjust_stagger_to (spl : rspline) (f : sfield) (other : rfield) : res sfield :=
  let! o := first_points other in
  let! l := unstagger_fields spl [f] (Some o) in
  getidx l 0.
