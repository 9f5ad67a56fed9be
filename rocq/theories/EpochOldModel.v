(** helper.kspace_epoch_like_old.  No proofs in this file.

    The dictionary of the caller is changed by this function, also when it raises, so that a call
    gives the store, the dictionary which the caller is left with, and the result. *)
From Coq Require Import Reals String Ascii List ZArith.
From Verif Require Import PyBase NumpyModel NdModel FieldModel CplxModel FftModel UnstagModel MapModel KspaceModel.
Import ListNotations.
Local Open Scope R_scope.

(** helper.py 625-633: dx, as the mapping which shift_grid_by makes of it (datahandling.py
    2202-2203).  The axes are used as they are, in whatever domain.  dx[polaxis] does not exist
    when there are fewer dimensions; the IndexError is swallowed.  polaxis is never negative *)
Definition half_cells (pol : ascii) (polaxis : Z) (f : rfield) : res (list (Z * R)) :=
  let! sp := spacings (map ra_grid (rf_axes f)) in
  let halves := map (fun v => v / 2) sp in
  let kept := map (fun q => (fst q, if (fst q =? polaxis)%Z then 0 else snd q)) (combine (zrange (Z.of_nat (length halves))) halves) in
  Ok (if Ascii.eqb pol "B"%char then map (fun q => (fst q, snd q * -1)) kept else kept).
Section Old.
(** as for kspace *)
Variables (spl : rspline) (lin : rfield -> list (Z * R) -> res rfield) (cut : option (rfield -> rfield -> res rfield)).
(** helper.py 602-637.  The warning of the decorator is not modelled *)
Definition kspace_epoch_like_old (omega : dispersion) (align_to : ascii) (component : string) (fields : dict) : store -> store * (dict * res nat) :=
  fun s =>
  match component with
  | String pol (String ax _) =>
      match axis_letter ax with
      | Err e => (s, (fields, Err e))
      | Ok polaxis =>
          let (s, r) := cut_fields spl cut component fields s in
          match r with
          | Err e => (s, (fields, Err e))
          | Ok here =>
              (* with an extent the name [fields] stands for another dictionary from here on *)
              let seen d := match cut with None => d | Some _ => fields end in
              if Ascii.eqb pol align_to
              then let (s, r) := kspace spl lin None omega ILinear component here s in (s, (fields, r))
              else
                match dget here component with
                | None => (s, (fields, Err KeyError))
                | Some m =>
                    let (s, r) := (st! f := load m in lift (half_cells pol polaxis f)) s in
                    match r with
                    | Err e => (s, (fields, Err e))
                    | Ok dx =>
                        let (s, r) := deepcopy m s in
                        match r with
                        | Err e => (s, (fields, Err e))
                        | Ok m =>
                            let here := dset here component m in
                            let (s, r) := (st! f := load m in st! g := lift (lin f dx) in alloc g) s in
                            match r with
                            | Err e => (s, (seen here, Err e))
                            | Ok m =>
                                let here := dset here component m in
                                let (s, r) := kspace spl lin None omega IFourier component here s in (s, (seen here, r))
                            end
                        end
                    end
                end
          end
      end
  | _ => (s, (fields, Err IndexError))
  end.
End Old.
(** shift_grid_by(dx, interpolation='linear') for a Field of real numbers *)
Definition real_shift (f : rfield) (dx : list (Z * R)) : res rfield := rmap sf_field (shift_grid_by_linear (mksf true f) dx).
