(** Azimuthal modes: FbpicReader in openPMDh5.py 197-339 and SmileiReader in smileih5.py
    133-262.  No proofs in this file.

    Floats are real numbers of the standard library.  What np.empty leaves in memory is the
    argument [junk] (a number: nan and inf are left out). *)
From Coq Require Import Reals String List ZArith Bool.
From Verif Require Import PyBase NumpyModel NdModel CplxModel.
Import ListNotations.
Local Open Scope R_scope.

(** * FBPIC *)
(** mult_above_axis, openPMDh5.py 236-241: 1, cos theta, sin theta, cos 2 theta, ... *)
Definition fb_mult (Nm : Z) (theta : R) : list R :=
  1 :: flat_map (fun m => [cos (INR m * theta); sin (INR m * theta)]) (seq 1 (Z.to_nat ((Nm + 1) / 2) - 1)).
(** _modeexpansion_naiv_single, 229-250: tensordot over the first axis needs equal lengths *)
Definition fb_naiv_single (raw : nda R) (theta : R) : res (nda R) :=
  match a_shape raw with
  | [Nm; Nr; Nz] =>
      let mult := fb_mult Nm theta in
      if (Z.of_nat (length mult) =? Nm)%Z
      then Ok (mkarr [Nr; Nz] (fun idx => rsum (Z.to_nat Nm) (fun m => nth m mult 0 * a_at raw (Z.of_nat m :: idx))))
      else Err ValueError
  | _ => Err ValueError
  end.
(** _modeexpansion_naiv, 253-266: stacked along a new first axis, which is swapped with the
    second.  Of no angles the stack has one axis and the swap raises *)
Definition fb_naiv (raw : nda R) (theta : list R) : res (nda R) :=
  let! l := mapM (fb_naiv_single raw) theta in
  match l with
  | [] => Err ValueError
  | a :: _ =>
      match a_shape a with
      | [Nr; Nz] => Ok (mkarr [Nr; Z.of_nat (length l); Nz]
          (fun idx => match idx with [r; t; z] => match nth_error l (Z.to_nat t) with Some b => a_at b [r; z] | None => 0 end | _ => 0 end))
      | _ => Err ValueError
      end
  end.
(** assignment to a slice of n entries from one of m entries *)
Definition fits (m n : Z) : bool := ((m =? n) || (m =? 1))%Z.
(** _modeexpansion_fft, 269-286 *)
Definition fb_fft (junk : list Z -> C) (raw : nda R) (Ntheta : option Z) : res (nda R) :=
  match a_shape raw with
  | [Nm; Nr; Nz] =>
      let Nth := ((Nm + 1) / 2)%Z in
      let N := match Ntheta with None => Nth | Some n => if (n <? Nth)%Z then Nth else n end in
      if (N <? 1)%Z || (Nm <? 1)%Z then Err IndexError else
      if negb (fits (Nm / 2) (Nth - 1)) then Err ValueError else
      if negb (fits ((Nm - 1) / 2) (Nth - 1)) then Err ValueError else
      let fd r m z : C :=
        if (m =? 0)%Z then (a_at raw [0%Z; r; z], snd (junk [r; m; z]))
        else if (m <? Nth)%Z then (a_at raw [(2 * m - 1)%Z; r; z], a_at raw [(2 * m)%Z; r; z])
        else junk [r; m; z] in
      Ok (mkarr [Nr; N; Nz] (fun idx => match idx with
        | [r; k; z] => fst (csum (Z.to_nat N) (fun m => Cmul (cis (- (2 * PI * INR m * IZR k / IZR N))) (fd r (Z.of_nat m) z)))
        | _ => 0
        end))
  | _ => Err ValueError
  end.
(** modeexpansion, 197-226.  [theta]: a number counts as a list of one *)
Definition fb_modeexpansion (junk : list Z -> C) (raw : nda R) (theta : option (list R)) (Ntheta : option Z) : res (nda R) :=
  match Ntheta, theta with
  | None, Some t => fb_naiv raw t
  | _, _ => fb_fft junk raw Ntheta
  end.
(** dataE and dataB, 332-336; [data] is what the file holds under the key in SI units *)
Definition fb_dataE (junk : list Z -> C) (data : res (nda R)) (theta : option (list R)) (Ntheta : option Z) : res (nda R) :=
  let! raw := data in fb_modeexpansion junk raw theta Ntheta.
(** dataB names an Ntheta which is not among its arguments *)
Definition fb_dataB (junk : list Z -> C) (data : res (nda R)) (theta : option (list R)) : res (nda R) := Err NameError.

(** * Smilei *)
(** _modeexpansion_naiv, smileih5.py 135-167.  There is one array F_total: it is increased in
    place and every entry of array_list is that same array, so that np.stack sees its final
    contents each time *)
Definition sm_term (raw : nda C) (Nm : Z) (t : R) (idx : list Z) : R :=
  rsum (Z.to_nat Nm) (fun m => fst (a_at raw (Z.of_nat m :: idx)) * cos (INR m * t) + snd (a_at raw (Z.of_nat m :: idx)) * sin (INR m * t)).
Definition sm_naiv (raw : nda C) (theta : list R) : res (nda R) :=
  match a_shape raw with
  | [Nm; Nx; Nr] =>
      let F_total := fold_left (fun (F : list Z -> R) t => fun idx => F idx + sm_term raw Nm t idx) theta (fun _ => 0) in
      match theta with
      | [] => Err ValueError
      | _ => Ok (mkarr [Z.of_nat (length theta); Nx; Nr] (fun idx => F_total (tl idx)))
      end
  | _ => Err ValueError
  end.
(** _listAMmodes, 171-197.  A name with '_mode_' in it is the part before and the decimal
    digits after; the first name with the highest number counts; int(...[-1]) is its last digit.
    Other names do not matter. *)
Definition number (digits : list nat) : nat := fold_left (fun n d => (10 * n + d)%nat) digits 0%nat.
Fixpoint highest (best : option (list nat)) (names : list (string * list nat)) : option (list nat) :=
  match names with
  | [] => best
  | (_, d) :: r => highest (match best with Some b => if (number b <? number d)%nat then Some d else Some b | None => Some d end) r
  end.
Definition sm_modes (names : list (string * list nat)) : list string * list nat :=
  match highest None names with
  | None => ([], [])
  | Some d => (map fst names, seq 0 (S (last d 0%nat)))
  end.
(** _getExpanded, 201-233; [file key m]: the data set key_mode_m.  Envelope fields are real. *)
Definition sm_complex (env : bool) (a : nda R) : res (nda C) :=
  match a_shape a with
  | [Nx; Nr2] =>
      if env then Ok (mkarr [Nx; Nr2] (fun idx => RtoC (a_at a idx)))
      else if (Nr2 mod 2 =? 0)%Z
           then Ok (mkarr [Nx; (Nr2 / 2)%Z] (fun idx => match idx with [x; r] => (a_at a [x; (2 * r)%Z], a_at a [x; (2 * r + 1)%Z]) | _ => C0 end))
           else Err ValueError
  | _ => Err ValueError
  end.
Fixpoint same_shapes {V} (sh : list Z) (l : list (nda V)) : bool :=
  match l with [] => true | a :: r => (if list_eq_dec Z.eq_dec (a_shape a) sh then true else false) && same_shapes sh r end.
Definition np_stack {V} (d : V) (l : list (nda V)) : res (nda V) :=
  match l with
  | [] => Err ValueError
  | a :: _ => if same_shapes (a_shape a) l
              then Ok (mkarr (Z.of_nat (length l) :: a_shape a) (fun idx => match idx with m :: i => match nth_error l (Z.to_nat m) with Some b => a_at b i | None => d end | [] => d end))
              else Err ValueError
  end.
Definition sm_expanded (file : nat -> res (nda R)) (unit : R) (env : bool) (modes : list nat) (theta : list R) : res (nda R) :=
  let! l := mapM (fun m => let! a := file m in sm_complex env a) modes in
  let! raw := np_stack C0 l in
  let! f := sm_naiv raw theta in
  Ok (mkarr (a_shape f) (fun idx => a_at f idx * unit)).
