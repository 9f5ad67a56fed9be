(** Energy densities and divergence: _field_calc.py 307-384.  No proofs in this file.

    Floats are rationals; the fields read from the dump are arguments.  The grids put on the
    results are those of ReaderModel.setgridtofield. *)
From Coq Require Import QArith List ZArith.
From Verif Require Import PyBase NumpyModel NdModel FieldModel.
Import ListNotations.

Definition sq (a : nda Q) : nda Q := np_map (fun x => x * x) a.
(** Ex ** 2 + Ey ** 2 + Ez ** 2 *)
Definition sum_sq (x y z : nda Q) : res (nda Q) := let! s := np_map2 Qplus (sq x) (sq y) in np_map2 Qplus s (sq z).
(** energydensityE, 307-316 *)
Definition energyE (eps0 : Q) (Ex Ey Ez : nda Q) : res (nda Q) := let! s := sum_sq Ex Ey Ez in Ok (np_map (fun v => (1 # 2) * eps0 * v) s).
(** energydensityM, 318-327 *)
Definition energyM (mu0 : Q) (Bx By Bz : nda Q) : res (nda Q) := let! s := sum_sq Bx By Bz in Ok (np_map (fun v => (1 # 2) / mu0 * v) s).
(** energydensityEM, 329-342 *)
Definition energyEM (eps0 mu0 : Q) (Ex Ey Ez Bx By Bz : nda Q) : res (nda Q) :=
  let! e := sum_sq Ex Ey Ez in
  let! b := sum_sq Bx By Bz in
  np_map2 Qplus (np_map (fun v => (1 # 2) * eps0 * v) e) (np_map (fun v => (1 # 2) / mu0 * v) b).

(** np.gradient(a, axis=k) without spacings: central differences inside, one-sided at the ends *)
Definition np_gradient (a : nda Q) (k : nat) : res (nda Q) :=
  match nth_error (a_shape a) k with
  | None => Err ValueError
  | Some n =>
      if (n <? 2)%Z then Err ValueError
      else Ok (mkarr (a_shape a) (fun idx =>
        let i := nth k idx 0%Z in
        let f j := a_at a (upd idx k j) in
        if (i =? 0)%Z then f 1%Z - f 0%Z
        else if (i =? n - 1)%Z then f (n - 1)%Z - f (n - 2)%Z
        else (f (i + 1)%Z - f (i - 1)%Z) / 2))
  end.
(** divE, 344-384, with numpy 1.11 or newer.  In 1D np.gradient has no axis argument: of an
    array of more dimensions it would give a list, which the model takes for an error *)
Definition divE (simdims : Z) (Ex Ey Ez : nda Q) : res (nda Q) :=
  if (simdims =? 1)%Z then if (length (a_shape Ex) =? 1)%nat then np_gradient Ex 0 else Err ValueError
  else if (simdims =? 2)%Z then let! x := np_gradient Ex 0 in let! y := np_gradient Ey 1 in np_map2 Qplus x y
  else if (simdims =? 3)%Z then let! x := np_gradient Ex 0 in let! y := np_gradient Ey 1 in let! xy := np_map2 Qplus x y in let! z := np_gradient Ez 2 in np_map2 Qplus xy z
  else Err KeyError.
