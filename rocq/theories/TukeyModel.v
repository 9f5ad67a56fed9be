(** Model of sps_tukey, /repo/postpic/_compat/functions.py 73-108, over the reals.
    No proofs in this file. *)
From Coq Require Import Reals.
From Verif Require Import PyBase NdModel.
Local Open Scope R_scope.

(** n[lo:hi] of np.arange(0, M), for 0 <= lo: the numbers themselves *)
Definition arange_slice (M lo hi : Z) : list Z := map (fun i => (lo + i)%Z) (zrange (Z.min hi M - lo)).
(** 99 *)
Definition rising (alpha : R) (M n : Z) : R := / 2 * (1 + cos (PI * (-1 + 2 * IZR n / alpha / IZR (M - 1)))).
(** 101 *)
Definition falling (alpha : R) (M n : Z) : R := / 2 * (1 + cos (PI * (-2 / alpha + 1 + 2 * IZR n / alpha / IZR (M - 1)))).
(** 94 *)
Definition ramp_width (alpha : R) (M : Z) : Z := Int_part (alpha * IZR (M - 1) / 2).
(** 93-103 *)
Definition tukey_window (alpha : R) (M : Z) : list R :=
  let width := ramp_width alpha M in
  map (rising alpha M) (arange_slice M 0 (width + 1)) ++ map (fun _ => 1) (arange_slice M (width + 1) (M - width - 1)) ++
  map (falling alpha M) (arange_slice M (M - width - 1) M).
(** sps_tukey, 73-108, for an integer M; hann is not defined in the module *)
Definition sps_tukey (M : Z) (alpha : R) (sym : bool) : res (list R) :=
  if (M <? 0)%Z then Err ValueError
  else if (M <=? 1)%Z then Ok (map (fun _ => 1) (zrange M))
  else if Rle_dec alpha 0 then Ok (map (fun _ => 1) (zrange M))
  else if Rle_dec 1 alpha then Err NameError
  else if sym then Ok (tukey_window alpha M)
  else Ok (removelast (tukey_window alpha (M + 1))).
