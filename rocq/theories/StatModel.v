(** particles.py: mean, var, quantile and median of a collection.  No proofs in this file. *)
From Verif Require Import PyBase NumpyModel NdModel FieldModel HelperModel ParticleModel.

(** np.sum of a one dimensional array *)
Definition np_sum (l : list Q) : Q := fold_left Qplus l 0.
(** np.average(d, weights=w): TypeError for different shapes, ZeroDivisionError if the
    weights sum up to zero *)
Definition np_average (d w : list Q) : res Q :=
  if negb (length d =? length w)%nat then Err TypeError
  else if np_sum w ==?q 0 then Err ZeroDivisionError
  else Ok (np_sum (map2 Qmult d w) / np_sum w).
(** the expression 'weight * (weights)', particles.py 969, 979, 996 *)
Definition times_weight (wt : expr Q) : expr Q :=
  mkexpr ("weight"%string :: e_keys wt) (fun l => match l with [] => 0 | x :: r => x * e_fn wt r end).
(** weights=None, 968 and 992 *)
Definition weight_expr (wt : option (expr Q)) : expr Q :=
  times_weight (match wt with None => mkexpr [] (fun _ => 1) | Some e => e end).
(** an array without entries, whatever its shape, is as good as the empty list here *)
Definition entries (v : values Q) : list Q := match v with VScalar a => [a] | VVec l => l | VVoid _ => [] end.

(** MultiSpecies.mean, particles.py 961-970 *)
Definition ms_mean (m : nat) (e : expr Q) (wt : option (expr Q)) : M Q :=
  do! w := ms_call m (weight_expr wt) in
  do! d := ms_call m e in
  mlift (np_average (entries d) (entries w)).
(** MultiSpecies.var, 972-982 (weights=None is not permitted here) *)
Definition ms_var (m : nat) (e wt : expr Q) : M Q :=
  do! w := ms_call m (times_weight wt) in
  do! d := ms_call m e in
  mlift (let! a := np_average (entries d) (entries w) in
         np_average (map (fun x => (x - a) * (x - a)) (entries d)) (entries w)).

(** np.cumsum *)
Fixpoint cumsum_from (a : Q) (l : list Q) : list Q :=
  match l with [] => [] | x :: r => (a + x) :: cumsum_from (a + x) r end.
Definition np_cumsum (l : list Q) : list Q := cumsum_from 0 l.
(** np.searchsorted(l, v): the first position whose entry is not below v; l ascending *)
Fixpoint search_left (l : list Q) (v : Q) : nat :=
  match l with [] => 0%nat | x :: r => if x <?q v then S (search_left r v) else 0%nat end.
(** 998-1001 for one q; [p] is np.argsort(data), where the order of equal entries is
    unspecified *)
Definition pick_quantile (p : list nat) (d w : list Q) (q : Q) : res Q :=
  let! ws := mapM (fun i => getidx w (Z.of_nat i)) p in
  let wcs := np_cumsum ws in
  let! tot := getidx wcs (-1) in
  let! k := getidx p (Z.of_nat (search_left wcs (tot * q))) in
  getidx d (Z.of_nat k).
(** MultiSpecies.quantile, 984-1001, of a list of q; [argsort] is np.argsort *)
Definition ms_quantile (argsort : list Q -> list nat) (m : nat) (e : expr Q) (qs : list Q) (wt : option (expr Q)) : M (list Q) :=
  if existsb (fun q => q <?q 0) qs || existsb (fun q => 1 <?q q) qs then mraise ValueError
  else
    do! w := ms_call m (weight_expr wt) in
    do! d := ms_call m e in
    mlift (mapM (pick_quantile (argsort (entries d)) (entries d) (entries w)) qs).
(** MultiSpecies.median, 1003-1010 *)
Definition ms_median (argsort : list Q -> list nat) (m : nat) (e : expr Q) (wt : option (expr Q)) : M (list Q) :=
  ms_quantile argsort m e [1 # 2] wt.
