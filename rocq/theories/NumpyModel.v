(** The numpy/scipy primitives used by the modelled code, on rational lists.
    These are library functions: the model states their documented contract.
    No proofs in this file. *)
From Verif Require Import PyBase.

(** helper.py 423-427 is_non_integer_real_number distinguishes python ints from
    python floats; the model tags every number that occurs as an index. *)
Inductive num := NInt (z : Z) | NReal (q : Q).
Definition num_val (x : num) : Q := match x with NInt z => inject_Z z | NReal q => q end.
Definition is_real (x : num) : bool := match x with NInt _ => false | NReal _ => true end.

(** pairwise application on lists of equal length *)
Fixpoint map2 {A B C} (f : A -> B -> C) (l : list A) (m : list B) : list C :=
  match l, m with
  | x :: l', y :: m' => f x y :: map2 f l' m'
  | _, _ => []
  end.

(** numpy elementwise operation on 1-d arrays with broadcasting: equal lengths,
    or one operand of length one; anything else raises ValueError. *)
Definition np_broadcast2 {A B C} (f : A -> B -> C) (l : list A) (m : list B) : res (list C) :=
  if Nat.eqb (length l) (length m) then Ok (map2 f l m)
  else match l, m with
       | [x], _ => Ok (map (fun y => f x y) m)
       | _, [y] => Ok (map (fun x => f x y) l)
       | _, _ => Err ValueError
       end.

(** np.all *)
Definition np_all (l : list bool) : bool := forallb (fun b => b) l.

(** np.diff *)
Fixpoint np_diff (l : list Q) : list Q :=
  match l with
  | x :: ((y :: _) as rest) => (y - x) :: np_diff rest
  | _ => []
  end.

(** np.linspace(a, b, num): num < 0 raises, num = 1 gives [a], otherwise
    start + i*step with the last entry overwritten by stop. *)
Definition np_linspace (a b : Q) (num : Z) : res (list Q) :=
  if (num <? 0)%Z then Err ValueError
  else if (num =? 0)%Z then Ok []
  else if (num =? 1)%Z then Ok [a]
  else
    let step := (b - a) / inject_Z (num - 1) in
    Ok (map (fun i => inject_Z (Z.of_nat i) * step + a) (seq 0 (Z.to_nat (num - 1))) ++ [b]).

(** np.convolve(v, [1/2, 1/2], mode='valid'): numpy swaps the operands when the
    second one is longer, so a single value yields two halves; empty input raises. *)
Fixpoint pair_means (v : list Q) : list Q :=
  match v with
  | x :: ((y :: _) as rest) => (qhalf * x + qhalf * y) :: pair_means rest
  | _ => []
  end.
Definition convolve_valid (v : list Q) : res (list Q) :=
  match v with
  | [] => Err ValueError
  | [x] => Ok [qhalf * x; qhalf * x]
  | _ => Ok (pair_means v)
  end.
(** np.convolve(v, [1/2, 1/2], mode='full') *)
Definition convolve_full (v : list Q) : res (list Q) :=
  match v with
  | [] => Err ValueError
  | x :: _ => Ok ((qhalf * x) :: pair_means v ++ [qhalf * last v x])
  end.

(** np.isclose(a, b) with the default tolerances rtol=1e-5, atol=1e-8 *)
Definition isclose (a b : Q) : bool :=
  qabs (a - b) <=?q ((1 # 100000000) + (1 # 100000) * qabs b).

(** np.searchsorted on a sorted array: number of entries < v (side='left')
    or <= v (side='right'). *)
Definition searchsorted_left (l : list Q) (v : Q) : nat :=
  length (filter (fun g => g <?q v) l).
Definition searchsorted_right (l : list Q) (v : Q) : nat :=
  length (filter (fun g => g <=?q v) l).

(** np.all(np.sort(l) == l): l is non-decreasing *)
Fixpoint sortedb (l : list Q) : bool :=
  match l with
  | x :: ((y :: _) as rest) => (x <=?q y) && sortedb rest
  | _ => true
  end.

(** l with its first / last entry replaced *)
Definition set_first (l : list Q) (x : Q) : list Q :=
  match l with [] => [] | _ :: t => x :: t end.
Definition set_last (l : list Q) (x : Q) : list Q :=
  match l with [] => [] | _ => removelast l ++ [x] end.

(** helper.py 360-374 monotonicity (1-d case) *)
Definition monotonicity (arr : list Q) : Z :=
  let dx := np_diff arr in
  if np_all (map (fun d => 0 <?q d) dx) then 1%Z
  else if np_all (map (fun d => d <?q 0) dx) then (-1)%Z
  else 0%Z.

(** helper.py 356-357 islinear; an empty grid raises IndexError at grid[0] *)
Definition h_islinear (grid : list Q) : res bool :=
  match grid with
  | [] => Err IndexError
  | g0 :: _ =>
      let! lin := np_linspace g0 (last grid g0) (Z.of_nat (length grid)) in
      Ok (np_all (map2 isclose grid lin))
  end.
