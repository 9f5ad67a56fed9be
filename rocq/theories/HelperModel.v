(** helper.py and _compat/functions.py: monotonicity, the FFT pad sizes, the chunks of
    map_coordinates_parallel, moveaxis.  No proofs in this file. *)
From Coq Require Import Qround.
From Verif Require Import PyBase NumpyModel NdModel FieldModel.

(** helper.py monotonicity, 360-374, of a one dimensional array *)
Definition monotonicity (l : list Q) : Z :=
  let dx := np_diff l in
  if forallb (fun d => 0 <?q d) dx then 1%Z
  else if forallb (fun d => d <?q 0) dx then (-1)%Z
  else 0%Z.

(** helper.py product, 441-453, of objects with the multiplication [mul]: StopIteration (here:
    ValueError) without objects *)
Definition product {A} (mul : A -> A -> A) (l : list A) : res A :=
  match l with [] => Err ValueError | p :: r => Ok (fold_left mul r p) end.

(** helper.py fft_padsize_power2, 513-514; bit_length of a negative number is that of
    its absolute value *)
Definition bit_length (n : Z) : Z := if (n =? 0)%Z then 0%Z else (Z.log2 (Z.abs n) + 1)%Z.
Definition fft_padsize_power2 (n : Z) : Z := Z.shiftl 1 (bit_length n).

(** * FFTW_Pad, helper.py 456-507 *)
(** 480-485: 11 and 13 are taken out of the factors (first occurrence) *)
Fixpoint remove_first (x : Z) (l : list Z) : list Z :=
  match l with [] => [] | y :: l' => if (y =? x)%Z then l' else y :: remove_first x l' end.
Definition split_factors (factors : list Z) : list Z * list Z :=
  fold_left (fun '(extra, fs) x => if mem_Z x fs then (extra ++ [x], remove_first x fs) else (extra, fs))
            [11; 13]%Z ([1%Z], factors).
(** 491-494: all products of f ** p with p below the bound of f *)
Fixpoint combos (l : list (Z * nat)) : list Z :=
  match l with
  | [] => [1%Z]
  | (f, m) :: r => flat_map (fun p => map (Z.mul (f ^ Z.of_nat p)) (combos r)) (seq 0 m)
  end.
(** the setter of fftsize_max, 476-495.  [pw m e f] is int(math.log(m/e+1, f))+1, a
    floating point result.  The product of no factors at all is an error. *)
Definition fftw_sizes (pw : Z -> Z -> Z -> nat) (factors : list Z) (m : Z) : res (list Z) :=
  let '(extra, fs) := split_factors factors in
  match fs with
  | [] => Err BareException
  | _ =>
      let l := flat_map (fun e => map (Z.mul e) (combos (map (fun f => (f, pw m e f)) fs))) extra in
      Ok (sort_Z (filter (fun x => (x <=? m)%Z) l))
  end.
(** np.searchsorted(l, n) of a sorted list *)
Definition searchsorted_Z (l : list Z) (n : Z) : Z := Z.of_nat (length (filter (fun x => (x <? n)%Z) l)).
(** one object: its factors and the table *)
Record fftw_pad := mkpad { fp_factors : list Z; fp_sizes : list Z }.
(** FFTW_Pad(fftsize_max, factors), 461-470 *)
Definition fftw_init (pw : Z -> Z -> Z -> nat) (m : option Z) (factors : list Z) : res fftw_pad :=
  let! t := fftw_sizes pw factors (match m with None => 1%Z | Some m => m end) in
  Ok (mkpad factors t).
(** __call__, 497-507: the new state (kept even if the call raises) and the result *)
Definition fftw_call (pw : Z -> Z -> Z -> nat) (s : fftw_pad) (n : Z) : fftw_pad * res Z :=
  match getidx (fp_sizes s) (-1) with
  | Err e => (s, Err e)
  | Ok last =>
      let r := if (last <? n)%Z then rmap (mkpad (fp_factors s)) (fftw_sizes pw (fp_factors s) (n + 10000)) else Ok s in
      match r with
      | Err e => (s, Err e)
      | Ok s' => (s', getidx (fp_sizes s') (searchsorted_Z (fp_sizes s') n))
      end
  end.
(** the object after a history of calls *)
Definition fftw_after (pw : Z -> Z -> Z -> nat) (s : fftw_pad) (calls : list Z) : fftw_pad :=
  fold_left (fun s n => fst (fftw_call pw s n)) calls s.
(** int(math.log(m/e+1, f))+1 in exact arithmetic: the number of p with f^p <= m/e+1 *)
Fixpoint count_powers (fuel : nat) (bound e f x : Z) : nat :=
  match fuel with
  | O => O
  | S fuel' => if (e * x <=? bound)%Z then S (count_powers fuel' bound e f (f * x)) else O
  end.
Definition exact_powers (m e f : Z) : nat := count_powers (S (Z.to_nat (Z.log2 (m + e)))) (m + e) e f 1.

(** * map_coordinates_parallel, helper.py 208-323 *)
(** 269-272: the slices of one output axis *)
Definition axis_chunks (chunklen n : Z) : res (list (Z * Z)) :=
  let starts := py_range 0 n chunklen in
  match starts with
  | [] => Err IndexError           (* chunkends[-1] *)
  | _ => Ok (combine starts (map (fun s => (s + chunklen)%Z) (removelast starts) ++ [n]))
  end.
(** itertools.product *)
Fixpoint cartesian {A} (ls : list (list A)) : list (list A) :=
  match ls with
  | [] => [[]]
  | l :: r => flat_map (fun x => map (cons x) (cartesian r)) l
  end.
(** 268-274 *)
Definition chunk_plan (chunklen : Z) (sh : list Z) : res (list (list (Z * Z))) :=
  let! cs := mapM (axis_chunks chunklen) sh in Ok (cartesian cs).
(** the output positions of a chunk *)
Definition chunk_idx (chunk : list (Z * Z)) : list (list Z) :=
  cartesian (map (fun p => py_range (fst p) (snd p) 1) chunk).
(** np.min, np.max of a non-empty array *)
Definition list_min (l : list Q) : res Q :=
  match l with
  | [] => Err ValueError
  | x :: r => Ok (fold_left (fun m y => if y <?q m then y else m) r x)
  end.
(** 279-280: the cropped region along one input axis, for the coordinates of a chunk *)
Definition crop_region (n : Z) (cs : list Q) : res (Z * Z) :=
  let! mn := list_min cs in
  let! mx := list_max cs in
  Ok (Z.max 0 (Qfloor mn - 5), Z.min n (Qceiling mx + 5)).
(** 276-283: one region per input axis; [coord] gives the coordinates of an output position *)
Definition crop_regions (ish : list Z) (coord : list Z -> list Q) (idxs : list (list Z)) : res (list (Z * Z)) :=
  mapM (fun k => crop_region (nth k ish 0%Z) (map (fun idx => nth k (coord idx) 0) idxs)) (seq 0 (length ish)).
(** filtered[tuple(filtered_region)] *)
Definition crop_array (a : nda Q) (rs : list (Z * Z)) : res (nda Q) :=
  np_getitem a (map (fun r => inr (mkslice (Some (fst r)) (Some (snd r)) None)) rs).
(** 288-297: the element writes of one worker.  [interp a c] is the value
    geometric_transform computes for the coefficients a at coordinates c. *)
Definition chunk_writes (interp : nda Q -> list Q -> Q) (a : nda Q) (coord : list Z -> list Q)
    (chunk : list (Z * Z)) : res (list (list Z * Q)) :=
  let idxs := chunk_idx chunk in
  let! rs := crop_regions (a_shape a) coord idxs in
  let! b := crop_array a rs in
  Ok (map (fun idx => (idx, interp b (map2 (fun c r => c - inject_Z (fst r)) (coord idx) rs))) idxs).
(** 260-264 *)
Definition chunklen_of (chunklen : option Z) (ndim : nat) : Z :=
  match chunklen with Some c => c | None => if (ndim <? 3)%nat then 1024%Z else 128%Z end.
(** 299-302: the writes of every worker *)
Definition all_writes (interp : nda Q -> list Q -> Q) (a : nda Q) (coord : list Z -> list Q)
    (osh : list Z) (chunklen : option Z) : res (list (list (list Z * Q))) :=
  let c := chunklen_of chunklen (length osh) in
  if (0 <? c)%Z then
    let! plan := chunk_plan c osh in
    mapM (chunk_writes interp a coord) plan
  else Ok [map (fun idx => (idx, interp a (coord idx))) (all_idx osh)].
(** the output memory after a sequence of element writes *)
Definition write_all (ws : list (list Z * Q)) (mem : list Z -> option Q) : list Z -> option Q :=
  fold_left (fun m w => fun idx => if idx_eqb idx (fst w) then Some (snd w) else m idx) ws mem.

(** * _compat/functions.py np_moveaxis, 54-70 *)
(** list.insert(i, x), i >= 0 *)
Definition insert_at {A} (i : nat) (x : A) (l : list A) : list A := firstn i l ++ x :: skipn i l.
(** sorted() of pairs *)
Definition pair_leb (p q : Z * Z) : bool :=
  (fst p <? fst q)%Z || ((fst p =? fst q)%Z && (snd p <=? snd q)%Z).
Fixpoint insert_pair (x : Z * Z) (l : list (Z * Z)) : list (Z * Z) :=
  match l with [] => [x] | y :: l' => if pair_leb x y then x :: l else y :: insert_pair x l' end.
Definition sort_pairs (l : list (Z * Z)) : list (Z * Z) := fold_right insert_pair [] l.
(** 62-68 *)
Definition moveaxis_order (ndim : nat) (source destination : list Z) : list Z :=
  let source := map (fun s => (s mod Z.of_nat ndim)%Z) source in
  let destination := map (fun d => (d mod Z.of_nat ndim)%Z) destination in
  fold_left (fun order p => insert_at (Z.to_nat (fst p)) (snd p) order)
            (sort_pairs (combine destination source))
            (filter (fun n => negb (mem_Z n source)) (zlist ndim)).
(** s % 0 raises *)
Definition np_moveaxis {V} (a : nda V) (source destination : list Z) : res (nda V) :=
  match length (a_shape a), source, destination with
  | O, [], [] => np_transpose a []
  | O, _, _ => Err ZeroDivisionError
  | n, _, _ => np_transpose a (moveaxis_order n source destination)
  end.
