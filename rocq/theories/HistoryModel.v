(** particles.py: ParticleHistory (1169-1281), on the store of ParticleModel.  No proofs in
    this file. *)
From Coq Require Import Qround.
From Verif Require Import PyBase NumpyModel NdModel FieldModel HelperModel ParticleModel.

(** a ParticleHistory: the dumps, the species names, the integer array self.ids (shared with
    the caller if he passed an array), and self._id2i *)
Record phistory := mkph { h_sr : list dump; h_speciess : list string; h_ids : nat; h_id2i : list (Z * nat) }.
(** _updatelookupdict, 1210-1216: the dict comprehension lets later positions override
    earlier ones; here the first match counts, hence the reversal *)
Definition lookup_dict (ids : list Z) : list (Z * nat) := rev (combine ids (seq 0 (length ids))).
Fixpoint dict_get {A} (l : list (Z * A)) (k : Z) : res A :=
  match l with [] => Err KeyError | (j, x) :: r => if (j =? k)%Z then Ok x else dict_get r k end.
Definition new_ids (l : list Z) : M nat :=
  fun w => (mkworld (w_bools w) (w_ids w ++ [l]) (w_objs w) (w_ms w), Ok (length (w_ids w))).
Definition get_ids (k : nat) : M (list Z) := fun w => (w, Ok (nth k (w_ids w) [])).
(** the atomic property as a ScalarProperty *)
Definition id_expr : expr Q := mkexpr ["id"%string] (fun l => match l with q :: _ => q | [] => 0 end).
(** np.asarray(..., dtype=np.int) of an evaluated property *)
Definition as_ints (v : values Q) : res (list Z) :=
  match v with VVec l => Ok (map trunc l) | _ => Err ValueError end.
(** scalars[i, :] = ..., for n columns; a single value is repeated *)
Definition as_row (n : nat) (v : values Q) : res (list Q) :=
  match v with
  | VVec l => if (length l =? n)%nat then Ok l else match l with [a] => Ok (repeat a n) | _ => Err ValueError end
  | VScalar a => Ok (repeat a n)
  | VVoid _ => Err ValueError
  end.

(** __init__ with an integer array, 1187-1197 *)
Definition ph_new_array (sr : list dump) (speciess : list string) (k : nat) : M phistory :=
  do! ids := get_ids k in mret (mkph sr speciess k (lookup_dict ids)).
(** __init__ with a list: np.asarray makes a new array *)
Definition ph_new (sr : list dump) (speciess : list string) (ids : list Z) : M phistory :=
  do! k := new_ids ids in ph_new_array sr speciess k.
(** _findids, 1218-1227; [enum] gives the order in which python runs through a set *)
Definition ph_findids (enum : list Z -> list Z) (sr : list dump) (speciess : list string) : M (list Z) :=
  do! found := mmap (fun dr =>
    do! ms := ms_new dr speciess true in
    do! v := ms_call ms id_expr in
    mlift (match v with VVec l => Ok (map trunc l) | VScalar _ | VVoid _ => Err TypeError end)) sr in
  mret (enum (nodup Z.eq_dec (concat found))).
Definition ph_new_all (enum : list Z -> list Z) (sr : list dump) (speciess : list string) : M phistory :=
  do! ids := ph_findids enum sr speciess in ph_new sr speciess ids.

(** _collectfromdump, 1233-1248: for every particle found its id and the column of scalars *)
Definition column (rows : list (list Q)) (k : nat) : res (list Q) := mapM (fun r => getidx r (Z.of_nat k)) rows.
Definition collect_dump (speciess : list string) (k : nat) (fs : list (expr Q)) (dr : dump) : M (list Z * list (list Q)) :=
  do! ms := ms_new dr speciess true in
  do! ms := ms_compress_ids ms k in
  do! n := ms_len ms in
  do! rows := mmap (fun f => do! v := ms_call ms f in mlift (as_row n v)) fs in
  do! v := ms_call ms id_expr in
  do! ids := mlift (as_ints v) in
  mret (ids, rows).
(** 1277-1279 *)
Fixpoint distribute_to (d : list (Z * nat)) (rows : list (list Q)) (ids : list Z) (k : nat) (pl : list (list (list Q))) : res (list (list (list Q))) :=
  match ids with
  | [] => Ok pl
  | x :: r =>
      let! i := dict_get d x in
      let! c := column rows k in
      let! old := getidx pl (Z.of_nat i) in
      distribute_to d rows r (S k) (upd pl i (old ++ [c]))
  end.
Fixpoint collect_dumps (h : phistory) (fs : list (expr Q)) (sr : list dump) (pl : list (list (list Q))) : M (list (list (list Q))) :=
  match sr with
  | [] => mret pl
  | dr :: r =>
      do! p := collect_dump (h_speciess h) (h_ids h) fs dr in
      do! pl' := mlift (distribute_to (h_id2i h) (snd p) (fst p) 0 pl) in
      collect_dumps h fs r pl'
  end.
(** collect, 1259-1281: for every particle the list of the vectors of scalars, one for each
    occurrence (numpy shows it transposed) *)
Definition ph_collect (h : phistory) (fs : list (expr Q)) : M (list (list (list Q))) :=
  do! ids := get_ids (h_ids h) in
  collect_dumps h fs (h_sr h) (repeat [] (length ids)).
(** skip, 1250-1257: ids[::n+1] is a view of the same memory: positions 0, n+1, 2(n+1), ...
    of the array; the lookup dict is made anew *)
Fixpoint every (n k : nat) (l : list Z) : list Z :=
  match l with [] => [] | x :: r => match k with O => x :: every n n r | S k' => every n k' r end end.
(** assignment to the elements of the view *)
Fixpoint weave (n k : nat) (l new : list Z) : list Z :=
  match l with
  | [] => []
  | x :: r => match k with
              | O => match new with y :: new' => y :: weave n n r new' | [] => x :: r end
              | S k' => x :: weave n k' r new
              end
  end.
Record skipped := mksk { k_sr : list dump; k_speciess : list string; k_base : nat; k_skip : nat; k_id2i : list (Z * nat) }.
Definition ph_skip (h : phistory) (n : nat) : M skipped :=
  do! ids := get_ids (h_ids h) in
  mret (mksk (h_sr h) (h_speciess h) (h_ids h) n (lookup_dict (every n 0 ids))).
(** collect of such a history: the elements of the view are sorted in place.  Nothing else
    looks at the array meanwhile, so it is modelled as taking them out and putting them back
    afterwards, also after an exception *)
Definition put_back (k n t : nat) (w : world) : world :=
  mkworld (w_bools w) (upd (w_ids w) k (weave n 0 (nth k (w_ids w) []) (nth t (w_ids w) []))) (w_objs w) (w_ms w).
Definition sk_collect (s : skipped) (fs : list (expr Q)) : M (list (list (list Q))) :=
  do! base := get_ids (k_base s) in
  do! t := new_ids (every (k_skip s) 0 base) in
  fun w => let (w1, r) := ph_collect (mkph (k_sr s) (k_speciess s) t (k_id2i s)) fs w in (put_back (k_base s) (k_skip s) t w1, r).
