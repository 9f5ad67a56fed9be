(** n-dimensional numpy arrays and the array operations used by the modelled code
    (library functions: the model states their documented behaviour).
    No proofs in this file. *)
From Verif Require Import PyBase NumpyModel.

(** Shape and entries.  Entries outside the shape are meaningless. *)
Record nda (V : Type) := mkarr { a_shape : list Z; a_at : list Z -> V }.
Arguments mkarr {V} a_shape a_at.
Arguments a_shape {V} n.
Arguments a_at {V} n _.

(** idx is a valid index of an array of shape sh *)
Fixpoint in_shape (sh idx : list Z) : bool :=
  match sh, idx with
  | [], [] => true
  | n :: sh', i :: idx' => (0 <=? i)%Z && (i <? n)%Z && in_shape sh' idx'
  | _, _ => false
  end.

Fixpoint idx_eqb (a b : list Z) : bool :=
  match a, b with
  | [], [] => true
  | x :: a', y :: b' => (x =? y)%Z && idx_eqb a' b'
  | _, _ => false
  end.

(** monadic map over a python list *)
Fixpoint mapM {A B} (f : A -> res B) (l : list A) : res (list B) :=
  match l with
  | [] => Ok []
  | x :: l' => let! y := f x in let! ys := mapM f l' in Ok (y :: ys)
  end.

(** position addressed by a python index: negative values count from the end *)
Definition py_pos (n : nat) (i : Z) : res nat :=
  let i' := if (i <? 0)%Z then (i + Z.of_nat n)%Z else i in
  if ((0 <=? i') && (i' <? Z.of_nat n))%Z then Ok (Z.to_nat i') else Err IndexError.

Fixpoint upd {A} (l : list A) (k : nat) (x : A) : list A :=
  match l, k with
  | [], _ => []
  | _ :: t, O => x :: t
  | h :: t, S k' => h :: upd t k' x
  end.
Fixpoint del {A} (l : list A) (k : nat) : list A :=
  match l, k with
  | [], _ => []
  | _ :: t, O => t
  | h :: t, S k' => h :: del t k'
  end.
(** [l[i] = x] and [del l[i]] on python lists *)
Definition setidx {A} (l : list A) (i : Z) (x : A) : res (list A) :=
  let! k := py_pos (length l) i in Ok (upd l k x).
Definition delidx {A} (l : list A) (i : Z) : res (list A) :=
  let! k := py_pos (length l) i in Ok (del l k).

(** np.prod(shape) *)
Definition zprod (l : list Z) : Z := fold_right Z.mul 1%Z l.

(** ** Basic indexing: one integer or slice per leading dimension *)
Inductive sel := SInt (i : Z) | SRange (start step count : Z).

Definition sel_of (n : Z) (k : Z + slice) : res sel :=
  match k with
  | inl i => let! p := py_pos (Z.to_nat n) i in Ok (SInt (Z.of_nat p))
  | inr sl =>
      let! sss := slice_indices sl n in
      let '(start, stop, step) := sss in
      Ok (SRange start step (Z.of_nat (range_len start stop step)))
  end.
Fixpoint sels_of (sh : list Z) (ks : list (Z + slice)) : res (list sel) :=
  match sh, ks with
  | _, [] => Ok (map (SRange 0 1) sh)
  | [], _ :: _ => Err IndexError
  | n :: sh', k :: ks' =>
      let! s := sel_of n k in let! ss := sels_of sh' ks' in Ok (s :: ss)
  end.
Fixpoint sel_shape (ss : list sel) : list Z :=
  match ss with
  | [] => []
  | SInt _ :: ss' => sel_shape ss'
  | SRange _ _ c :: ss' => c :: sel_shape ss'
  end.
Fixpoint sel_index (ss : list sel) (idx : list Z) : list Z :=
  match ss with
  | [] => []
  | SInt i :: ss' => i :: sel_index ss' idx
  | SRange s st _ :: ss' =>
      match idx with
      | i :: idx' => (s + i * st)%Z :: sel_index ss' idx'
      | [] => []
      end
  end.
(** [a[k0, k1, ...]] *)
Definition np_getitem {V} (a : nda V) (ks : list (Z + slice)) : res (nda V) :=
  let! ss := sels_of (a_shape a) ks in
  Ok (mkarr (sel_shape ss) (fun idx => a_at a (sel_index ss idx))).

(** ** Transposition *)
Fixpoint index_of (k : nat) (p : list nat) : nat :=
  match p with
  | [] => 0%nat
  | x :: p' => if Nat.eqb x k then 0%nat else S (index_of k p')
  end.
Fixpoint memb (k : nat) (p : list nat) : bool :=
  match p with [] => false | x :: p' => Nat.eqb x k || memb k p' end.
Fixpoint nodupb (p : list nat) : bool :=
  match p with [] => true | x :: p' => negb (memb x p') && nodupb p' end.
(** entry i of the result is entry p[i] of the argument *)
Definition permute {A} (d : A) (p : list nat) (l : list A) : list A := map (fun k => nth k l d) p.
(** the index into the source belonging to an index into the transposed array *)
Definition unpermute (p : list nat) (idx : list Z) : list Z :=
  map (fun k => nth (index_of k p) idx 0%Z) (seq 0 (length p)).
Definition nd_transpose {V} (p : list nat) (a : nda V) : nda V :=
  mkarr (permute 0%Z p (a_shape a)) (fun idx => a_at a (unpermute p idx)).
(** [a.transpose( *axes )]: ValueError unless the axes are a permutation *)
Definition np_transpose {V} (a : nda V) (axes : list Z) : res (nda V) :=
  if negb (Nat.eqb (length axes) (length (a_shape a))) then Err ValueError
  else
    let! p := mapM (py_pos (length (a_shape a))) axes in
    if nodupb p then Ok (nd_transpose p a) else Err ValueError.

(** ** Reductions *)
(** all indices of an array of the given shape, in C order *)
Definition zrange (n : Z) : list Z := map Z.of_nat (seq 0 (Z.to_nat n)).
Fixpoint all_idx (sh : list Z) : list (list Z) :=
  match sh with
  | [] => [[]]
  | n :: sh' => flat_map (fun i => map (cons i) (all_idx sh')) (zrange n)
  end.
(** The entries of l at positions (starting with k) that are / are not in axs. *)
Fixpoint keep_from {A} (k : nat) (axs : list nat) (l : list A) : list A :=
  match l with
  | [] => []
  | x :: l' => if memb k axs then keep_from (S k) axs l' else x :: keep_from (S k) axs l'
  end.
Fixpoint drop_from {A} (k : nat) (axs : list nat) (l : list A) : list A :=
  match l with
  | [] => []
  | x :: l' => if memb k axs then x :: drop_from (S k) axs l' else drop_from (S k) axs l'
  end.
Definition kept {A} (axs : list nat) (l : list A) : list A := keep_from 0 axs l.
Definition reduced {A} (axs : list nat) (l : list A) : list A := drop_from 0 axs l.
(** the index of the source made from the index [idx] of the result and the
    index [r] along the reduced dimensions; [n] dimensions starting with k *)
Fixpoint merge_from (n k : nat) (axs : list nat) (idx r : list Z) : list Z :=
  match n with
  | O => []
  | S n' =>
      if memb k axs then
        match r with
        | x :: r' => x :: merge_from n' (S k) axs idx r'
        | [] => []
        end
      else
        match idx with
        | x :: idx' => x :: merge_from n' (S k) axs idx' r
        | [] => []
        end
  end.
Definition merge_idx (n : nat) (axs : list nat) (idx r : list Z) : list Z := merge_from n 0 axs idx r.
Definition nd_reduce {V} (f : list V -> V) (axs : list nat) (a : nda V) : nda V :=
  mkarr (kept axs (a_shape a))
        (fun idx => f (map (fun r => a_at a (merge_idx (length (a_shape a)) axs idx r))
                           (all_idx (reduced axs (a_shape a))))).
(** the axis argument of a numpy reduction *)
Inductive axisarg := AxNone | AxInt (i : Z) | AxTuple (l : list Z).
Definition axisarg_positions (n : nat) (ax : axisarg) : res (list nat) :=
  match ax with
  | AxNone => Ok (seq 0 n)
  | AxInt i => mapM (py_pos n) [i]
  | AxTuple l =>
      let! p := mapM (py_pos n) l in
      if nodupb p then Ok p else Err ValueError
  end.
(** reduced dimensions become length one *)
Fixpoint ones_from {A} (one : A) (k : nat) (axs : list nat) (l : list A) : list A :=
  match l with
  | [] => []
  | x :: l' => (if memb k axs then one else x) :: ones_from one (S k) axs l'
  end.
(** [a.method(axis=ax, keepdims=keepdims)] where the method combines the list of
    reduced samples by f (max and min of no samples, which raise, are not
    distinguished) *)
Definition np_reduce {V} (f : list V -> V) (a : nda V) (ax : axisarg) (keepdims : bool) : res (nda V) :=
  let! p := axisarg_positions (length (a_shape a)) ax in
  let r := nd_reduce f p a in
  if keepdims
  then Ok (mkarr (ones_from 1%Z 0 p (a_shape a)) (fun idx => a_at r (kept p idx)))
  else Ok r.

(** ** Broadcasting *)
(** result shape, computed on reversed shapes *)
Fixpoint bshape_rev (s1 s2 : list Z) : res (list Z) :=
  match s1, s2 with
  | [], _ => Ok s2
  | _, [] => Ok s1
  | a :: s1', b :: s2' =>
      let! n := (if (a =? b)%Z then Ok a
                 else if (a =? 1)%Z then Ok b
                 else if (b =? 1)%Z then Ok a
                 else Err ValueError) in
      let! r := bshape_rev s1' s2' in Ok (n :: r)
  end.
Definition bshape (s1 s2 : list Z) : res (list Z) :=
  rmap (@rev Z) (bshape_rev (rev s1) (rev s2)).
(** the entry of an operand of shape sh used for entry idx of the result:
    missing leading dimensions are ignored, length one dimensions are repeated *)
Fixpoint bidx_rev (sh idx : list Z) : list Z :=
  match sh, idx with
  | n :: sh', i :: idx' => (if (n =? 1)%Z then 0%Z else i) :: bidx_rev sh' idx'
  | _, _ => []
  end.
Definition bidx (sh idx : list Z) : list Z := rev (bidx_rev (rev sh) (rev idx)).
Definition np_map2 {A B C} (f : A -> B -> C) (a : nda A) (b : nda B) : res (nda C) :=
  let! sh := bshape (a_shape a) (a_shape b) in
  Ok (mkarr sh (fun idx => f (a_at a (bidx (a_shape a) idx)) (a_at b (bidx (a_shape b) idx)))).
Definition np_map {A B} (f : A -> B) (a : nda A) : nda B :=
  mkarr (a_shape a) (fun idx => f (a_at a idx)).

(** ** Padding with a constant *)
Definition pad_shape (sh : list Z) (w : list (Z * Z)) : list Z :=
  map2 (fun n p => (fst p + n + snd p)%Z) sh w.
Definition pad_index (idx : list Z) (w : list (Z * Z)) : list Z := map2 (fun i p => (i - fst p)%Z) idx w.
(** np.pad(a, w, 'constant', constant_values=c): negative widths raise ValueError *)
Definition np_pad {V} (c : V) (a : nda V) (w : list (Z * Z)) : res (nda V) :=
  if negb (Nat.eqb (length w) (length (a_shape a))) then Err ValueError
  else if negb (forallb (fun p => (0 <=? fst p)%Z && (0 <=? snd p)%Z) w) then Err ValueError
  else Ok (mkarr (pad_shape (a_shape a) w)
                 (fun idx => let j := pad_index idx w in
                             if in_shape (a_shape a) j then a_at a j else c)).

(** The largest number of dimensions of a numpy array: 64 (32 before numpy 2). *)
Definition max_dims : nat := 64%nat.

(** [a[..., np.newaxis]] for an array with less than max_dims dimensions *)
Definition np_newaxis {V} (a : nda V) : nda V :=
  mkarr (a_shape a ++ [1%Z]) (fun idx => a_at a (removelast idx)).

(** np.squeeze *)
Fixpoint squeezed_from (k : nat) (sh : list Z) : list nat :=
  match sh with
  | [] => []
  | n :: sh' => if (n =? 1)%Z then k :: squeezed_from (S k) sh' else squeezed_from (S k) sh'
  end.
Definition np_squeeze {V} (a : nda V) : nda V :=
  let ones := squeezed_from 0 (a_shape a) in
  mkarr (kept ones (a_shape a))
        (fun idx => a_at a (merge_idx (length (a_shape a)) ones idx (map (fun _ => 0%Z) ones))).

(** a 1-d array reshaped to [1,..,n,..,1] with n at position k of d dimensions
    (np.reshape(l, shape) in datahandling.py 1734-1736, 1773-1776) *)
Definition np_along (d k : nat) (l : list Q) : nda Q :=
  mkarr (upd (repeat 1%Z d) k (Z.of_nat (length l)))
        (fun idx => nth (Z.to_nat (nth k idx 0%Z)) l 0).
