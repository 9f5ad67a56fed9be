(** Assigning to a part of a Field: Field.__setitem__, datahandling.py 2343-2345, with
    _normalize_slices (2308-2315) as in FieldModel.  No proofs in this file.

    The numbers assigned are of the type of the array (numpy's casts are not modelled).  Parts of
    the same array as value are read before anything is written, as numpy does. *)
From Verif Require Import PyBase NumpyModel AxisModel NdModel FieldModel.

(** ** [a[k0, k1, ..] = v] in numpy *)
(** May an array of shape [s] be assigned to a part of shape [t]?  Both from the last dimension on:
    equal lengths or 1; further dimensions of the value must have length 1. *)
Fixpoint fits (s t : list Z) : bool :=
  match s, t with
  | [], _ => true
  | n :: s', [] => (n =? 1)%Z && fits s' []
  | n :: s', m :: t' => ((n =? m) || (n =? 1))%Z && fits s' t'
  end.
(** the index into the value, both from the last dimension on *)
Fixpoint source (s idx : list Z) : list Z :=
  match s, idx with
  | [], _ => []
  | _ :: s', [] => 0%Z :: source s' []
  | n :: s', i :: idx' => (if (n =? 1)%Z then 0%Z else i) :: source s' idx'
  end.
Definition broadcast_to {V} (v : nda V) (t : list Z) : res (nda V) :=
  if fits (rev (a_shape v)) (rev t)
  then Ok (mkarr t (fun idx => a_at v (rev (source (rev (a_shape v)) (rev idx)))))
  else Err ValueError.
(** one number is written *)
Definition put_one {V} (d : list Z -> V) (at_ : list Z) (x : V) : list Z -> V := fun i => if idx_eqb i at_ then x else d i.
Definition np_setitem {V} (a : nda V) (ks : list (Z + slice)) (v : nda V) : res (nda V) :=
  let! ss := sels_of (a_shape a) ks in
  let! w := broadcast_to v (sel_shape ss) in
  Ok (mkarr (a_shape a) (fold_left (fun d j => put_one d (sel_index ss j) (a_at w j)) (all_idx (sel_shape ss)) (a_at a))).

(** ** Field.__setitem__ *)
(** [self._matrix[key] = other] where _matrix is a Field again (flip, rot90) or an array; normalised
    keys stay what they are when they are normalised again *)
Fixpoint data_setitem {V} (ls : list layer) (a : nda V) (sls : list (Z + slice)) (v : nda V) : res (nda V) :=
  match ls with
  | [] => np_setitem a sls v
  | l :: ls' =>
      if negb (Z.of_nat (length sls) =? dims (a_shape a))%Z then Err IndexError
      else data_setitem ls' a (firstn (length (l_axes l)) sls) v
  end.
(** [f[keys] = v]: the Field afterwards *)
Definition field_setitem {V} (f : field V) (keys : list ikey) (v : nda V) : res (field V) :=
  let! sls := normalize_slices (f_axes f) (f_shape f) keys in
  let! b := data_setitem (f_inner f) (f_data f) sls v in
  Ok (mkField b (f_top f) (f_inner f)).
(** a number as value *)
Definition scalar {V} (x : V) : nda V := mkarr [] (fun _ => x).
