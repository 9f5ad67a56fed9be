(** Model of class Field, /repo/postpic/datahandling.py 466-2345 (without the
    Fourier transforms, which are in FftModel).  No proofs in this file.

    The attribute _matrix of a Field is a numpy array, or again a Field: flip
    (1673) passes a Field to np.flip, which indexes it and therefore returns a
    Field.  A field of the model is an array [f_data] of plain numbers together
    with its own attributes [f_top] and the attributes [f_inner] of the Fields
    wrapped in its _matrix, outermost first; a field with [f_inner = []] has a
    plain array as _matrix.

    Simplifications: infos, infostring and label are dropped (no modelled
    operation reads them); aliasing of the per-axis lists is ignored here (see
    HeapModel); the [out] arguments are not modelled; numbers are exact. *)
From Coq Require Import Qround.
From Verif Require Import PyBase NumpyModel AxisModel NdModel.

Record layer := mkLayer {
  l_axes : list axis;
  l_ats : list (option bool);   (* axes_transform_state *)
  l_tao : list (option Q);      (* transformed_axes_origins *)
  l_name : string;
  l_unit : string
}.
Record field (V : Type) := mkField { f_data : nda V; f_top : layer; f_inner : list layer }.
Arguments mkField {V} f_data f_top f_inner.
Arguments f_data {V} f.
Arguments f_top {V} f.
Arguments f_inner {V} f.

Definition f_shape {V} (f : field V) : list Z := a_shape (f_data f).
Definition f_axes {V} (f : field V) : list axis := l_axes (f_top f).
Definition f_ats {V} (f : field V) : list (option bool) := l_ats (f_top f).
Definition f_tao {V} (f : field V) : list (option Q) := l_tao (f_top f).

(** Field.dimensions, 980-991 *)
Definition dims (sh : list Z) : Z :=
  if (zprod sh =? 0)%Z then (-1)%Z else Z.of_nat (length sh).

(** helper.axesidentify, helper.py 81-86, on integers *)
Definition axesidentify (i : Z) : res Z :=
  if ((i =? 0) || (i =? 1) || (i =? 2) || (i =? 90) || (i =? 91))%Z then Ok i else Err KeyError.

(** Field.setaxisobj, 914-926 *)
Definition setaxisobj (axes : list axis) (sh : list Z) (i : Z) (ax : axis) : res (list axis) :=
  let! id := axesidentify i in
  let! n := getidx sh (id mod 90) in
  if (ax_len ax =? n)%Z then setidx axes (id mod 90) ax else Err ValueError.

(** 579-581: self.axes = [None] * ndim followed by setaxisobj for every supplied
    axis; an entry None fails in len(axisobj) *)
Fixpoint init_axes (sh : list Z) (i : Z) (axs : list (option axis)) : res (list axis) :=
  match axs with
  | [] => Ok []
  | a :: rest =>
      let! id := axesidentify i in
      match a with
      | None => Err TypeError
      | Some ax =>
          let! n := getidx sh (id mod 90) in
          if (ax_len ax =? n)%Z
          then let! r := init_axes sh (i + 1) rest in Ok (ax :: r)
          else Err ValueError
      end
  end.

(** Field(matrix, name, unit, axes=.., axes_transform_state=.., transformed_axes_origins=..),
    561-612 *)
Definition field_of {V} (a : nda V) (name unit : string) (axs : list (option axis))
    (ats : list (option bool)) (tao : list (option Q)) : res (field V) :=
  if (length axs <? length (a_shape a))%nat then Err ValueError
  else
    let! axes := init_axes (a_shape a) 0 axs in
    Ok (mkField a (mkLayer axes ats tao name unit) []).

(** _addaxisobj, _addaxisnodes, _addaxis, 888-912 *)
Definition add_axis (sh : list Z) (axes : list axis) (ax : axis) : res (list axis) :=
  let! n := getidx sh (Z.of_nat (length axes)) in
  if (n =? ax_len ax)%Z then Ok (axes ++ [ax]) else Err ValueError.
Definition add_default (spl : spline_fn) (name : string) (sh : list Z) (axes : list axis) : res (list axis) :=
  let! n := getidx sh (Z.of_nat (length axes)) in
  let! ax := mk_axis spl name "" None None (Some (0, 1)) (Some n) in
  add_axis sh axes ax.
Definition add_nodes (spl : spline_fn) (name : string) (nodes : list Q) (sh : list Z) (axes : list axis)
    : res (list axis) :=
  let! ax := mk_axis spl name "" (Some nodes) None None None in
  add_axis sh axes ax.
(** one of 583-594: explicit edges, else a default axis if there are enough dimensions *)
Definition edge_axis (spl : spline_fn) (name : string) (edges : option (list Q)) (d : Z) (sh : list Z)
    (axes : list axis) : res (list axis) :=
  match edges with
  | Some e => add_nodes spl name e sh axes
  | None => if (d <? dims sh)%Z then add_default spl name sh axes else Ok axes
  end.
(** Field(matrix, name, unit, xedges=.., yedges=.., zedges=..), 561-612 *)
Definition field_new {V} (spl : spline_fn) (m : nda V) (name unit : string)
    (xe ye ze : option (list Q)) : res (field V) :=
  let a := match xe with Some _ => m | None => np_squeeze m end in
  let sh := a_shape a in
  let! axes := edge_axis spl "x" xe 0 sh [] in
  let! axes := edge_axis spl "y" ye 1 sh axes in
  let! axes := edge_axis spl "z" ze 2 sh axes in
  Ok (mkField a (mkLayer axes (repeat (Some false) (length sh)) (repeat None (length sh)) name unit) []).

(** * Indexing *)
(** Field._normalize_slices, 2308-2315 *)
Definition normalize_slices (axes : list axis) (sh : list Z) (keys : list ikey) : res (list (Z + slice)) :=
  if negb (Z.of_nat (length keys) =? dims sh)%Z then Err IndexError
  else mapM (fun p => normalize_slice (fst p) (snd p)) (combine axes keys).

(** [self.axes[i][sl]] for a normalised key, 2325-2330: None when the axis is dropped *)
Definition sub_axis (spl : spline_fn) (p : axis * (Z + slice)) : res (option axis) :=
  match snd p with
  | inl i => rmap (fun _ => None) (getidx (ax_grid (fst p)) i)
  | inr sl => rmap Some (axis_slice spl (fst p) sl)
  end.
(** retained_axes of 2323-2330 *)
Definition retained (n : nat) (subs : list (option axis)) : list nat :=
  filter (fun i => match nth_error subs i with Some None => false | _ => true end) (seq 0 n).
Fixpoint somes {A} (l : list (option A)) : list A :=
  match l with [] => [] | Some x :: r => x :: somes r | None :: r => somes r end.
Definition pick {A} (l : list A) (ps : list nat) : res (list A) :=
  mapM (fun i => getidx l (Z.of_nat i)) ps.
(** 2336-2337 *)
Fixpoint set_axes (axes : list axis) (sh : list Z) (i : Z) (news : list axis) : res (list axis) :=
  match news with
  | [] => Ok axes
  | ax :: rest => let! axes' := setaxisobj axes sh i ax in set_axes axes' sh (i + 1) rest
  end.

(** Field.__getitem__, 2318-2341, for normalised keys (normalising integers and
    integer slices again changes nothing).  [ls] are the attributes of the nested
    Fields, outermost first; with no Field left it is numpy indexing. *)
Fixpoint data_getitem {V} (spl : spline_fn) (ls : list layer) (a : nda V) (sls : list (Z + slice))
    : res (list layer * nda V) :=
  match ls with
  | [] => let! b := np_getitem a sls in Ok ([], b)
  | l :: ls' =>
      if negb (Z.of_nat (length sls) =? dims (a_shape a))%Z then Err IndexError
      else
        let sls' := firstn (length (l_axes l)) sls in
        let! subs := mapM (sub_axis spl) (combine (l_axes l) sls') in
        let! ib := data_getitem spl ls' a sls' in
        let '(inner, b) := ib in
        let keep := retained (length (a_shape a)) subs in
        let! axes := pick (l_axes l) keep in
        let! axes := set_axes axes (a_shape b) 0 (somes subs) in
        let! ats := pick (l_ats l) keep in
        let! tao := pick (l_tao l) keep in
        Ok (mkLayer axes ats tao (l_name l) (l_unit l) :: inner, b)
  end.
Definition field_getitem {V} (spl : spline_fn) (f : field V) (keys : list ikey) : res (field V) :=
  let! sls := normalize_slices (f_axes f) (f_shape f) keys in
  let! r := data_getitem spl (f_top f :: f_inner f) (f_data f) sls in
  match r with
  | (l :: ls, b) => Ok (mkField b l ls)
  | ([], _) => Err TypeError      (* not reachable *)
  end.
(** slice(start, stop, step) as a key *)
Definition key_of_slice (sl : slice) : ikey :=
  IKey (KSlice (option_map NInt (s_start sl)) (option_map NInt (s_stop sl)) (s_step sl)).

(** Field._extent_to_slices and cutout, 2301-2306 and 1472-1477 *)
Definition field_cutout {V} (spl : spline_fn) (f : field V) (ext : list (num * num)) : res (field V) :=
  if negb (Z.of_nat (length ext) =? dims (f_shape f))%Z then Err TypeError
  else
    let! sls := mapM (fun p => extent_to_slice (fst p) (Some (fst (snd p))) (Some (snd (snd p))))
                     (combine (f_axes f) ext) in
    field_getitem spl f (map key_of_slice sls).

(** * Rearranging *)
(** Field.transpose( *axes ), 1609-1629, with one argument per dimension *)
Fixpoint data_transpose {V} (ls : list layer) (a : nda V) (axes : list Z) : res (list layer * nda V) :=
  match ls with
  | [] => let! b := np_transpose a axes in Ok ([], b)
  | l :: ls' =>
      if negb (Z.of_nat (length axes) =? dims (a_shape a))%Z then Err ValueError
      else
        let! axs := mapM (getidx (l_axes l)) axes in
        let! ib := data_transpose ls' a axes in
        let '(inner, b) := ib in
        Ok (mkLayer axs (l_ats l) (l_tao l) (l_name l) (l_unit l) :: inner, b)
  end.
Definition zlist (n : nat) : list Z := map Z.of_nat (seq 0 n).
Definition field_transpose {V} (f : field V) (axes : option (list Z)) : res (field V) :=
  let axes := match axes with
              | Some l => l
              | None => rev (zlist (Z.to_nat (dims (f_shape f))))   (* 1617 *)
              end in
  let! r := data_transpose (f_top f :: f_inner f) (f_data f) axes in
  match r with
  | (l :: ls, b) => Ok (mkField b l ls)
  | ([], _) => Err TypeError      (* not reachable *)
  end.
(** transpose(seq) with one sequence argument, 1616-1621: in one dimension the
    sequence itself is taken for the axis number *)
Definition field_transpose_seq {V} (f : field V) (axes : list Z) : res (field V) :=
  if (dims (f_shape f) =? 1)%Z then Err TypeError else field_transpose f (Some axes).

(** Field.swapaxes, 1639-1646 *)
Definition field_swapaxes {V} (f : field V) (axis1 axis2 : Z) : res (field V) :=
  let! l := setidx (zlist (Z.to_nat (dims (f_shape f)))) axis1 axis2 in
  let! l := setidx l axis2 axis1 in
  field_transpose f (Some l).

Definition full_slice : slice := mkslice None None None.
Definition rev_slice : slice := mkslice None None (Some (-1)%Z).

(** Field.flip, 1665-1676.  np.flip(field, axis) is field[:, .., ::-1, .., :]. *)
Definition field_flip {V} (spl : spline_fn) (f : field V) (axis : Z) : res (field V) :=
  let n := length (f_shape f) in
  let! p := py_pos n axis in
  let! g := field_getitem spl f (map key_of_slice (upd (repeat full_slice n) p rev_slice)) in
  if negb (idx_eqb (f_shape g) (f_shape f)) then Err ValueError   (* 952 *)
  else
    let! ax := getidx (f_axes f) axis in
    let! ax' := axis_reversed spl ax in
    let! axes := setidx (f_axes f) axis ax' in
    Ok (mkField (f_data g)
                (mkLayer axes (f_ats f) (f_tao f) (l_name (f_top f)) (l_unit (f_top f)))
                (f_top g :: f_inner g)).

(** Field.rot90, 1678-1709 *)
Definition field_rot90 {V} (spl : spline_fn) (f : field V) (k a0 a1 : Z) : res (field V) :=
  let n := Z.of_nat (length (f_shape f)) in
  if (a0 =? a1)%Z then Err ValueError
  else if ((n <=? a0) || (a0 <? - n) || (n <=? a1) || (a1 <? - n))%Z then Err ValueError
  else
    let k := (k mod 4)%Z in
    if (k =? 0)%Z then Ok f
    else if (k =? 2)%Z then let! g := field_flip spl f a0 in field_flip spl g a1
    else
      let l := zlist (length (f_shape f)) in
      let! x0 := getidx l a0 in
      let! x1 := getidx l a1 in
      let! l := setidx l a0 x1 in
      let! l := setidx l a1 x0 in
      if (k =? 1)%Z
      then let! g := field_flip spl f a1 in field_transpose_seq g l
      else let! g := field_transpose_seq f l in field_flip spl g a1.

(** Field.squeeze(), 1560-1587 *)
Definition field_squeeze {V} (spl : spline_fn) (f : field V) : res (field V) :=
  let! ones := mapM (fun i => rmap (fun ax => (ax_len ax =? 1)%Z) (getidx (f_axes f) (Z.of_nat i)))
                    (seq 0 (length (f_shape f))) in
  let keys := map (fun b : bool => if b then IKey (KNum (NInt 0)) else key_of_slice full_slice) ones in
  let! ret := field_getitem spl f keys in
  if idx_eqb (map ax_len (f_axes ret)) (f_shape ret) then Ok ret else Err AssertionError.

(** Field._transform_state(), 1870-1889; positions 0 .. dimensions-1 *)
Definition transform_state {V} (f : field V) : res (option bool) :=
  let! st := mapM (fun i => getidx (f_ats f) (Z.of_nat i)) (seq 0 (Z.to_nat (dims (f_shape f)))) in
  if forallb (fun s => match s with Some true => true | _ => false end) st then Ok (Some true)
  else if forallb (fun s => match s with Some false => true | _ => false end) st then Ok (Some false)
  else Ok None.

(** Field.atleast_nd, 1589-1607.  On a wrapped Field _matrix[..., np.newaxis] goes
    through Field.__getitem__ with the two keys Ellipsis and None: IndexError unless
    it has two dimensions; in two dimensions every axis of the wrapped Field is
    dropped, and a second turn of the loop fails. *)
Definition bare (l : layer) : layer := mkLayer [] [] [] (l_name l) (l_unit l).
Fixpoint add_dims {V} (spl : spline_fn) (st : option bool) (k : nat) (f : field V) : res (field V) :=
  match k with
  | O => Ok f
  | S k' =>
      let wrapped := match f_inner f with [] => false | _ => true end in
      if wrapped && negb (dims (f_shape f) =? 2)%Z then Err IndexError
      else if (max_dims <=? length (f_shape f))%nat then Err IndexError     (* numpy *)
      else
        let! ax := mk_axis spl "" "" (Some [- qhalf; qhalf]) None None None in
        let l := f_top f in
        add_dims spl st k'
          (mkField (np_newaxis (f_data f))
                   (mkLayer (l_axes l ++ [ax]) (l_ats l ++ [st]) (l_tao l ++ [None]) (l_name l) (l_unit l))
                   (map bare (f_inner f)))
  end.
Definition field_atleast_nd {V} (spl : spline_fn) (f : field V) (n : Z) : res (field V) :=
  if (n <=? dims (f_shape f))%Z then Ok f
  else
    let! st := transform_state f in
    add_dims spl st (Z.to_nat (n - dims (f_shape f))) f.

(** * Reductions *)
Fixpoint insert_Z (x : Z) (l : list Z) : list Z :=
  match l with [] => [x] | y :: l' => if (x <=? y)%Z then x :: l else y :: insert_Z x l' end.
Definition sort_Z (l : list Z) : list Z := fold_right insert_Z [] l.
(** set(l), sorted *)
Fixpoint mem_Z (x : Z) (l : list Z) : bool :=
  match l with [] => false | y :: l' => (x =? y)%Z || mem_Z x l' end.
Fixpoint dedup_Z (l : list Z) : list Z :=
  match l with [] => [] | x :: l' => if mem_Z x l' then dedup_Z l' else x :: dedup_Z l' end.
Definition sorted_set (l : list Z) : list Z := sort_Z (dedup_Z l).

(** 487-489 *)
Fixpoint shrink_axes (spl : spline_fn) (axes : list axis) (is : list Z) : res (list axis) :=
  match is with
  | [] => Ok axes
  | i :: rest =>
      let! ax := getidx axes i in
      let! ax' := mk_axis spl (ax_name ax) (ax_unit ax) None None (Some (ax_extent ax)) (Some 1%Z) in
      let! axes' := setidx axes i ax' in
      shrink_axes spl axes' rest
  end.
(** 491-494 and 800-803: the indices are deleted one after the other *)
Fixpoint del_all {A} (l : list A) (is : list Z) : res (list A) :=
  match is with [] => Ok l | i :: rest => let! l' := delidx l i in del_all l' rest end.

(** 475-479 *)
Definition axisiter (d : Z) (ax : axisarg) : list Z :=
  match ax with
  | AxNone => zlist (Z.to_nat d)
  | AxInt i => [i]
  | AxTuple l => l
  end.
(** _reducing_numpy_method, 466-526: all, any, max, min, prod, sum, ptp, std, mean,
    var (1648-1657); red combines the samples *)
Definition field_reduce {V} (spl : spline_fn) (red : list V -> V) (f : field V) (ax : axisarg)
    (keepdims : bool) : res (field V) :=
  let is := axisiter (dims (f_shape f)) ax in
  let l := f_top f in
  let! aat :=
    (if keepdims then
       let! axes := shrink_axes spl (l_axes l) is in Ok (axes, l_ats l, l_tao l)
     else
       let order := rev (sort_Z is) in
       let! axes := del_all (l_axes l) order in
       let! tao := del_all (l_tao l) order in
       let! ats := del_all (l_ats l) order in
       Ok (axes, ats, tao)) in
  let '(axes, ats, tao) := aat in
  let! o := np_reduce red (f_data f) ax keepdims in
  field_of o (l_name l) (l_unit l) (map Some axes) ats tao.

(** __array_ufunc__ with method 'reduce', 792-803 and 850: np.add.reduce(field, axis=..) *)
Definition field_ufunc_reduce {V} (red : list V -> V) (f : field V) (ax : axisarg) : res (field V) :=
  let l := f_top f in
  let is := match ax with
            | AxNone => zlist (length (l_axes l))
            | AxInt i => [i]
            | AxTuple t => t
            end in
  let order := rev (sorted_set is) in
  let! axes := del_all (l_axes l) order in
  let! ats := del_all (l_ats l) order in
  let! tao := del_all (l_tao l) order in
  let! o := np_reduce red (f_data f) ax false in
  field_of o (l_name l) (l_unit l) (map Some axes) ats tao.

(** * Arithmetic *)
(** Unary ufuncs and binary ufuncs with a number: 663-665, 774-778, 850 *)
Definition field_map {V W} (op : V -> W) (f : field V) : res (field W) :=
  field_of (np_map op (f_data f)) (l_name (f_top f)) (l_unit (f_top f))
           (map Some (f_axes f)) (f_ats f) (f_tao f).

(** one entry of the per-axis lists *)
Definition entry := (option axis * option bool * option Q)%type.
Fixpoint zip3 (a : list axis) (s : list (option bool)) (t : list (option Q)) : res (list entry) :=
  match a, s, t with
  | [], [], [] => Ok []
  | x :: a', y :: s', z :: t' => let! r := zip3 a' s' t' in Ok ((Some x, y, z) :: r)
  | _, _, _ => Err IndexError
  end.
Definition layer_entries (l : layer) : res (list entry) := zip3 (l_axes l) (l_ats l) (l_tao l).
(** 673-677 *)
Definition plain_entries (ndim : nat) : list entry := repeat (None, None, None) ndim.

(** one turn of the loop 698-734 *)
Definition combine_entry (e1 e2 : entry) : res entry :=
  let '(a1, s1, t1) := e1 in
  let '(a2, s2, t2) := e2 in
  match a1, a2 with
  | None, _ => Ok e2
  | _, None => Ok e1
  | Some x1, Some x2 =>
      if (ax_len x1 =? ax_len x2)%Z then
        match t2 with None => Ok (a1, s1, t1) | Some _ => Ok (a1, s2, t2) end
      else if (ax_len x1 =? 1)%Z then Ok e2
      else if (ax_len x2 =? 1)%Z then Ok e1
      else Err ValueError
  end.
Fixpoint combine_rev (l1 l2 : list entry) : res (list entry) :=
  match l1, l2 with
  | [], _ => Ok l2
  | _, [] => Ok l1
  | e1 :: l1', e2 :: l2' =>
      let! e := combine_entry e1 e2 in
      let! r := combine_rev l1' l2' in Ok (e :: r)
  end.
(** _get_axes_ats_tao_binary_ufunc_broadcasting, 658-737 *)
Definition combine_entries (l1 l2 : list entry) : res (list entry) :=
  rmap (@rev entry) (combine_rev (rev l1) (rev l2)).

(** the properties of the result of a binary ufunc: 781-785.  An operand is a
    Field (its outermost layer is given) or an array of some dimension. *)
Definition op2_entries (la lb : option layer) (na nb : nat) : res (list entry) :=
  match la, lb with
  | Some l, Some m => let! e1 := layer_entries l in let! e2 := layer_entries m in combine_entries e1 e2
  | Some l, None => let! e1 := layer_entries l in combine_entries e1 (plain_entries nb)
  | None, Some m => let! e2 := layer_entries m in combine_entries e2 (plain_entries na)
  | None, None => Ok []
  end.
(** the ufunc applied to the unwrapped values, 823-830; these may be Fields again,
    whose result is converted to an array (564) *)
Fixpoint data_op2 {A B C} (fuel : nat) (op : A -> B -> C) (la lb : list layer) (a : nda A) (b : nda B)
    : res (nda C) :=
  match la, lb with
  | [], [] => np_map2 op a b
  | _, _ =>
      match fuel with
      | O => Err Diverges
      | S fuel' =>
          let! es := op2_entries (hd_error la) (hd_error lb) (length (a_shape a)) (length (a_shape b)) in
          let! c := data_op2 fuel' op (tl la) (tl lb) a b in
          let! _ := field_of c "" "" (map (fun e => fst (fst e)) es) [] [] in
          Ok c
      end
  end.
Definition wrap_op2 {A B C} (op : A -> B -> C) (ta tb : option layer) (la lb : list layer)
    (a : nda A) (b : nda B) : res (field C) :=
  let! es := op2_entries ta tb (length (a_shape a)) (length (a_shape b)) in
  let! c := data_op2 (length la + length lb) op la lb a b in
  let nu := match ta, tb with
            | Some l, _ => (l_name l, l_unit l)
            | None, Some l => (l_name l, l_unit l)
            | None, None => (""%string, ""%string)
            end in
  field_of c (fst nu) (snd nu) (map (fun e => fst (fst e)) es)
           (map (fun e => snd (fst e)) es) (map snd es).
(** field op field, field op array, array op field: 754-852 *)
Definition field_op2 {A B C} (op : A -> B -> C) (f : field A) (g : field B) : res (field C) :=
  wrap_op2 op (Some (f_top f)) (Some (f_top g)) (f_inner f) (f_inner g) (f_data f) (f_data g).
Definition field_op_array {A B C} (op : A -> B -> C) (f : field A) (b : nda B) : res (field C) :=
  wrap_op2 op (Some (f_top f)) None (f_inner f) [] (f_data f) b.
Definition array_op_field {A B C} (op : A -> B -> C) (a : nda A) (g : field B) : res (field C) :=
  wrap_op2 op None (Some (f_top g)) [] (f_inner g) a (f_data g).

(** ufunc.outer of two Fields, 804-812 *)
Definition field_outer {A B C} (op : A -> B -> C) (f : field A) (g : field B) : res (field C) :=
  let n := length (f_shape f) in
  field_of (mkarr (f_shape f ++ f_shape g)
                  (fun idx => op (a_at (f_data f) (firstn n idx)) (a_at (f_data g) (skipn n idx))))
           (l_name (f_top f)) (l_unit (f_top f))
           (map Some (f_axes f ++ f_axes g)) (f_ats f ++ f_ats g) (f_tao f ++ f_tao g).

(** * Resolution, padding *)
(** Field.half_resolution, 1171-1202 *)
Definition field_half_resolution (spl : spline_fn) (f : field Q) (axis : Z) : res (field Q) :=
  let! axis := axesidentify axis in
  let n := length (f_shape f) in
  let! m := getidx (f_shape f) axis in
  let lastpt := (m - m mod 2)%Z in
  let! s1 := setidx (repeat (inr full_slice) n) axis (inr (mkslice (Some 0%Z) (Some lastpt) (Some 2%Z))) in
  let! s2 := setidx (repeat (inr full_slice) n) axis (inr (mkslice (Some 1%Z) (Some lastpt) (Some 2%Z))) in
  let! d1 := data_getitem spl (f_inner f) (f_data f) s1 in
  let! d2 := data_getitem spl (f_inner f) (f_data f) s2 in
  let! d := np_map2 (fun x y => (x + y) / 2) (snd d1) (snd d2) in
  let! ax := getidx (f_axes f) axis in
  let! ax' := axis_half_resolution spl ax in
  let! axes := setaxisobj (f_axes f) (a_shape d) axis ax' in
  let! tao := setidx (f_tao f) axis None in
  Ok (mkField d (mkLayer axes (f_ats f) tao (l_name (f_top f)) (l_unit (f_top f))) []).

(** Field.autoreduce, 1460-1470.  The while loop runs on a step bound. *)
Fixpoint reduce_axis (fuel : nat) (spl : spline_fn) (maxlen : Z) (f : field Q) (i : Z) : res (field Q) :=
  let! ax := getidx (f_axes f) i in
  if (maxlen <? ax_len ax)%Z then
    match fuel with
    | O => Err Diverges
    | S fuel' => let! g := field_half_resolution spl f i in reduce_axis fuel' spl maxlen g i
    end
  else Ok f.
Fixpoint reduce_axes (fuel : nat) (spl : spline_fn) (maxlen : Z) (f : field Q) (is : list Z) : res (field Q) :=
  match is with
  | [] => Ok f
  | i :: rest => let! g := reduce_axis fuel spl maxlen f i in reduce_axes fuel spl maxlen g rest
  end.
Definition field_autoreduce (fuel : nat) (spl : spline_fn) (f : field Q) (maxlen : Z) : res (field Q) :=
  reduce_axes fuel spl maxlen f (zlist (length (f_axes f))).

(** The argument pad_width: a number for all axes, or one pair per axis (a number
    or a one-element list for an axis is a pair of equal entries, 1133-1140). *)
Inductive padarg := PadAll (p : num) | PadEach (l : list (num * num)).
(** 1118-1122 *)
Definition pad_list (d : Z) (p : padarg) : list (num * num) :=
  let l := match p with PadAll p => [(p, p)] | PadEach l => l end in
  match l with [x] => repeat x (Z.to_nat d) | _ => l end.
(** 1145-1149; division by a zero spacing does not give an integer *)
Definition pad_cells (dx : Q) (p : num) : res Z :=
  match p with
  | NInt z => Ok z
  | NReal q => if dx ==?q 0 then Err ValueError else Ok (Qceiling (q / dx))
  end.
(** one turn of the loop 1132-1161: the cell counts and the axis of the result *)
Definition pad_axis (spl : spline_fn) (ax : axis) (p : num * num) : res (Z * Z * axis) :=
  let! dx := spacing ax in
  let! p0 := pad_cells dx (fst p) in
  let! p1 := pad_cells dx (snd p) in
  if (p0 + p1 =? 0)%Z then Ok (p0, p1, ax)
  else
    let '(e0, e1) := ax_extent ax in
    let! ax' := mk_axis spl (ax_name ax) (ax_unit ax) None None
                        (Some (e0 - inject_Z p0 * dx, e1 + inject_Z p1 * dx))
                        (Some (Z.of_nat (length (ax_node ax)) - 1 + p0 + p1)%Z) in
    Ok (p0, p1, ax').
(** Field.pad(pad_width, mode='constant', constant_values=c), 1102-1169.  The test of
    1113 only fails for a field without axes. *)
Definition field_pad {V} (spl : spline_fn) (c : V) (f : field V) (p : padarg) : res (field V) :=
  let! lin := mapM islinear (f_axes f) in
  match lin with
  | [] => Err ValueError
  | _ =>
      let l := pad_list (dims (f_shape f)) p in
      if negb (Z.of_nat (length l) =? dims (f_shape f))%Z then Err ValueError
      else if (length (f_axes f) <? length l)%nat then Err IndexError   (* ret.axes[i] *)
      else
        let! r := mapM (fun q => pad_axis spl (fst q) (snd q)) (combine (f_axes f) l) in
        let! d := np_pad c (f_data f) (map fst r) in
        let tao := map2 (fun q t => if (fst (fst q) + snd (fst q) =? 0)%Z then t else None) r (f_tao f) in
        Ok (mkField d (mkLayer (map snd r ++ skipn (length r) (f_axes f)) (f_ats f)
                               (tao ++ skipn (length r) (f_tao f))
                               (l_name (f_top f)) (l_unit (f_top f))) [])
  end.

(** Field.fft_autopad, 1891-1927; padsize is the argument fft_padsize *)
Fixpoint autopad_list (padsize : Z -> Z) (sh : list Z) (axes : list Z) (l : list (num * num))
    : res (list (num * num)) :=
  match axes with
  | [] => Ok l
  | a :: rest =>
      let! ll := getidx sh a in
      let pad0 := (padsize ll - ll)%Z in
      let pad1 := (pad0 / 2)%Z in
      let! l' := setidx l a (NInt pad1, NInt (pad0 - pad1)) in
      autopad_list padsize sh rest l'
  end.
Definition field_fft_autopad {V} (spl : spline_fn) (c : V) (padsize : Z -> Z) (f : field V)
    (axes : option (list Z)) : res (field V) :=
  let d := Z.to_nat (dims (f_shape f)) in
  let axes := match axes with None => zlist d | Some l => l end in
  let! l := autopad_list padsize (f_shape f) axes (repeat (NInt 0, NInt 0) d) in
  field_pad spl c f (PadEach l).

(** * Integration and derivative *)
(** grid_node[1:] - grid_node[:-1], 1733 *)
Definition box_sizes (ax : axis) : list Q := np_diff (ax_node ax).
Definition rsum (l : list Q) : Q := fold_right Qplus 0 l.
(** Field._integrate_constant, 1722-1741 *)
Fixpoint times_boxes (f ret : field Q) (axes : list Z) : res (field Q) :=
  match axes with
  | [] => Ok ret
  | a :: rest =>
      let! ax := getidx (f_axes f) a in
      let! k := py_pos (Z.to_nat (dims (f_shape f))) a in
      let! ret' := field_op_array Qmult ret
                     (np_along (Z.to_nat (dims (f_shape f))) k (box_sizes ax)) in
      times_boxes f ret' rest
  end.
Definition integrate_constant (spl : spline_fn) (f : field Q) (axes : list Z) : res (field Q) :=
  let s := sorted_set axes in
  let! ret := times_boxes f f (rev s) in
  field_reduce spl rsum ret (AxTuple s) false.

(** Field._integrate_fast, 1753-1789: axes sorted by length (stable), the longest
    one first; the indices of the remaining axes are shifted *)
Fixpoint insert_by (key : Z -> Z) (x : Z) (l : list Z) : list Z :=
  match l with [] => [x] | y :: l' => if (key x <=? key y)%Z then x :: l else y :: insert_by key x l' end.
Definition sort_by (key : Z -> Z) (l : list Z) : list Z := fold_right (insert_by key) [] l.
Definition fast_step (f : field Q) (axis : Z) : res (field Q) :=
  let d := dims (f_shape f) in
  let! k := py_pos (Z.to_nat d) axis in               (* 1773-1774 *)
  let! n := getidx (f_shape f) axis in
  let! ax := getidx (f_axes f) axis in
  if negb (Z.of_nat (length (ax_node ax)) =? n + 1)%Z then Err ValueError   (* reshape *)
  else
    let! m := np_map2 Qmult (np_along (Z.to_nat d) k (box_sizes ax)) (f_data f) in
    let! m := np_reduce rsum m (AxInt axis) false in
    let l := f_top f in
    let! axes := delidx (l_axes l) axis in
    let! ats := delidx (l_ats l) axis in
    let! tao := delidx (l_tao l) axis in
    Ok (mkField m (mkLayer axes ats tao (l_name l) (l_unit l)) []).
Fixpoint fast_loop (fuel : nat) (f : field Q) (axes : list Z) : res (field Q) :=
  match axes with
  | [] => Ok f
  | a0 :: _ =>
      match fuel with
      | O => Err Diverges
      | S fuel' =>
          let axis := last axes a0 in
          let! g := fast_step f axis in
          fast_loop fuel' g (map (fun i => if (axis <? i)%Z then (i - 1)%Z else i) (removelast axes))
      end
  end.
Definition integrate_fast (f : field Q) (axes : list Z) : res (field Q) :=
  let! _ := mapM (getidx (f_shape f)) axes in
  let key := fun i => match getidx (f_shape f) i with Ok n => n | Err _ => 0%Z end in
  let s := sort_by key (sorted_set axes) in
  fast_loop (length s) f s.

(** Field._derivative_stagger, 1838-1853 *)
Definition derivative_stagger (spl : spline_fn) (f : field Q) (axis : Z) : res (field Q) :=
  let! oldax := getidx (f_axes f) axis in
  let! lin := islinear oldax in
  if negb lin then Err ValueError
  else
    let! g := getslice (ax_node oldax) (mkslice (Some 1%Z) (Some (-1)%Z) None) in
    let! ax := mk_axis spl (ax_name oldax) (ax_unit oldax) None (Some g) None None in
    let! axes := setidx (f_axes f) axis ax in
    let d := Z.to_nat (dims (f_shape f)) in
    let! i1 := setidx (repeat (inr full_slice) d) axis (inr (mkslice (Some 1%Z) None None)) in
    let! i2 := setidx (repeat (inr full_slice) d) axis (inr (mkslice (Some 0%Z) (Some (-1)%Z) None)) in
    let! d1 := data_getitem spl (f_inner f) (f_data f) i1 in
    let! d2 := data_getitem spl (f_inner f) (f_data f) i2 in
    let! dx := spacing oldax in
    let! m := np_map2 (fun x y => (x - y) / dx) (snd d1) (snd d2) in
    field_of m (String.append (l_name (f_top f)) "'") (l_unit (f_top f)) (map Some axes)
             (repeat (Some false) (length (a_shape m))) (repeat None (length (a_shape m))).

(** * autocutout *)
(** helper.max_frac_bounds, helper.py 430-438; np.max of an empty array raises *)
Definition list_max (l : list Q) : res Q :=
  match l with
  | [] => Err ValueError
  | x :: r => Ok (fold_left (fun m y => if m <?q y then y else m) r x)
  end.
Definition max_frac_bounds (l : list Q) (fraction : Q) : res (Z * Z) :=
  let! m := list_max l in
  let i := filter (fun k => (m * fraction) <?q nth k l 0) (seq 0 (length l)) in
  match i with
  | [] => Err IndexError
  | a :: _ => Ok (Z.of_nat a, (Z.of_nat (last i a) + 1)%Z)
  end.
(** 1523-1546: the slice chosen for a projection of length k, and the length of
    the part that is passed unchanged *)
Definition cutout_bounds (prof : list Q) (fr : Q * Q) : res (Z * Z * (Z * Z)) :=
  let k := Z.of_nat (length prof) in
  let! ad := max_frac_bounds prof (fst fr) in
  let! bc := max_frac_bounds prof (snd fr) in
  let '(a, d) := ad in
  let '(b, c) := bc in
  if negb ((a <=? b) && (b <=? c) && (c <=? d))%Z then Err AssertionError
  else
    let x := Z.max (d - c) (b - a) in
    let x := Z.min (Z.min x (k - c)) b in
    Ok ((b - x)%Z, (c + x)%Z, (b, c)).
(** mean of a list of samples *)
Definition rmean (l : list Q) : Q := rsum l / inject_Z (Z.of_nat (length l)).
(** 1518-1521: the mean along every other axis; after the removal of an axis the
    numbers of the following ones are those of the original field, so that a later
    removal hits another axis or fails *)
Fixpoint mean_others (spl : spline_fn) (axis : Z) (others : list Z) (f : field Q) : res (field Q) :=
  match others with
  | [] => Ok f
  | o :: rest =>
      if (o =? axis)%Z then mean_others spl axis rest f
      else let! g := field_reduce spl rmean f (AxInt o) false in mean_others spl axis rest g
  end.
(** the loop 1517-1550: one slice per requested axis and the windows; [win m alpha]
    is the window tukey(m, alpha) *)
Definition profile (f : field Q) : res (list Q) :=
  let! k := getidx (f_shape f) 0 in
  Ok (map (fun i => a_at (f_data f) [i]) (zrange k)).
Fixpoint cutout_slices (spl : spline_fn) (fr : Q * Q) (f : field Q) (axes : list Z)
    (slices : list slice) : res (list slice * list (Z * Z * Q)) :=
  match axes with
  | [] => Ok (slices, [])
  | axis :: rest =>
      let! fm := field_map qabs f in
      let! fm := mean_others spl axis (zlist (Z.to_nat (dims (f_shape f)))) fm in
      let! prof := profile fm in
      let! r := cutout_bounds prof fr in
      let '(e, ff, (b, c)) := r in
      let! slices' := setidx slices axis (mkslice (Some e) (Some ff) None) in
      let! rw := cutout_slices spl fr f rest slices' in
      let '(sl, ws) := rw in
      Ok (sl, (axis, (ff - e)%Z, 1 - inject_Z (c - b) / inject_Z (ff - e)) :: ws)
  end.
(** 1553-1558: multiply by every window *)
Fixpoint apply_windows (win : Z -> Q -> list Q) (d : nat) (ws : list (Z * Z * Q)) (a : nda Q) : res (nda Q) :=
  match ws with
  | [] => Ok a
  | (axis, m, alpha) :: rest =>
      let! k := py_pos d axis in
      let! b := np_map2 Qmult a (np_along d k (win m alpha)) in
      apply_windows win d rest b
  end.
(** Field.autocutout, 1479-1558 *)
Definition field_autocutout (spl : spline_fn) (win : Z -> Q -> list Q) (f : field Q)
    (axes : option (list Z)) (fr : Q * Q) : res (field Q) :=
  let! g := field_squeeze spl f in
  let d := Z.to_nat (dims (f_shape g)) in
  let axes := match axes with None => zlist d | Some l => l end in
  if negb (Nat.eqb (length axes) (length (dedup_Z axes))) then Err ValueError
  else
    let! r := cutout_slices spl fr g axes (repeat full_slice d) in
    let '(sls, ws) := r in
    let! h := field_getitem spl g (map key_of_slice sls) in
    let! a := apply_windows win d ws (f_data h) in
    if idx_eqb (a_shape a) (f_shape h) then Ok (mkField a (f_top h) []) else Err ValueError.

(** Field.map_axis_grid, 1204-1257; the user supplied functions are applied to
    every grid point *)
Definition map_axis_grid (spl : spline_fn) (f : field Q) (axis : Z) (transform jac : Q -> Q)
    (preserve_integral : bool) : res (field Q) :=
  let! axis := axesidentify axis in
  let! ax := getidx (f_axes f) axis in
  let! d :=
    (if preserve_integral then
       let d := Z.to_nat (dims (f_shape f)) in
       let! k := py_pos d axis in
       let! m := np_map2 Qdiv (f_data f) (np_along d k (map jac (ax_grid ax))) in
       if idx_eqb (a_shape m) (f_shape f) then Ok m else Err ValueError
     else Ok (f_data f)) in
  let! ax' := mk_axis spl (ax_name ax) (ax_unit ax)
                      (Some (map transform (ax_node ax))) (Some (map transform (ax_grid ax))) None None in
  let! axes := setidx (f_axes f) axis ax' in
  Ok (mkField d (mkLayer axes (f_ats f) (f_tao f) (l_name (f_top f)) (l_unit (f_top f)))
              (if preserve_integral then [] else f_inner f)).
