(** Objects of class Field with their shared parts, /repo/postpic/datahandling.py 561-655, 754-852,
    914-926, 943-952, 1057-1060, 1560-1629, 2318-2346.  No proofs in this file.

    A Field object refers to a numpy array, which is a view into a block of memory, and to three
    lists: axes, axes_transform_state, transformed_axes_origins.  Blocks and lists can be shared by
    several objects; names, units and Axis objects are immutable.  What an operation computes is
    taken from FieldModel; here it is decided which parts of the result are new.

    Not modelled: infos (copied by copy, never written by the other methods modelled here), a
    _matrix which is itself a Field (flip, rot90), real and imag, the [out] argument except for
    the in-place operators, copies of numpy arrays in another memory order. *)
From Verif Require Import PyBase NumpyModel AxisModel NdModel FieldModel.

Record obj := mkobj {
  o_block : nat;                 (* block of memory of the array *)
  o_view : nda (list Z);         (* shape of the array; place in the block of every element *)
  o_axes : nat;
  o_ats : nat;
  o_tao : nat;
  o_name : string;
  o_unit : string
}.
Record world := mkworld {
  w_objs : list obj;
  w_blocks : list (nda Q);
  w_axes : list (list axis);
  w_ats : list (list (option bool));
  w_tao : list (list (option Q))
}.
Definition empty_world : world := mkworld [] [] [] [] [].

Definition get {A} (l : list A) (k : nat) : res A := match nth_error l k with Some x => Ok x | None => Err MemFault end.
(** the array of an object, as numbers and as places *)
Definition read_view (b : nda Q) (v : nda (list Z)) : nda Q := mkarr (a_shape v) (fun i => a_at b (a_at v i)).
Definition layer_of (w : world) (o : obj) : res layer :=
  let! axes := get (w_axes w) (o_axes o) in
  let! ats := get (w_ats w) (o_ats o) in
  let! tao := get (w_tao w) (o_tao o) in
  Ok (mkLayer axes ats tao (o_name o) (o_unit o)).
Definition matrix_of (w : world) (o : obj) : res (nda Q) := rmap (fun b => read_view b (o_view o)) (get (w_blocks w) (o_block o)).
(** what a caller sees of object x *)
Definition value (w : world) (x : nat) : res (field Q) :=
  let! o := get (w_objs w) x in
  let! a := matrix_of w o in
  let! l := layer_of w o in
  Ok (mkField a l []).
(** the same object, with places instead of numbers *)
Definition places (w : world) (x : nat) : res (field (list Z)) :=
  let! o := get (w_objs w) x in
  let! l := layer_of w o in
  Ok (mkField (o_view o) l []).

(** the identity view of a new block *)
Definition whole (sh : list Z) : nda (list Z) := mkarr sh (fun i => i).
(** an object all parts of which are new *)
Definition alloc_field (w : world) (f : field Q) : world * nat :=
  let o := mkobj (length (w_blocks w)) (whole (f_shape f)) (length (w_axes w)) (length (w_ats w)) (length (w_tao w)) (l_name (f_top f)) (l_unit (f_top f)) in
  (mkworld (w_objs w ++ [o]) (w_blocks w ++ [f_data f]) (w_axes w ++ [f_axes f]) (w_ats w ++ [f_ats f]) (w_tao w ++ [f_tao f]), length (w_objs w)).
(** new array and new list of axes, but the lists of states and origins given *)
Definition alloc_keep (w : world) (f : field Q) (ats tao : nat) : world * nat :=
  let o := mkobj (length (w_blocks w)) (whole (f_shape f)) (length (w_axes w)) ats tao (l_name (f_top f)) (l_unit (f_top f)) in
  (mkworld (w_objs w ++ [o]) (w_blocks w ++ [f_data f]) (w_axes w ++ [f_axes f]) (w_ats w) (w_tao w), length (w_objs w)).
(** a view of an existing block with new lists *)
Definition alloc_view (w : world) (block : nat) (v : nda (list Z)) (l : layer) : world * nat :=
  let o := mkobj block v (length (w_axes w)) (length (w_ats w)) (length (w_tao w)) (l_name l) (l_unit l) in
  (mkworld (w_objs w ++ [o]) (w_blocks w) (w_axes w ++ [l_axes l]) (w_ats w ++ [l_ats l]) (w_tao w ++ [l_tao l]), length (w_objs w)).

(** an array given by the caller: a new one, or the matrix of a Field *)
Inductive arr_arg := AFresh (a : nda Q) | AOf (y : nat).
Inductive view_op := VGet (keys : list ikey) | VTranspose (axes : option (list Z)) | VSqueeze | VAtleast (n : Z).
Inductive cmd :=
| CNew (f : field Q)                               (* Field(array, axes=[..], ..) with new arrays and lists *)
| CCopy (deep : bool) (x : nat)                    (* x.copy(deep) *)
| CReplace (x : nat) (a : arr_arg)                 (* x.replace_data(a) *)
| CMap (op : Q -> Q) (x : nat)                     (* -x, np.sin(x), x + 1, 2 * x *)
| CBinary (op : Q -> Q -> Q) (x y : nat)           (* x + y *)
| CArray (op : Q -> Q -> Q) (x : nat) (a : nda Q)  (* x + array *)
| CReduce (red : list Q -> Q) (x : nat) (ax : axisarg) (keep : bool)    (* x.sum(..) *)
| CView (v : view_op) (x : nat)                    (* x[..], x.transpose(..), x.squeeze(), x.atleast_nd(n) *)
| MSet (x : nat) (keys : list ikey) (v : Q)        (* x[..] = v *)
| MInplace (op : Q -> Q) (x : nat)                 (* x += 1 *)
| MMatrix (x : nat) (a : arr_arg)                  (* x.matrix = a *)
| MAxis (x : nat) (i : Z) (ax : axis)              (* x.setaxisobj(i, ax) *)
| MAts (x : nat) (i : Z) (b : option bool)         (* x.axes_transform_state[i] = b *)
| MTao (x : nat) (i : Z) (q : option Q).           (* x.transformed_axes_origins[i] = q *)

Definition apply_view {V} (spl : spline_fn) (v : view_op) (f : field V) : res (field V) :=
  match v with
  | VGet keys => field_getitem spl f keys
  | VTranspose axes => field_transpose f axes
  | VSqueeze => field_squeeze spl f
  | VAtleast n => field_atleast_nd spl f n
  end.
(** elements of a block at the given places become [f old] *)
Definition write (b : nda Q) (at_ : list (list Z)) (f : Q -> Q) : nda Q :=
  mkarr (a_shape b) (fun i => if existsb (idx_eqb i) at_ then f (a_at b i) else a_at b i).
Definition spots (v : nda (list Z)) : list (list Z) := map (a_at v) (all_idx (a_shape v)).

Definition with_blocks (w : world) (b : list (nda Q)) : world := mkworld (w_objs w) b (w_axes w) (w_ats w) (w_tao w).
(** x.matrix = other, 947-952; the array argument as block and view *)
Definition arg_array (w : world) (a : arr_arg) : res (world * (nat * nda (list Z))) :=
  match a with
  | AFresh b => Ok (with_blocks w (w_blocks w ++ [b]), (length (w_blocks w), whole (a_shape b)))
  | AOf y => let! o := get (w_objs w) y in Ok (w, (o_block o, o_view o))
  end.
Definition set_matrix (w : world) (x : nat) (a : arr_arg) : res world :=
  let! o := get (w_objs w) x in
  let! p := arg_array w a in
  let '(w', (b, v)) := p in
  if negb (idx_eqb (a_shape v) (a_shape (o_view o))) then Err ValueError
  else Ok (mkworld (upd (w_objs w') x (mkobj b v (o_axes o) (o_ats o) (o_tao o) (o_name o) (o_unit o))) (w_blocks w') (w_axes w') (w_ats w') (w_tao w')).
Definition shallow (w : world) (x : nat) : res (world * nat) :=
  let! o := get (w_objs w) x in
  let! l := layer_of w o in
  Ok (alloc_view w (o_block o) (o_view o) l).

(** a world and the object created or modified *)
Definition run (spl : spline_fn) (c : cmd) (w : world) : res (world * nat) :=
  match c with
  | CNew f => Ok (alloc_field w f)
  | CCopy true x => let! f := value w x in Ok (alloc_field w f)                    (* 636-655 *)
  | CCopy false x => shallow w x
  | CReplace x a => let! _ := arg_array w a in let! p := shallow w x in let! w' := set_matrix (fst p) (snd p) a in Ok (w', snd p)   (* 1057-1060 *)
  | CMap op x =>                                                                    (* 663-665, 774-778, 602-611 *)
      let! o := get (w_objs w) x in
      let! f := value w x in
      let! g := field_map op f in
      Ok (alloc_keep w g (o_ats o) (o_tao o))
  | CBinary op x y => let! f := value w x in let! g := value w y in let! r := field_op2 op f g in Ok (alloc_field w r)
  | CArray op x a => let! f := value w x in let! r := field_op_array op f a in Ok (alloc_field w r)
  | CReduce red x ax keep => let! f := value w x in let! r := field_reduce spl red f ax keep in Ok (alloc_field w r)
  | CView (VAtleast n) x =>                                                         (* 1593: the object itself *)
      let! o := get (w_objs w) x in
      let! p := places w x in
      if (n <=? dims (a_shape (o_view o)))%Z then Ok (w, x)
      else let! r := apply_view spl (VAtleast n) p in Ok (alloc_view w (o_block o) (f_data r) (f_top r))
  | CView v x =>
      let! o := get (w_objs w) x in
      let! p := places w x in
      let! r := apply_view spl v p in
      match f_shape r, v with
      | [], VGet _ | [], VSqueeze =>                                                (* one number, not a view *)
          let! f := value w x in let! s := apply_view spl v f in Ok (alloc_field w s)
      | _, _ => Ok (alloc_view w (o_block o) (f_data r) (f_top r))
      end
  | MSet x keys v =>                                                                (* 2343-2346 *)
      let! o := get (w_objs w) x in
      let! l := layer_of w o in
      let! sls := normalize_slices (l_axes l) (a_shape (o_view o)) keys in
      let! r := np_getitem (o_view o) sls in
      let! b := get (w_blocks w) (o_block o) in
      Ok (with_blocks w (upd (w_blocks w) (o_block o) (write b (spots r) (fun _ => v))), x)
  | MInplace op x =>                                                                (* 823-836 *)
      let! o := get (w_objs w) x in
      let! b := get (w_blocks w) (o_block o) in
      Ok (with_blocks w (upd (w_blocks w) (o_block o) (write b (spots (o_view o)) op)), x)
  | MMatrix x a => let! w' := set_matrix w x a in Ok (w', x)
  | MAxis x i ax =>
      let! o := get (w_objs w) x in
      let! axes := get (w_axes w) (o_axes o) in
      let! axes' := setaxisobj axes (a_shape (o_view o)) i ax in
      Ok (mkworld (w_objs w) (w_blocks w) (upd (w_axes w) (o_axes o) axes') (w_ats w) (w_tao w), x)
  | MAts x i b =>
      let! o := get (w_objs w) x in
      let! ats := get (w_ats w) (o_ats o) in
      let! ats' := setidx ats i b in
      Ok (mkworld (w_objs w) (w_blocks w) (w_axes w) (upd (w_ats w) (o_ats o) ats') (w_tao w), x)
  | MTao x i q =>
      let! o := get (w_objs w) x in
      let! tao := get (w_tao w) (o_tao o) in
      let! tao' := setidx tao i q in
      Ok (mkworld (w_objs w) (w_blocks w) (w_axes w) (w_ats w) (upd (w_tao w) (o_tao o) tao'), x)
  end.
(** a program: commands which raise have no effect on the fields; the objects which resulted *)
Fixpoint exec (spl : spline_fn) (cs : list cmd) (w : world) : world * list (res nat) :=
  match cs with
  | [] => (w, [])
  | c :: r => match run spl c w with
              | Ok (w', x) => let (w2, l) := exec spl r w' in (w2, Ok x :: l)
              | Err e => let (w2, l) := exec spl r w in (w2, Err e :: l)
              end
  end.
