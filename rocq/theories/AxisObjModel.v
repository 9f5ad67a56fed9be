(** Axis objects with their arrays in memory and their caches: datahandling.py 117-230 (what is
    stored), __getstate__ (232-238), islinear (250-258), spacing (272-276), value_to_index and its
    two versions (294-313, 333-350); copies of an Axis by copy.copy, copy.deepcopy and pickle.
    No proofs in this file. *)
From Verif Require Import PyBase NumpyModel NdModel AxisModel.

(** An array: its numbers and flags.writeable. *)
Definition array := (list Q * bool)%type.
(** An Axis object; _grid_node and _grid are positions in memory.  _inv_map is an interp1d object,
    which keeps copies of the abscissae and the ordinates. *)
Record aobj := mkobj {
  b_name : string; b_unit : string; b_node : nat; b_grid : nat; b_extent : Q * Q; b_n : Z;
  b_linear : option bool; b_map : option (list Q * list Q) }.
Record world := mkworld { w_arrays : list array; w_objs : list aobj }.
Definition empty : world := mkworld [] [].

Inductive op :=
| New (name unit : string) (grid_node grid : option (list Q)) (extent : option (Q * Q)) (n : option Z)
| Copy (k : nat)                             (* copy.copy(ax) *)
| Deep (k : nat)                             (* copy.deepcopy(ax), pickle.loads(pickle.dumps(ax)) *)
| Rename (k : nat) (name : string)           (* ax.name = name *)
| Reunit (k : nat) (unit : string)           (* ax.unit = unit *)
| WriteGrid (k : nat) (i : Z) (v : Q)        (* ax.grid[i] = v *)
| WriteNode (k : nat) (i : Z) (v : Q)        (* ax.grid_node[i] = v *)
| Islinear (k : nat) (force : bool)
| Spacing (k : nat)
| Index (k : nat) (v : Q).                   (* ax.value_to_index(v) *)
Inductive answer := Done | Made (k : nat) | Bool (b : bool) | Num (q : Q).

Definition put (w : world) (k : nat) (b : aobj) : world := mkworld (w_arrays w) (upd (w_objs w) k b).
Definition array_at (w : world) (p : nat) : list Q := match nth_error (w_arrays w) p with Some a => fst a | None => [] end.
(** what the object shows *)
Definition shows (w : world) (b : aobj) : axis := mkAxis (b_name b) (b_unit b) (array_at w (b_node b)) (array_at w (b_grid b)) (b_extent b) (b_n b).
(** __init__: the arrays are made by np.array, np.linspace, np.convolve or the spline and belong to
    the object alone; they are locked at 217-218 *)
Definition new (spl : spline_fn) (w : world) name unit gn g ext n : world * res answer :=
  match mk_axis spl name unit gn g ext n with
  | Err e => (w, Err e)
  | Ok a =>
      let p := length (w_arrays w) in
      (mkworld (w_arrays w ++ [(ax_node a, false); (ax_grid a, false)])
         (w_objs w ++ [mkobj (ax_name a) (ax_unit a) p (S p) (ax_extent a) (ax_n a) None None]),
       Ok (Made (length (w_objs w))))
  end.
(** __getstate__: everything but _inv_map *)
Definition state (b : aobj) : aobj := mkobj (b_name b) (b_unit b) (b_node b) (b_grid b) (b_extent b) (b_n b) (b_linear b) None.
(** copy.copy: the attributes of the state are those of the new object *)
Definition shallow (w : world) (b : aobj) : world * res answer :=
  (mkworld (w_arrays w) (w_objs w ++ [state b]), Ok (Made (length (w_objs w)))).
(** deepcopy and pickle: the arrays are new ones, and numpy makes them writeable *)
Definition deep (w : world) (b : aobj) : world * res answer :=
  let p := length (w_arrays w) in let s := state b in
  (mkworld (w_arrays w ++ [(array_at w (b_node b), true); (array_at w (b_grid b), true)])
     (w_objs w ++ [mkobj (b_name s) (b_unit s) p (S p) (b_extent s) (b_n s) (b_linear s) (b_map s)]),
   Ok (Made (length (w_objs w)))).
(** array[i] = v *)
Definition write (w : world) (p : nat) (i : Z) (v : Q) : world * res answer :=
  match nth_error (w_arrays w) p with
  | None => (w, Err MemFault)
  | Some (l, writeable) =>
      if writeable
      then match setidx l i v with
           | Ok l' => (mkworld (upd (w_arrays w) p (l', writeable)) (w_objs w), Ok Done)
           | Err e => (w, Err e)
           end
      else (w, Err ValueError)
  end.
(** islinear, 250-258: the object after it, and the result *)
Definition is_linear (w : world) (b : aobj) (force : bool) : aobj * res bool :=
  if (b_n b <? 3)%Z then (b, Ok true)
  else match b_linear b, force with
       | Some x, false => (b, Ok x)
       | _, _ =>
           match h_islinear (array_at w (b_node b)) with
           | Ok x => (mkobj (b_name b) (b_unit b) (b_node b) (b_grid b) (b_extent b) (b_n b) (Some x) (b_map b), Ok x)
           | Err e => (b, Err e)
           end
       end.
(** 295-303 *)
Definition inverse_map (w : world) (b : aobj) : aobj * res (list Q * list Q) :=
  match b_map b with
  | Some m => (b, Ok m)
  | None =>
      let node := array_at w (b_node b) in let grid := array_at w (b_grid b) in
      if negb (Nat.eqb (length node) (S (length grid))) then (b, Err ValueError)
      else
        let gan := interleave node grid in
        match np_linspace (- qhalf) (inject_Z (b_n b) - qhalf) (Z.of_nat (length gan)) with
        | Ok idx => (mkobj (b_name b) (b_unit b) (b_node b) (b_grid b) (b_extent b) (b_n b) (b_linear b) (Some (gan, idx)), Ok (gan, idx))
        | Err e => (b, Err e)
        end
  end.
(** value_to_index, 347-350 with 294-313 *)
Definition to_index (w : world) (b : aobj) (v : Q) : aobj * res Q :=
  match is_linear w b false with
  | (b, Err e) => (b, Err e)
  | (b, Ok true) => (b, value_to_index_linear (shows w b) v)
  | (b, Ok false) =>
      match inverse_map w b with
      | (b, Err e) => (b, Err e)
      | (b, Ok m) => (b, interp1d (fst m) (snd m) (clip_to_extent (b_extent b) v))
      end
  end.
(** spacing, 272-276 *)
Definition node_spacing (w : world) (b : aobj) : aobj * res Q :=
  match is_linear w b false with
  | (b, Err e) => (b, Err e)
  | (b, Ok false) => (b, Err TypeError)
  | (b, Ok true) =>
      (b, let! n1 := getidx (array_at w (b_node b)) 1 in
          let! n0 := getidx (array_at w (b_node b)) 0 in Ok (qabs (n1 - n0)))
  end.
(** one statement of a program *)
Definition step (spl : spline_fn) (w : world) (o : op) : world * res answer :=
  let on k (f : aobj -> world * res answer) := match nth_error (w_objs w) k with Some b => f b | None => (w, Err NameError) end in
  match o with
  | New name unit gn g ext n => new spl w name unit gn g ext n
  | Copy k => on k (shallow w)
  | Deep k => on k (deep w)
  | Rename k s => on k (fun b => (put w k (mkobj s (b_unit b) (b_node b) (b_grid b) (b_extent b) (b_n b) (b_linear b) (b_map b)), Ok Done))
  | Reunit k s => on k (fun b => (put w k (mkobj (b_name b) s (b_node b) (b_grid b) (b_extent b) (b_n b) (b_linear b) (b_map b)), Ok Done))
  | WriteGrid k i v => on k (fun b => write w (b_grid b) i v)
  | WriteNode k i v => on k (fun b => write w (b_node b) i v)
  | Islinear k force => on k (fun b => let r := is_linear w b force in (put w k (fst r), rmap Bool (snd r)))
  | Spacing k => on k (fun b => let r := node_spacing w b in (put w k (fst r), rmap Num (snd r)))
  | Index k v => on k (fun b => let r := to_index w b v in (put w k (fst r), rmap Num (snd r)))
  end.
Definition run (spl : spline_fn) (h : list op) : world := fold_left (fun w o => fst (step spl w o)) h empty.
