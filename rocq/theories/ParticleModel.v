(** Model of postpic/particles/particles.py: _SingleSpecies (60-334), MultiSpecies
    (337-673, 961-1001), ParticleHistory (1169-1281).  Objects and boolean and id arrays
    are kept in a store, because they are shared and (some) modified in place. *)
From Coq Require Import Qround.
From Verif Require Import PyBase NumpyModel NdModel FieldModel HelperModel.

(** * Dumps *)
(** What the dumpreader returns for a particle property, and the attributes of
    _SingleSpecies computed from it: one value per particle or one for all (shape ()).
    [DVoid n] is an array of shape (0, n), the result of indexing with a 0-d False. *)
Inductive data := DScalar (q : Q) | DVec (l : list Q) | DVoid (n : nat).
Definition data_scalar (d : data) : bool := match d with DScalar _ => true | _ => false end.
(** A dumpreader: listSpecies(), time(), getSpecies(species, key) (None: KeyError; never
    DVoid), and identifyspecies(species)[key] for mass and charge (None: KeyError) *)
Record dump := mkdump {
  d_names : list string; d_time : Q;
  d_get : string -> string -> option data;
  d_guess : string -> string -> option Q }.
(** 75 *)
Definition atomicprops : list string :=
  ["weight"; "x"; "y"; "z"; "px"; "py"; "pz"; "mass"; "charge"; "id"; "time"]%string.

(** * The store *)
(** a view of a boolean buffer (numpy slices share memory) *)
Record view := mkview { v_buf : nat; v_off : nat; v_len : nat }.
(** _compressboollist: None, the 0-d array False, a 1-d boolean array *)
Inductive sel := SNone | SFalse | SArr (v : view).
(** a _SingleSpecies; the compresslog is left out *)
Record single := mksingle { s_dump : dump; s_name : string; s_sel : sel; s_cache : list (string * data) }.
(** boolean buffers, integer buffers, _SingleSpecies objects, and MultiSpecies objects
    (the list _ssas of references; name and compresslog left out) *)
Record world := mkworld { w_bools : list (list bool); w_ids : list (list Z); w_objs : list single; w_ms : list (list nat) }.
Definition empty_world : world := mkworld [] [] [] [].

(** python statements: a new store and a result; a raised exception keeps the store *)
Definition M (A : Type) := world -> world * res A.
Definition mret {A} (a : A) : M A := fun w => (w, Ok a).
Definition mraise {A} (e : exn) : M A := fun w => (w, Err e).
Definition mbind {A B} (m : M A) (f : A -> M B) : M B :=
  fun w => match m w with (w', Ok a) => f a w' | (w', Err e) => (w', Err e) end.
Notation "'do!' x ':=' m 'in' k" := (mbind m (fun x => k))
  (at level 200, x pattern, m at level 100, k at level 200, right associativity).
Definition mlift {A} (r : res A) : M A := fun w => (w, r).
Fixpoint mmap {A B} (f : A -> M B) (l : list A) : M (list B) :=
  match l with
  | [] => mret []
  | x :: r => do! y := f x in do! ys := mmap f r in mret (y :: ys)
  end.
Definition get_obj (i : nat) : M single :=
  fun w => (w, match nth_error (w_objs w) i with Some s => Ok s | None => Err MemFault end).
Definition put_obj (i : nat) (s : single) : M unit :=
  fun w => (mkworld (w_bools w) (w_ids w) (upd (w_objs w) i s) (w_ms w), Ok tt).
Definition new_obj (s : single) : M nat :=
  fun w => (mkworld (w_bools w) (w_ids w) (w_objs w ++ [s]) (w_ms w), Ok (length (w_objs w))).
Definition new_bools (l : list bool) : M nat :=
  fun w => (mkworld (w_bools w ++ [l]) (w_ids w) (w_objs w) (w_ms w), Ok (length (w_bools w))).
Definition new_ms (l : list nat) : M nat :=
  fun w => (mkworld (w_bools w) (w_ids w) (w_objs w) (w_ms w ++ [l]), Ok (length (w_ms w))).
Definition put_ms (m : nat) (l : list nat) : M unit :=
  fun w => (mkworld (w_bools w) (w_ids w) (w_objs w) (upd (w_ms w) m l), Ok tt).
Definition get_ms (m : nat) : M (list nat) :=
  fun w => (w, match nth_error (w_ms w) m with Some l => Ok l | None => Err MemFault end).
Definition read_view (w : world) (v : view) : list bool := firstn (v_len v) (skipn (v_off v) (nth (v_buf v) (w_bools w) [])).
Definition get_view (v : view) : M (list bool) := fun w => (w, Ok (read_view w v)).

(** * numpy *)
(** a[b] with a 1-d boolean array b *)
Fixpoint picked {A} (b : list bool) (l : list A) : list A :=
  match b, l with
  | x :: b', y :: l' => if x then y :: picked b' l' else picked b' l'
  | _, _ => []
  end.
Definition bool_index {A} (b : list bool) (l : list A) : res (list A) :=
  if (length b =? length l)%nat then Ok (picked b l) else Err IndexError.
(** a[a] = c for 1-d boolean arrays, len(c) = count_nonzero(a) *)
Fixpoint refine (a c : list bool) : list bool :=
  match a with
  | [] => []
  | true :: a' => match c with x :: c' => x :: refine a' c' | [] => a end
  | false :: a' => false :: refine a' c
  end.
Definition count_true (b : list bool) : nat := length (filter (fun x => x) b).
(** int(q) *)
Definition trunc (q : Q) : Z := if 0 <=?q q then Qfloor q else Qceiling q.

(** * _SingleSpecies *)
Fixpoint assoc {A} (k : string) (l : list (string * A)) : option A :=
  match l with [] => None | (k', x) :: r => if String.eqb k k' then Some x else assoc k r end.
(** 134-145 *)
Definition fetch (s : single) (key : string) : res data :=
  if String.eqb key "time" then Ok (DScalar (d_time (s_dump s)))
  else match d_get (s_dump s) (s_name s) key with
       | Some d => Ok d
       | None =>
           if String.eqb key "mass" || String.eqb key "charge" then
             match d_guess (s_dump s) (s_name s) key with Some q => Ok (DScalar q) | None => Err KeyError end
           else Err KeyError
       end.
(** 147 *)
Definition convert (key : string) (d : data) : data :=
  if String.eqb key "id" then
    let f q := inject_Z (trunc q) in
    match d with DScalar q => DScalar (f q) | DVec l => DVec (map f l) | DVoid n => DVoid n end
  else d.
Definition cached (s : single) (key : string) (d : data) : single :=
  mksingle (s_dump s) (s_name s) (s_sel s) ((key, d) :: s_cache s).
(** _readatomic, 125-155 *)
Definition readatomic (i : nat) (key : string) : M data :=
  do! s := get_obj i in
  match assoc key (s_cache s) with
  | Some d => mret d
  | None =>
      do! d := mlift (fetch s key) in
      let d := convert key d in
      match d, s_sel s with
      | DScalar _, _ => do! _ := put_obj i (cached s key d) in mret d
      | _, SNone => mret d
      | DVec l, SFalse => let d := DVoid (length l) in do! _ := put_obj i (cached s key d) in mret d
      | DVec l, SArr v =>
          do! b := get_view v in
          do! l' := mlift (bool_index b l) in
          do! _ := put_obj i (cached s key (DVec l')) in mret (DVec l')
      | DVoid _, _ => mraise MemFault
      end
  end.
(** __len__, 269-282 *)
Fixpoint len_keys (i : nat) (keys : list string) : M nat :=
  match keys with
  | [] => mret 0%nat
  | k :: r => fun w =>
      match readatomic i k w with
      | (w', Ok (DVec l)) => (w', Ok (length l))
      | (w', Ok _) => len_keys i r w'
      | (w', Err KeyError) | (w', Err TypeError) => len_keys i r w'
      | (w', Err e) => (w', Err e)
      end
  end.
Definition len_single (i : nat) : M nat :=
  do! s := get_obj i in
  match s_sel s with
  | SNone => len_keys i atomicprops
  | SFalse => mret 0%nat
  | SArr v => do! b := get_view v in mret (count_true b)
  end.
(** 229-231: the cache of the copy *)
Definition compress_cached (b : list bool) (d : data) : res data :=
  match d with
  | DScalar q => Ok (DScalar q)
  | DVec l => rmap DVec (bool_index b l)
  | DVoid n => match b with [] => Ok (DVoid n) | _ => Err IndexError end
  end.
(** _compress_bool, 219-232, on a 1-d array; without previous selection the array that
    was passed in is kept, not a copy.  A selection 0-d False only takes the empty
    condition and stays as it is. *)
Definition compress_bool (i : nat) (v : view) : M nat :=
  do! n := len_single i in
  if negb (n =? v_len v)%nat then mraise ValueError
  else
    do! s := get_obj i in
    do! b := get_view v in
    do! sl := match s_sel s with
              | SNone => mret (SArr v)
              | SFalse => mret SFalse
              | SArr u =>
                  do! a := get_view u in
                  do! k := new_bools (refine a b) in
                  mret (SArr (mkview k 0 (length a)))
              end in
    do! c := mlift (mapM (fun p => rmap (pair (fst p)) (compress_cached b (snd p))) (s_cache s)) in
    new_obj (mksingle (s_dump s) (s_name s) sl c).
(** _compress_int, 234-244; the ids are an int array, sorted in place *)
Definition sort_ids (k : nat) : M (list Z) :=
  fun w => let l := sort_Z (nth k (w_ids w) []) in
           (mkworld (w_bools w) (upd (w_ids w) k l) (w_objs w) (w_ms w), Ok l).
Definition is_listed (cond : list Z) (q : Q) : res bool :=
  let id := Qfloor q in
  let idx := searchsorted_Z cond id in
  let idx := if (idx =? Z.of_nat (length cond))%Z then 0%Z else idx in
  let! c := getidx cond idx in
  Ok (c =? id)%Z.
Definition compress_int (i k : nat) : M nat :=
  do! cond := sort_ids k in
  do! d := readatomic i "id" in
  match d with
  | DScalar _ => mraise TypeError
  | DVoid _ => mraise ValueError      (* a two-dimensional array cannot be assigned to a[a] *)
  | DVec ids =>
      do! bools := mlift (mapM (is_listed cond) ids) in
      do! b := new_bools bools in
      compress_bool i (mkview b 0 (length bools))
  end.
(** uncompress, 246-250, __init__, 78-87 *)
Definition new_single (d : dump) (name : string) : M nat :=
  if existsb (String.eqb name) (d_names d) then new_obj (mksingle d name SNone []) else mraise KeyError.
Definition uncompress_single (i : nat) : M nat :=
  do! s := get_obj i in new_single (s_dump s) (s_name s).
(** __invert__, 252-265 *)
Definition invert_single (i : nat) : M nat :=
  do! s := get_obj i in
  match s_sel s with
  | SNone => new_obj (mksingle (s_dump s) (s_name s) SFalse [])
  | SFalse => new_obj (mksingle (s_dump s) (s_name s) SNone [])
  | SArr v =>
      do! b := get_view v in
      do! k := new_bools (map negb b) in
      new_obj (mksingle (s_dump s) (s_name s) (SArr (mkview k 0 (length b))) [])
  end.
(** __copy__, 97-109 *)
Definition copy_single (i : nat) : M nat :=
  do! s := get_obj i in
  match s_sel s with
  | SArr v =>
      do! b := get_view v in
      do! k := new_bools b in
      new_obj (mksingle (s_dump s) (s_name s) (SArr (mkview k 0 (length b))) (s_cache s))
  | _ => new_obj s
  end.
(** A ScalarProperty, with its definition expanded until only particle properties remain:
    its inputs and the elementwise function; evaluation, 295-334 and numexpr.  A
    mixture of arrays of different shapes does not occur within one species. *)
Record expr (A : Type) := mkexpr { e_keys : list string; e_fn : list Q -> A }.
Arguments mkexpr {A}. Arguments e_keys {A}. Arguments e_fn {A}.
Inductive values (A : Type) := VScalar (a : A) | VVec (l : list A) | VVoid (n : nat).
Arguments VScalar {A}. Arguments VVec {A}. Arguments VVoid {A}.
Definition item (d : data) (i : nat) : Q :=
  match d with DScalar q => q | DVec l => nth i l 0 | DVoid _ => 0 end.
(** the common shape: the first non-scalar one, which the others must have *)
Fixpoint shape_of (ds : list data) : option (bool * nat) :=
  match ds with
  | [] => None
  | DScalar _ :: r => shape_of r
  | DVec l :: _ => Some (true, length l)
  | DVoid n :: _ => Some (false, n)
  end.
Definition has_shape (b : bool) (n : nat) (d : data) : bool :=
  match d with DScalar _ => true | DVec l => b && (length l =? n)%nat | DVoid m => negb b && (m =? n)%nat end.
Definition apply_expr {A} (fn : list Q -> A) (ds : list data) : res (values A) :=
  match shape_of ds with
  | None => Ok (VScalar (fn (map (fun d => item d 0) ds)))
  | Some (b, n) =>
      if forallb (has_shape b n) ds then
        Ok (if b then VVec (map (fun i => fn (map (fun d => item d i) ds)) (seq 0 n)) else VVoid n)
      else Err ValueError
  end.
Definition eval_single {A} (i : nat) (e : expr A) : M (values A) :=
  do! ds := mmap (readatomic i) (e_keys e) in mlift (apply_expr (e_fn e) ds).
(** filter, 157-172, and compress, 174-217, on the result *)
Definition filter_single (e : expr bool) (i : nat) : M nat :=
  do! c := eval_single i e in
  match c with
  | VScalar _ => mraise TypeError       (* len() of a 0-d array *)
  | VVoid _ => mraise ValueError        (* a two-dimensional array cannot be assigned to a[a] *)
  | VVec l => do! k := new_bools l in compress_bool i (mkview k 0 (length l))
  end.

(** * MultiSpecies *)
(** __init__, add (plain names), 351-358, 478-516 *)
Fixpoint add_species (d : dump) (ignore_missing : bool) (names : list string) : M (list nat) :=
  match names with
  | [] => mret []
  | n :: r => fun w =>
      match new_single d n w with
      | (w', Ok i) => (do! is := add_species d ignore_missing r in mret (i :: is)) w'
      | (w', Err KeyError) => if ignore_missing then add_species d ignore_missing r w' else (w', Err KeyError)
      | (w', Err e) => (w', Err e)
      end
  end.
Definition ms_new (d : dump) (names : list string) (ignore_missing : bool) : M nat :=
  do! is := add_species d ignore_missing names in new_ms is.
(** npart, 418-425, 444 *)
Definition ms_len (m : nat) : M nat :=
  do! is := get_ms m in
  do! ns := mmap len_single is in mret (fold_right Nat.add 0%nat ns).
(** __iadd__, 534-555.  The loop runs over the list of the other object, which grows
    with every step if it is the same object. *)
Definition ms_iadd (m other : nat) : M nat :=
  do! is := get_ms m in
  do! os := get_ms other in
  if (m =? other)%nat then (match os with [] => mret m | _ => mraise Diverges end)
  else do! cs := mmap copy_single os in do! _ := put_ms m (is ++ cs) in mret m.
(** __add__, 520-532 *)
Definition ms_add (m other : nat) : M nat :=
  do! is := get_ms m in
  do! r := new_ms is in
  ms_iadd r other.
(** filter, 560-568 *)
Definition ms_filter (m : nat) (e : expr bool) : M nat :=
  do! is := get_ms m in
  do! js := mmap (filter_single e) is in new_ms js.
(** compress, 571-583, boolean array: condition[i:i+n] is a view and may be shorter *)
Fixpoint compress_each (v : view) (pos : nat) (is : list nat) : M (list nat) :=
  match is with
  | [] => mret []
  | i :: r =>
      do! n := len_single i in
      let lo := Nat.min pos (v_len v) in
      do! j := compress_bool i (mkview (v_buf v) (v_off v + lo) (Nat.min (pos + n) (v_len v) - lo)) in
      do! js := compress_each v (pos + n) r in
      mret (j :: js)
  end.
Definition ms_compress (m : nat) (v : view) : M nat :=
  do! is := get_ms m in
  do! js := compress_each v 0 is in new_ms js.
(** compress, ids: the same array for every species *)
Definition ms_compress_ids (m k : nat) : M nat :=
  do! is := get_ms m in
  do! js := mmap (fun i => compress_int i k) is in new_ms js.
(** __invert__, 585-592; uncompress, 606-614 *)
Definition ms_invert (m : nat) : M nat :=
  do! is := get_ms m in
  do! js := mmap invert_single is in new_ms js.
Definition ms_uncompress (m : nat) : M nat :=
  do! is := get_ms m in
  do! js := mmap uncompress_single is in new_ms js.
(** __call_sp, 661-673; np.hstack wants equal dimensions *)
Fixpoint hstack_void {A} (ds : list (values A)) : res nat :=
  match ds with
  | [] => Ok 0%nat
  | VVoid n :: r => rmap (Nat.add n) (hstack_void r)
  | _ => Err ValueError
  end.
Fixpoint hstack_vec {A} (ds : list (values A)) : res (list A) :=
  match ds with
  | [] => Ok []
  | VVec l :: r => rmap (app l) (hstack_vec r)
  | _ => Err ValueError
  end.
Definition hstack {A} (ds : list (values A)) : res (values A) :=
  match ds with
  | VVoid _ :: _ => rmap VVoid (hstack_void ds)
  | _ => rmap VVec (hstack_vec ds)
  end.
Definition call_single {A} (e : expr A) (i : nat) : M (values A) :=
  do! d := eval_single i e in
  match d with
  | VScalar a => do! n := len_single i in mret (VVec (repeat a n))
  | _ => mret d
  end.
Definition ms_call {A} (m : nat) (e : expr A) : M (values A) :=
  do! is := get_ms m in
  do! ds := mmap (call_single e) is in mlift (hstack ds).

(** * What a user can do *)
Inductive uop :=
| UNew (d : dump) (names : list string) (ignore_missing : bool)
| UBools (l : list bool)                    (* a new boolean array *)
| UIds (l : list Z)                         (* a new integer array *)
| UWrite (buf pos : nat) (b : bool)         (* assign to an item of a boolean array *)
| UCompress (m : nat) (v : view)
| UCompressIds (m k : nat)
| UFilter (m : nat) (e : expr bool)
| UInvert (m : nat)
| UUncompress (m : nat)
| UAdd (m other : nat)
| UIadd (m other : nat)
| ULen (m : nat)
| UCall (m : nat) (e : expr Q).
Definition forget {A} (r : world * res A) : world := fst r.
Definition step (o : uop) (w : world) : world :=
  match o with
  | UNew d names ig => forget (ms_new d names ig w)
  | UBools l => forget (new_bools l w)
  | UIds l => mkworld (w_bools w) (w_ids w ++ [l]) (w_objs w) (w_ms w)
  | UWrite k p b => mkworld (upd (w_bools w) k (upd (nth k (w_bools w) []) p b)) (w_ids w) (w_objs w) (w_ms w)
  | UCompress m v => forget (ms_compress m v w)
  | UCompressIds m k => forget (ms_compress_ids m k w)
  | UFilter m e => forget (ms_filter m e w)
  | UInvert m => forget (ms_invert m w)
  | UUncompress m => forget (ms_uncompress m w)
  | UAdd m o => forget (ms_add m o w)
  | UIadd m o => forget (ms_iadd m o w)
  | ULen m => forget (ms_len m w)
  | UCall m e => forget (ms_call m e w)
  end.
Definition run (ops : list uop) : world := fold_left (fun w o => step o w) ops empty_world.
