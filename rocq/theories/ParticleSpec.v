(** Specifications for particle collections (C33-C39): particles are identified by dump,
    species and position; the selections are followed without arrays, caches or objects. *)
From Coq Require Import Qround.
From Verif Require Import PyBase NumpyModel NdModel FieldModel HelperModel ParticleModel.

(** ** Dumps *)
(** the property as dumped, or deduced from the name of the species *)
Definition dumped (d : dump) (name key : string) : option data :=
  if String.eqb key "time" then Some (DScalar (d_time d))
  else match d_get d name key with
       | Some x => Some x
       | None => if String.eqb key "mass" || String.eqb key "charge" then option_map DScalar (d_guess d name key) else None
       end.
(** every array has n entries; there is one, if n > 0, among the particle properties *)
Definition dump_ok (d : dump) (name : string) (n : nat) : Prop :=
  (forall key, match d_get d name key with Some (DVec l) => length l = n | Some (DVoid _) => False | _ => True end) /\
  ((0 < n)%nat -> exists key l, In key atomicprops /\ key <> "time"%string /\ d_get d name key = Some (DVec l)).
(** the value of a property of particle i; ids are integers *)
Definition value (d : dump) (name : string) (i : nat) (key : string) : Q :=
  let q := match dumped d name key with Some (DScalar q) => q | Some (DVec l) => nth i l 0 | _ => 0 end in
  if String.eqb key "id" then inject_Z (trunc q) else q.
Definition known (d : dump) (name key : string) : Prop := dumped d name key <> None.
Definition is_scalar (d : dump) (name key : string) : Prop := exists q, dumped d name key = Some (DScalar q).

(** ** Selections: species of a dump and the positions of the selected particles *)
Record group := mkgroup { g_dump : dump; g_name : string; g_count : nat; g_sel : list nat }.
(** the value of an expression for particle i *)
Definition expr_value {A} (e : expr A) (g : group) (i : nat) : A := e_fn e (map (value (g_dump g) (g_name g) i) (e_keys e)).
Definition group_values {A} (e : expr A) (g : group) : list A := map (expr_value e g) (g_sel g).
Definition all_values {A} (e : expr A) (gs : list group) : list A := concat (map (group_values e) gs).
Definition total (gs : list group) : nat := fold_right Nat.add 0%nat (map (fun g => length (g_sel g)) gs).
(** the entries of l whose flag is set *)
Definition keep {A} (b : list bool) (l : list A) : list A := map snd (filter fst (combine b l)).
Definition with_sel (g : group) (s : list nat) : group := mkgroup (g_dump g) (g_name g) (g_count g) s.
(** a condition for all particles, one group after the other *)
Fixpoint distribute (c : list bool) (gs : list group) : list group :=
  match gs with
  | [] => []
  | g :: r => with_sel g (keep (firstn (length (g_sel g)) c) (g_sel g)) :: distribute (skipn (length (g_sel g)) c) r
  end.
Definition select_if (p : group -> nat -> bool) (g : group) : group := with_sel g (filter (p g) (g_sel g)).
Definition has_id (ids : list Z) (g : group) (i : nat) : bool :=
  existsb (fun z => inject_Z z ==?q value (g_dump g) (g_name g) i "id") ids.
Definition complement (g : group) : group :=
  with_sel g (filter (fun i => negb (existsb (Nat.eqb i) (g_sel g))) (seq 0 (g_count g))).
Definition everything (g : group) : group := with_sel g (seq 0 (g_count g)).

(** ** Histories *)
(** the result of the user's operation: raised or not *)
Definition succeeds (o : uop) (w : world) : bool :=
  match o with
  | UNew d names ig => is_ok (snd (ms_new d names ig w))
  | UCompress m v => is_ok (snd (ms_compress m v w))
  | UCompressIds m k => is_ok (snd (ms_compress_ids m k w))
  | UFilter m e => is_ok (snd (ms_filter m e w))
  | UInvert m => is_ok (snd (ms_invert m w))
  | UUncompress m => is_ok (snd (ms_uncompress m w))
  | UAdd m o => is_ok (snd (ms_add m o w))
  | UIadd m o => is_ok (snd (ms_iadd m o w))
  | _ => true
  end.
(** the collections after an operation that did not raise; [sizes] is the number of
    particles of a species, the arrays are looked up in the store before the operation *)
Definition follow (sizes : dump -> string -> nat) (o : uop) (w : world) (s : list (list group)) : list (list group) :=
  let ms m := nth m s [] in
  match o with
  | UNew d names _ =>
      s ++ [map (fun n => mkgroup d n (sizes d n) (seq 0 (sizes d n))) (filter (fun n => existsb (String.eqb n) (d_names d)) names)]
  | UCompress m v => s ++ [distribute (firstn (v_len v) (skipn (v_off v) (nth (v_buf v) (w_bools w) []))) (ms m)]
  | UCompressIds m k => s ++ [map (select_if (has_id (nth k (w_ids w) []))) (ms m)]
  | UFilter m e => s ++ [map (select_if (fun g i => expr_value e g i)) (ms m)]
  | UInvert m => s ++ [map complement (ms m)]
  | UUncompress m => s ++ [map everything (ms m)]
  | UAdd m o => s ++ [ms m ++ ms o]
  | UIadd m o => if (m =? o)%nat then s else upd s m (ms m ++ ms o)
  | UBools _ | UIds _ | UWrite _ _ _ | ULen _ | UCall _ _ => s
  end.
(** What the user may do: dumps are consistent, a condition is a part of an existing array,
    the collections exist, and an array is not modified while a collection refers to it. *)
Definition allowed (sizes : dump -> string -> nat) (o : uop) (w : world) : Prop :=
  let ex m := (m < length (w_ms w))%nat in
  match o with
  | UNew d names _ => forall n, In n names -> dump_ok d n (sizes d n)
  | UCompress m v =>
      ex m /\ (v_buf v < length (w_bools w))%nat /\ (v_off v + v_len v <= length (nth (v_buf v) (w_bools w) []))%nat
  | UCompressIds m k => ex m /\ (k < length (w_ids w))%nat
  | UWrite k p b => forall s v, In s (w_objs w) -> s_sel s = SArr v -> v_buf v <> k
  | UBools _ | UIds _ => True
  | UAdd m o | UIadd m o => ex m /\ ex o
  | UFilter m _ | UInvert m | UUncompress m | ULen m | UCall m _ => ex m
  end.
(** the store after a history and the collections followed alongside *)
Inductive history (sizes : dump -> string -> nat) : world -> list (list group) -> Prop :=
| h_start : history sizes empty_world []
| h_step o w s : history sizes w s -> allowed sizes o w ->
    history sizes (step o w) (if succeeds o w then follow sizes o w s else s).
(** the values in an array, whatever its shape *)
Definition flat {A} (v : values A) : list A := match v with VScalar a => [a] | VVec l => l | VVoid _ => [] end.
(** filter after filter *)
Fixpoint filter_chain (es : list (expr bool)) (m : nat) (w : world) : world * res nat :=
  match es with
  | [] => (w, Ok m)
  | e :: r => match ms_filter m e w with (w', Ok m') => filter_chain r m' w' | (w', Err x) => (w', Err x) end
  end.
(** the result of evaluating an expression on a collection *)
Definition outcome {A} (m : nat) (e : expr A) (w : world) : res (values A) := snd (ms_call m e w).
(** a subset of the particles, in the order of the dump *)
Definition in_order (g : group) : Prop := exists P, g_sel g = filter P (seq 0 (g_count g)).
