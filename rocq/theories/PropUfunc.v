(** Property theorems about numpy functions and operators applied to Fields: C113. *)
From Coq Require Import Lia.
From Verif Require Import PyBase NumpyModel AxisModel AxisSpec NdModel FieldModel FieldSpec FieldReduceFacts PropField PropFieldOps
  UfuncModel UfuncSpec UfuncFacts UfuncLaws.

(** x op y in the order written, for a Field and a Field, an array or a number on either side *)
Theorem C113_operators_partial :
  forall V (u : ufunc V) x y, u_nin u = 2%nat -> u_nout u = 1%nat -> sound x -> sound y -> fit x y ->
    exists h, binary_operator u x y = Ok (RFields [h]) /\ consistent h /\
      (forall j, from_end (f_shape h) j = joint_len (from_end (shape_of x) j) (from_end (shape_of y) j)) /\
      (forall j, from_end (f_axes h) j = joint_axis (from_end (axes_at x) j) (from_end (axes_at y) j)) /\
      (forall idx, in_shape (f_shape h) idx = true ->
         exists v w, contributes x idx v /\ contributes y idx w /\ a_at (f_data h) idx = u_fun u 0%nat [v; w]) /\
      (forall f, first_of x y f -> l_name (f_top h) = l_name (f_top f) /\ l_unit (f_top h) = l_unit (f_top f)).
Proof. exact @operator_two. Qed.
Print Assumptions C113_operators_partial.

(** nothing else is accepted *)
Theorem C113_misfit_rejected :
  forall V (u : ufunc V) x y, u_nin u = 2%nat -> u_nout u = 1%nat -> sound x -> sound y -> is_field x \/ is_field y -> ~ fit x y ->
    forall r, binary_operator u x y <> Ok r.
Proof. exact @refuses_misfit. Qed.
Print Assumptions C113_misfit_rejected.

(** functions with several results, like divmod, give one Field for each *)
Theorem C113_results_partial :
  forall V (u : ufunc V) x y, u_nin u = 2%nat -> sound x -> sound y -> fit x y ->
    exists hs, call_ufunc u MCall [x; y] [] = Ok (RFields hs) /\ length hs = u_nout u /\
      forall k h, nth_error hs k = Some h -> consistent h /\ f_inner h = [] /\
        (forall j, from_end (f_shape h) j = joint_len (from_end (shape_of x) j) (from_end (shape_of y) j)) /\
        (forall j, from_end (f_axes h) j = joint_axis (from_end (axes_at x) j) (from_end (axes_at y) j)) /\
        (forall idx, in_shape (f_shape h) idx = true ->
           exists v w, contributes x idx v /\ contributes y idx w /\ a_at (f_data h) idx = u_fun u k [v; w]) /\
        (forall f, first_of x y f -> l_name (f_top h) = l_name (f_top f) /\ l_unit (f_top h) = l_unit (f_top f)).
Proof. exact @call_two. Qed.
Print Assumptions C113_results_partial.
Theorem C113_one_argument_partial :
  forall V (u : ufunc V) f, u_nin u = 1%nat -> consistent f -> (length (f_shape f) <= 3)%nat ->
    exists hs, call_ufunc u MCall [AField f] [] = Ok (RFields hs) /\ length hs = u_nout u /\
      forall k h, nth_error hs k = Some h -> f_shape h = f_shape f /\ f_axes h = f_axes f /\ f_ats h = f_ats f /\ f_tao h = f_tao f /\
        l_name (f_top h) = l_name (f_top f) /\ l_unit (f_top h) = l_unit (f_top f) /\
        forall idx, in_shape (f_shape f) idx = true -> a_at (f_data h) idx = u_fun u k [a_at (f_data f) idx].
Proof. exact @call_one. Qed.
Print Assumptions C113_one_argument_partial.

(** f op= y: accepted exactly if y repeats to the shape of f, of any dimension; only the samples change *)
Theorem C113_inplace :
  forall V (u : ufunc V) f y, u_nin u = 2%nat -> u_nout u = 1%nat -> sound y ->
    (repeats_to (shape_of y) (f_shape f) -> exists g, inplace_operator u f y = Ok g /\ f_shape g = f_shape f /\ f_top g = f_top f /\ f_inner g = f_inner f /\
       forall idx, in_shape (f_shape f) idx = true -> exists w, contributes y idx w /\ a_at (f_data g) idx = u_fun u 0%nat [a_at (f_data f) idx; w]) /\
    (~ repeats_to (shape_of y) (f_shape f) -> inplace_operator u f y = Err ValueError).
Proof. exact @inplace_law. Qed.
Print Assumptions C113_inplace.
(** ... and f then holds what f op y gives *)
Theorem C113_inplace_same_partial :
  forall V (u : ufunc V) f y g, u_nin u = 2%nat -> u_nout u = 1%nat -> sound (AField f) -> sound y -> inplace_operator u f y = Ok g ->
    exists h, binary_operator u (AField f) y = Ok (RFields [h]) /\ f_shape h = f_shape g /\ f_axes h = f_axes g /\
      l_name (f_top h) = l_name (f_top g) /\ l_unit (f_top h) = l_unit (f_top g) /\
      forall idx, in_shape (f_shape g) idx = true -> a_at (f_data h) idx = a_at (f_data g) idx.
Proof. exact @inplace_operator_same. Qed.
Print Assumptions C113_inplace_same_partial.

(** ufunc.accumulate keeps the axes; its last entries are those of ufunc.reduce *)
Theorem C113_accumulate_partial :
  forall V (u : ufunc V) f ax k, u_nin u = 2%nat -> u_nout u = 1%nat -> consistent f -> (length (f_shape f) <= 3)%nat ->
    py_pos (length (f_shape f)) ax = Ok k ->
    exists h, call_ufunc u (MAccumulate ax) [AField f] [] = Ok (RFields [h]) /\
      f_shape h = f_shape f /\ f_axes h = f_axes f /\ f_ats h = f_ats f /\ f_tao h = f_tao f /\
      l_name (f_top h) = l_name (f_top f) /\ l_unit (f_top h) = l_unit (f_top f) /\
      forall idx, in_shape (f_shape f) idx = true ->
        exists l, line_up_to (f_data f) k idx l /\ combined (fun a b => u_fun u 0%nat [a; b]) l (a_at (f_data h) idx).
Proof. exact @accumulate_law. Qed.
Print Assumptions C113_accumulate_partial.
Theorem C113_accumulate_end_partial :
  forall V (u : ufunc V) f ax k, u_nin u = 2%nat -> u_nout u = 1%nat -> consistent f -> (length (f_shape f) <= 3)%nat ->
    py_pos (length (f_shape f)) ax = Ok k ->
    exists h r, call_ufunc u (MAccumulate ax) [AField f] [] = Ok (RFields [h]) /\ call_ufunc u (MReduce (AxInt ax)) [AField f] [] = Ok (RFields [r]) /\
      f_shape r = entries_at 0%Z (f_shape f) (others (length (f_shape f)) [k]) /\ f_axes r = entries_at axis0 (f_axes f) (others (length (f_shape f)) [k]) /\
      forall idx, in_shape (f_shape f) idx = true -> nth k idx 0%Z = (nth k (f_shape f) 0 - 1)%Z ->
        a_at (f_data r) (entries_at 0%Z idx (others (length (f_shape f)) [k])) = a_at (f_data h) idx.
Proof. exact @accumulate_end. Qed.
Print Assumptions C113_accumulate_end_partial.

(** lists, strings and the like are refused wherever they stand, as are reduceat and inner *)
Theorem C113_others_rejected :
  forall V (u : ufunc V) m inputs outs,
    (existsb (fun o => negb (handled o)) (inputs ++ outs) = true -> call_ufunc u m inputs outs = Err TypeError) /\
    (m = MReduceat \/ m = MInner -> call_ufunc u m inputs outs = Err TypeError).
Proof. intros. split; [exact (refuses_other u m inputs outs)|]. intros [-> | ->]; apply refuses_methods. Qed.
Print Assumptions C113_others_rejected.

(** functions of three arguments (numpy's clip) raise, whatever is given *)
Theorem C113_three_arguments_refuted :
  forall V (u : ufunc V) inputs, (3 <= u_nin u)%nat -> call_ufunc u MCall inputs [] = Err TypeError.
Proof. exact @refuses_many. Qed.
Print Assumptions C113_three_arguments_refuted.

(** ufunc.outer takes numbers but fails for every array *)
Theorem C113_outer_number_partial :
  forall V (u : ufunc V) f x, u_nin u = 2%nat -> u_nout u = 1%nat -> consistent f -> (length (f_shape f) <= 3)%nat ->
    exists h, call_ufunc u MOuter [AField f; ANum x] [] = Ok (RFields [h]) /\ f_shape h = f_shape f /\ f_axes h = f_axes f /\
      forall idx, in_shape (f_shape f) idx = true -> a_at (f_data h) idx = u_fun u 0%nat [a_at (f_data f) idx; x].
Proof. exact @outer_number. Qed.
Print Assumptions C113_outer_number_partial.
Theorem C113_outer_array_refuted :
  forall V (u : ufunc V) f a, u_nin u = 2%nat -> u_nout u = 1%nat -> a_shape a <> [] ->
    call_ufunc u MOuter [AField f; AArr a] [] = Err AttributeError /\ call_ufunc u MOuter [AArr a; AField f] [] = Err AttributeError.
Proof. exact @outer_array. Qed.
Print Assumptions C113_outer_array_refuted.

(** Arrays which numpy hands back to a Field become Fields with its axes if the shape is that of the
    Field, stay arrays if the number of dimensions differs, and raise otherwise *)
Theorem C113_wrap :
  forall V (f : field V) a, consistent f -> (length (f_shape f) <= 3)%nat ->
    (a_shape a = f_shape f -> exists g, array_wrap f (AArr a) None = Ok (AField g) /\ f_data g = a /\ f_axes g = f_axes f /\ f_ats g = f_ats f /\ f_tao g = f_tao f /\
       l_name (f_top g) = l_name (f_top f) /\ l_unit (f_top g) = l_unit (f_top f)) /\
    (length (a_shape a) <> length (f_shape f) -> array_wrap f (AArr a) None = Ok (AArr a)) /\
    (length (a_shape a) = length (f_shape f) -> a_shape a <> f_shape f -> forall r, array_wrap f (AArr a) None <> Ok r).
Proof.
  intros V f a Hf L. split; [intro E; eexists; split; [exact (wrap_same f a Hf L E)|repeat split]|]. split; [exact (wrap_other_dims f a Hf)|].
  intros E N r. exact (wrap_other_shape f a r Hf E N).
Qed.
Print Assumptions C113_wrap.

(** ** A case: differences, in both orders and in place, sums along an axis *)
Definition minus : ufunc Q := mkUfunc 2 1 (fun _ l => match l with [a; b] => Qred (a - b) | _ => 0 end).
Definition plus : ufunc Q := mkUfunc 2 1 (fun _ l => match l with [a; b] => Qred (a + b) | _ => 0 end).
Definition sum_diff : ufunc Q := mkUfunc 2 2 (fun k l => match k, l with O, [a; b] => Qred (a + b) | _, [a; b] => Qred (a - b) | _, _ => 0 end).
Definition shown (r : res (outcome Q)) : list (list Z * list Q) :=
  match r with Ok (RFields l) => map (fun f => (f_shape f, map (a_at (f_data f)) (all_idx (f_shape f)))) l | _ => [] end.
Example C113_case :
  sound (AField demo_field) /\ sound (AField row) /\ fit (AField demo_field) (AField row) /\ fit (ANum 5) (AField row) /\
  shown (binary_operator minus (ANum 5) (AField row)) = [([2]%Z, [- (995 # 1); - (1995 # 1)])] /\
  shown (binary_operator minus (AField row) (ANum 5)) = [([2]%Z, [995 # 1; 1995 # 1])] /\
  shown (binary_operator minus (AArr (mkarr [2]%Z (fun i => inject_Z (nth 0 i 0%Z)))) (AField row)) = [([2]%Z, [- (1000 # 1); - (1999 # 1)])] /\
  shown (call_ufunc sum_diff MCall [AField row; ANum 1] []) = [([2]%Z, [1001 # 1; 2001 # 1]); ([2]%Z, [999 # 1; 1999 # 1])] /\
  entries (inplace_operator minus demo_field (AField row)) = entries (field_op2 (fun a b => Qred (a - b)) demo_field row) /\
  inplace_operator minus row (AField demo_field) = Err ValueError /\
  shown (call_ufunc plus (MAccumulate (-1)) [AField row] []) = [([2]%Z, [1000 # 1; 3000 # 1])] /\
  shown (call_ufunc plus (MReduce (AxInt (-1))) [AField row] []) = [([]%Z, [3000 # 1])] /\
  call_ufunc plus MCall [AField row; AOther false] [] = Err TypeError.
Proof.
  assert (R : sound (AField row)) by (split; [exact row_ok|split; [reflexivity|cbn; lia]]).
  split; [split; [apply demo_field_ok|split; [reflexivity|cbn; lia]]|]. split; [exact R|]. split.
  { intros [|[|[|j]]] a b Ha Hb; cbn in *; try discriminate. injection Ha as <-. injection Hb as <-. auto. }
  split. { split; [cbn; lia|]. intros [|j] a b Ha; discriminate. }
  repeat (split; [vm_compute; reflexivity|]). vm_compute. reflexivity.
Qed.
