(** Property theorems about Field.evaluate and the variables of its caller (C120). *)
From Verif Require Import PyBase NumpyModel NdModel AxisModel AxisSpec FieldModel FieldSpec IoDemo UfuncSpec EvalModel EvalSpec EvalFacts EvalDemo.
Local Open Scope string_scope.

(** The expression is read with the dictionaries given, or the variables and globals of the caller for
    these.  The result is the field with the values of the expression, everything else being kept. *)
Theorem C120_value : forall V (zero : V) self e local global fr globals fr' f, evaluate zero self e local global fr globals = (fr', Ok f) ->
  evaluated (first_in (match local with Some d => d | None => f_locals fr globals end) (match global with Some d => d | None => globals end)) self e f.
Proof. exact @evaluate_ok. Qed.
Print Assumptions C120_value.
(** There is a result if all names are known and can be repeated to the shape of the field, and one has
    this shape. *)
Theorem C120_success : forall V (zero : V) (self : field V) e local global fr globals, let look := first_in (match local with Some d => d | None => f_locals fr globals end) (match global with Some d => d | None => globals end) in
  (forall x, occurs x e -> exists t a, look x = Some t /\ array_of t a /\ repeats_to (a_shape a) (f_shape self)) -> (exists x t a, occurs x e /\ look x = Some t /\ array_of t a /\ a_shape a = f_shape self) ->
  exists f, snd (evaluate zero self e local global fr globals) = Ok f.
Proof. exact @evaluate_succeeds. Qed.
Print Assumptions C120_success.
Example C120_value_case : exists f, evaluate 0 a_field some_expr None None (InFunction [("f", Some (TField a_field)); ("y", None)] []) [("y", TArr two)] = (InFunction [("f", Some (TField a_field)); ("y", None)] [], Ok f) /\ f_axes f = f_axes a_field /\ a_at (f_data f) [2%Z] == 2 * 2 + 1 /\ ~ assigned (InFunction [("f", Some (TField a_field)); ("y", None)] []) some_expr.
Proof. eexists. split; [reflexivity|]. split; [reflexivity|]. split; [vm_compute; reflexivity|]. intros (A & _). apply (A "y"); [apply o_apply2a, o_apply2b, o_name|cbn; auto]. Qed.
(** An unknown name raises KeyError, everything else that does not fit ValueError. *)
Theorem C120_unknown : forall V (zero : V) (self : field V) e local global fr globals y, let look := first_in (match local with Some d => d | None => f_locals fr globals end) (match global with Some d => d | None => globals end) in occurs y e -> look y = None -> snd (evaluate zero self e local global fr globals) = Err KeyError.
Proof. exact @evaluate_unknown. Qed.
Print Assumptions C120_unknown.
Theorem C120_errors : forall V (zero : V) (self : field V) e local global fr globals x, snd (evaluate zero self e local global fr globals) = Err x ->
  let look := first_in (match local with Some d => d | None => f_locals fr globals end) (match global with Some d => d | None => globals end) in
  (x = KeyError /\ exists y, occurs y e /\ look y = None) \/ x = ValueError /\ forall y, occurs y e -> look y <> None.
Proof. exact @evaluate_fails. Qed.
Print Assumptions C120_errors.
Theorem C120_misfit : forall V (zero : V) (self : field V) e local global fr globals x t a, let look := first_in (match local with Some d => d | None => f_locals fr globals end) (match global with Some d => d | None => globals end) in
  occurs x e -> look x = Some t -> array_of t a -> ~ repeats_to (a_shape a) (f_shape self) -> exists y, snd (evaluate zero self e local global fr globals) = Err y.
Proof. exact @mismatch_fails. Qed.
Print Assumptions C120_misfit.
Example C120_misfit_case : snd (evaluate 0 (demo_field [up2 "x"]) (Name "x") None None (InFunction [("x", Some (TArr xs))] []) []) = Err ValueError /\ snd (evaluate 0 a_field (Name "z") None None AtTop [("x", TArr xs)]) = Err KeyError.
Proof. split; reflexivity. Qed.
(** Full statement: an expression whose value is a number gives a field with this value everywhere, like
    field * 0 + number.  False: *)
Theorem C120_constant_refuted : forall V (zero : V) (self : field V) v local global fr globals, f_shape self <> [] -> snd (evaluate zero self (Number v) local global fr globals) = Err ValueError.
Proof. exact @constant_fails. Qed.
Print Assumptions C120_constant_refuted.
(** Names mean what they mean to the caller, if all of them are assigned. *)
Theorem C120_names_partial : forall V (zero : V) self e fr globals fr' f, assigned fr e -> evaluate zero self e None None fr globals = (fr', Ok f) -> evaluated (reads_var fr globals) self e f.
Proof. exact @caller_ok. Qed.
Print Assumptions C120_names_partial.
Example C120_names_case : assigned (InFunction [("f", Some (TField a_field)); ("y", Some (TArr two))] [("f", TArr xs)]) some_expr /\ exists f, snd (evaluate 0 a_field some_expr None None (InFunction [("f", Some (TField a_field)); ("y", Some (TArr two))] [("f", TArr xs)]) [("y", TObject)]) = Ok f.
Proof.
  split; [|eexists; reflexivity]. split; [intros x _ [H|[H|[]]]; discriminate|]. split; [repeat constructor; cbn; intuition discriminate|]. intros x t [H|[]]. injection H as <- _. now left.
Qed.
(** Full statement: always.  False: for a variable of a function not assigned yet, of which the caller
    itself gets nothing but an exception, a global of this name is taken. *)
Theorem C120_names_refuted : exists fr globals f, reads_var fr globals "f" = None /\ snd (evaluate 0 a_field (Name "f") None None fr globals) = Ok f.
Proof. exists (InFunction [("f", None)] []), [("f", TArr xs)]. eexists. split; reflexivity. Qed.
Print Assumptions C120_names_refuted.
(** The caller keeps its variables, with a result or without, ... *)
Theorem C120_kept_partial : forall V (zero : V) self e local global fr globals x, (forall space, fr = InBody space -> local <> None) -> reads_var (fst (evaluate zero self e local global fr globals)) globals x = reads_var fr globals x.
Proof. exact @variables_kept. Qed.
Print Assumptions C120_kept_partial.
Example C120_kept_case : let fr := InFunction [("f", Some (TField a_field))] [] in (forall space, fr = InBody space -> @None (dict Q) <> None) /\ reads_var (fst (evaluate 0 a_field (Name "f") None None fr [])) [] "f" = Some (TField a_field).
Proof. split; [discriminate|reflexivity]. Qed.
(** ... but not in the body of a class or in code run by exec with a namespace of its own: there all
    names are gone afterwards. *)
Theorem C120_body : forall V (zero : V) self e global space globals, fst (evaluate zero self e None global (InBody space) globals) = InBody [].
Proof. exact @body_cleared. Qed.
Print Assumptions C120_body.
Theorem C120_body_refuted : exists fr globals t, reads_var fr globals "f" = Some t /\ (exists f, snd (evaluate 0 a_field (Name "f") None None fr globals) = Ok f) /\ reads_var (fst (evaluate 0 a_field (Name "f") None None fr globals)) globals "f" = None.
Proof. exists (InBody [("f", TArr xs)]), [], (TArr xs). split; [reflexivity|]. split; [eexists; reflexivity|reflexivity]. Qed.
Print Assumptions C120_body_refuted.
(** In a function the dictionary it got from locals() is emptied. *)
Theorem C120_locals_refuted : forall V (zero : V) self e global vars kept globals, fst (evaluate zero self e None global (InFunction vars kept) globals) = InFunction vars [].
Proof. exact @kept_cleared. Qed.
Print Assumptions C120_locals_refuted.
