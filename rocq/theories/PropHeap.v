(** Theorems about sharing between fields: C51. *)
From Coq Require Import Lia.
From Verif Require Import PyBase PyBaseFacts NumpyModel AxisModel AxisSpec NdModel FieldModel HeapModel HeapSpec HeapFacts HeapLaws HeapApart HeapValue HeapDemo.
Local Open Scope nat_scope.

(** * C51 *)
(** Every history of operations, every further command, every object which exists: name and unit
    stay; the axes can change only through the object itself; the data only through an object
    connected with it by views, shallow copies or arrays handed over; the lists of states and
    origins only through an object connected with it by unary functions. *)
Theorem C51_history_partial : forall spl h w m w' r y, reachable spl h w -> run spl m w = Ok (w', r) -> exists_in w y ->
  keeps w w' y (forall x, target m = Some x -> ~ kin data_source h x y) (forall x, target m = Some x -> x <> y) (forall x, target m = Some x -> ~ kin list_source h x y).
Proof. exact HeapLaws.history. Qed.
Print Assumptions C51_history_partial.
Example C51_history_case : reachable chord_spline HeapDemo.history built /\ oks (map snd HeapDemo.history) = [Some 0; Some 1; Some 2; Some 3; Some 4; Some 5; Some 6] /\
  (forall x, x = 3 \/ x = 4 \/ x = 5 \/ x = 6 -> ~ kin data_source HeapDemo.history x 0) /\
  match run chord_spline (MSet 2 [key 0; key 1] 7%Q) built with
  | Ok (w', r) => r = 2 /\ seen built 0 = Some ([3; 2]%Z, [0; 1; 10; 11; 20; 21]%Q, [Some false; Some false], [None; None]) /\
      seen w' 0 = Some ([3; 2]%Z, [0; 1; 10; 11; 7; 21]%Q, [Some false; Some false], [None; None]) /\ seen w' 1 = Some ([2; 2]%Z, [10; 11; 7; 21]%Q, [Some false; Some false], [None; None]) /\
      seen w' 2 = Some ([2; 2]%Z, [10; 7; 11; 21]%Q, [Some false; Some false], [None; None]) /\ seen w' 3 = seen built 3 /\ seen w' 4 = seen built 4 /\ seen w' 5 = seen built 5
  | Err _ => False
  end.
Proof. split; [exact built_reachable|]. split; [exact history_results|]. split; [intros x Hx; apply history_data_apart; [exact Hx|lia]|]. vm_compute. repeat split. Qed.
(** making a derived field leaves every existing field as it is *)
Theorem C51_derivation : forall spl h w c w' r y, reachable spl h w -> run spl c w = Ok (w', r) -> target c = None -> exists_in w y -> value w' y = value w y.
Proof. exact derivation_keeps. Qed.
Print Assumptions C51_derivation.
Example C51_derivation_case : exists_in built 2 /\ match run chord_spline (CView VSqueeze 6) built with Ok (w', r) => r = 7 /\ seen w' 7 = seen built 6 | Err _ => False end.
Proof. vm_compute. repeat split; repeat constructor. Qed.
(** deep copies, results of arithmetic with fields and arrays, reductions, replace_data with an array
    of its own: nothing that is done to the result later, element by element or to its array, axes,
    states or origins, reaches any other field; and nothing done to the other fields reaches it *)
Theorem C51_independent_partial : forall spl h w c w1 r ms w2 rs, reachable spl h w -> independent c -> run spl c w = Ok (w1, r) -> exec spl ms w1 = (w2, rs) ->
  (Forall (through (fun z => z = r)) ms -> forall y, exists_in w1 y -> y <> r -> value w2 y = value w1 y) /\
  (Forall (through (fun z => z <> r)) ms -> value w2 r = value w1 r).
Proof. exact independent_apart. Qed.
Print Assumptions C51_independent_partial.
Example C51_independent_case : independent (CCopy true 2) /\ (forall op, independent (CBinary op 0 1)) /\ (forall a, independent (CReplace 0 (AFresh a))) /\ (forall red, independent (CReduce red 0 AxNone true)) /\
  Forall (through (fun z => z = 7)) [MSet 7 [key 0; key 1] 5%Q; MAts 7 0%Z (Some true); MTao 7 1%Z (Some 3%Q); MAxis 7 0%Z ax_y; MInplace Qopp 7] /\
  match run chord_spline (CCopy true 2) built with
  | Ok (w1, r) => r = 7 /\ let (w2, rs) := exec chord_spline [MSet 7 [key 0; key 1] 5%Q; MAts 7 0%Z (Some true); MTao 7 1%Z (Some 3%Q); MAxis 7 0%Z ax_y; MInplace Qopp 7] w1 in
      oks rs = [Some 7; Some 7; Some 7; Some 7; Some 7] /\ seen w1 7 = seen built 2 /\ seen w2 7 = Some ([2; 2]%Z, [-10; -5; -11; -21]%Q, [Some true; Some false], [None; Some 3%Q]) /\ seen w2 2 = seen w1 2
  | Err _ => False
  end.
Proof.
  split; [repeat split|]. split; [repeat split|]. split; [repeat split|]. split; [repeat split|]. split; [|vm_compute; repeat split].
  repeat (apply Forall_cons; [split; [eexists; split; reflexivity|discriminate]|]). apply Forall_nil.
Qed.
(** what the results and the modified fields are *)
Theorem C51_results : forall spl h w c w' r, reachable spl h w -> run spl c w = Ok (w', r) -> (forall x k v, c <> MSet x k v) -> (forall op x, c <> MInplace op x) -> value w' r = result spl w c.
Proof. exact reachable_value. Qed.
Print Assumptions C51_results.
Theorem C51_set_elements : forall spl keys v x w w' r f, run spl (MSet x keys v) w = Ok (w', r) -> value w x = Ok f ->
  r = x /\ exists d sls, value w' x = Ok (mkField d (f_top f) []) /\ a_shape d = f_shape f /\ normalize_slices (f_axes f) (f_shape f) keys = Ok sls /\
  exists s t, np_getitem d sls = Ok s /\ np_getitem (f_data f) sls = Ok t /\ a_shape s = a_shape t /\ (forall i, in_shape (a_shape s) i = true -> a_at s i = v) /\ forall i, a_at d i = v \/ a_at d i = a_at (f_data f) i.
Proof. exact set_value. Qed.
Print Assumptions C51_set_elements.
Theorem C51_set_elements_new : forall spl f w w1 x keys v w2 r d, run spl (CNew f) w = Ok (w1, x) -> run spl (MSet x keys v) w1 = Ok (w2, r) -> value w2 x = Ok d -> exists sls t, normalize_slices (f_axes f) (f_shape f) keys = Ok sls /\ np_getitem (mkarr (f_shape f) (fun i => i)) sls = Ok t /\
  forall i, a_at (f_data d) i = if existsb (idx_eqb i) (map (a_at t) (all_idx (a_shape t))) then v else a_at (f_data f) i.
Proof. exact set_fresh. Qed.
Print Assumptions C51_set_elements_new.
Theorem C51_inplace : forall spl op x w w' r f, run spl (MInplace op x) w = Ok (w', r) -> value w x = Ok f -> r = x /\ exists d, value w' x = Ok (mkField d (f_top f) []) /\ a_shape d = f_shape f /\ forall i, in_shape (f_shape f) i = true -> a_at d i = op (a_at (f_data f) i).
Proof. exact inplace_value. Qed.
Print Assumptions C51_inplace.
Example C51_results_case : seen built 2 = Some ([2; 2]%Z, [10; 20; 11; 21]%Q, [Some false; Some false], [None; None]) /\ seen built 4 = Some ([3; 2]%Z, [0; -1; -10; -11; -20; -21]%Q, [Some false; Some false], [None; None]) /\ seen built 6 = Some ([2]%Z, [30; 33]%Q, [Some false], [None]) /\
  match run chord_spline (MInplace Qopp 1) built with Ok (w', _) => seen w' 0 = Some ([3; 2]%Z, [0; 1; -10; -11; -20; -21]%Q, [Some false; Some false], [None; None]) | Err _ => False end /\
  match run chord_spline (CReplace 0 (AOf 4)) built with Ok (w', r) => r = 7 /\ seen w' 7 = seen built 4 | Err _ => False end /\
  match run chord_spline (CReplace 0 (AOf 2)) built with Ok _ => False | Err e => e = ValueError end.
Proof. vm_compute. repeat split. Qed.
(** The full claim is false: a unary function, or arithmetic with a number, gives a field which has
    the lists of states and origins in common with its source. *)
Theorem C51_unary_refuted : exists h w m w' r f f', reachable chord_spline h w /\ In (CMap Qopp 0, Ok 1) h /\ target m = Some 1 /\ run chord_spline m w = Ok (w', r) /\ value w 0 = Ok f /\ value w' 0 = Ok f' /\ f_ats f = [Some false; Some false] /\ f_ats f' = [Some true; Some false].
Proof. exact unary_shares. Qed.
Print Assumptions C51_unary_refuted.
Theorem C51_unary_origins_refuted : exists h w m w' r f f', reachable chord_spline h w /\ In (CMap Qopp 0, Ok 1) h /\ target m = Some 0 /\ run chord_spline m w = Ok (w', r) /\ value w 1 = Ok f /\ value w' 1 = Ok f' /\ f_tao f = [None; None] /\ f_tao f' = [None; Some 3%Q].
Proof. exact unary_shares_origins. Qed.
Print Assumptions C51_unary_origins_refuted.
