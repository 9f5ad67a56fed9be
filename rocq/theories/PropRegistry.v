(** The registry of particle scalars (C42) and the resolution of names in expressions (C73).
    [reg_run l []] is the registry after any sequence of add and remove; [E] is what is
    outside of the program (numexpr, the species, numpy, scipy.constants). *)
From Verif Require Import PyBase PyBaseFacts NumpyModel NdModel RegistryModel RegistrySpec RegistryFacts RegistryDemo.
Open Scope list_scope.

Theorem C42_lookup : forall l s,
  getitem (reg_run l []) (Some s) = match table_run l s with Some p => Ok p | None => Err KeyError end.
Proof. exact lookup_ok. Qed.
Print Assumptions C42_lookup.
Theorem C42_iteration : forall l,
  reg_iter (reg_run l []) = map Some (order_run l) /\ reg_len (reg_run l []) = length (order_run l) /\ NoDup (order_run l) /\
  forall s, In s (order_run l) <-> table_run l s <> None.
Proof. exact iter_ok. Qed.
Print Assumptions C42_iteration.
Theorem C42_add : forall l p,
  add (reg_run l []) p =
  match symbol_of p with
  | None => (reg_run l [], Err ValueError)
  | Some s => if match table_run l s with Some _ => true | None => false end then (reg_run l [], Err KeyError)
              else (reg_run (l ++ [RAdd p]) [], Ok tt)
  end.
Proof. exact add_ok. Qed.
Print Assumptions C42_add.
Theorem C42_remove : forall l s,
  remove (reg_run l []) (Some s) =
  match table_run l s with None => (reg_run l [], Err KeyError) | Some _ => (reg_run (l ++ [RRemove (Some s)]) [], Ok tt) end.
Proof. exact remove_ok. Qed.
Print Assumptions C42_remove.
Theorem C42_identify : forall l expr,
  match table_run l expr with
  | Some p => identify (reg_run l []) expr = p
  | None =>
      (exists a s b p, order_run l = a ++ s :: b /\ table_run l s = Some p /\ sp_expr p = expr /\ identify (reg_run l []) expr = p /\
         forall s' p', In s' a -> table_run l s' = Some p' -> sp_expr p' <> expr) \/
      ((forall s p, table_run l s = Some p -> sp_expr p <> expr) /\ identify (reg_run l []) expr = anonymous expr)
  end.
Proof. exact identify_ok. Qed.
Print Assumptions C42_identify.
Example C42_case :
  order_run demo_ops = ["a"; "a2"]%string /\ table_run demo_ops "a"%string = Some (mksp "m+c" (Some "a") None None)%string /\
  table_run demo_ops "gone"%string = None /\ reg_iter (reg_run demo_ops []) = [Some "a"; Some "a2"]%string /\
  identify (reg_run demo_ops []) "m+c" = mksp "m+c" (Some "a") None None /\ identify (reg_run demo_ops []) "a" = mksp "m+c" (Some "a") None None /\
  identify (reg_run demo_ops []) "new" = anonymous "new".
Proof. vm_compute. repeat split; reflexivity. Qed.

Theorem C73_value : forall V (E : outside V) r n expr v,
  evaluate n E r expr = Ok v -> has_value E r (identify r expr) v.
Proof. exact @resolve_sound. Qed.
Print Assumptions C73_value.
Theorem C73_found : forall V (E : outside V) r expr v,
  has_value E r (identify r expr) v -> exists n, forall m, (n <= m)%nat -> evaluate m E r expr = Ok v.
Proof. exact @resolve_complete. Qed.
Print Assumptions C73_found.
Theorem C73_failure : forall V (E : outside V) r n expr x,
  evaluate n E r expr = Err x -> x <> Diverges -> forall v, ~ has_value E r (identify r expr) v.
Proof. exact @resolve_failed. Qed.
Print Assumptions C73_failure.
Theorem C73_unique : forall V (E : outside V) r name v v', means E r name v -> means E r name v' -> v = v'.
Proof. exact (fun V E r name v v' H => means_fun E r name v H v'). Qed.
Print Assumptions C73_unique.
Theorem C73_cycle_refuted : exists r : registry, exists l, r = reg_run l [] /\ reg_mem r (Some "a"%string) = true /\
  forall n, evaluate n demo_out r "a" = Err Diverges.
Proof. exists cyclic. eexists. split; [reflexivity|]. split; [reflexivity|exact cycle]. Qed.
Print Assumptions C73_cycle_refuted.
(** a property registered under the name of an atomic one: asked for it is used, mentioned it is ignored *)
Theorem C73_atomic_refuted : exists r : registry, exists l, r = reg_run l [] /\
  evaluate 3 demo_out r "x" = Ok 5%Z /\ evaluate 3 demo_out r "b" = Ok 7%Z /\ sp_expr (identify r "b") = "x"%string.
Proof. exists redefined. eexists. split; [reflexivity|]. vm_compute. repeat split; reflexivity. Qed.
Print Assumptions C73_atomic_refuted.
Example C73_case :
  let r := reg_run demo_ops [] in
  evaluate 4 demo_out r "a+x" = Ok 12%Z /\ evaluate 4 demo_out r "a+a2" = Ok 10%Z /\ evaluate 4 demo_out r "alpha" = Err KeyError /\
  evaluate 4 demo_out r "pi" = Ok 32%Z /\ evaluate 4 demo_out r "e" = Ok 27%Z /\ evaluate 1 demo_out r "a+a2" = Err Diverges.
Proof. vm_compute. repeat split; reflexivity. Qed.
