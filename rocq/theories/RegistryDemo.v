(** Concrete cases for PropRegistry: expressions that are a single name, or the sum of two names. *)
From Verif Require Import PyBase PyBaseFacts NumpyModel NdModel RegistryModel RegistrySpec RegistryFacts.
Open Scope string_scope.
Open Scope Z_scope.

(** expressions: "a+b" adds, every other one is the name itself; one particle at x = 7 with
    mass 2, c = 3, and a numpy constant pi = 31 that scipy knows as 32 *)
Definition demo_names (e : string) : list string :=
  if String.eqb e "a+x" then ["a"; "x"] else if String.eqb e "m+c" then ["c"; "m"] else if String.eqb e "a+a2" then ["a"; "a2"] else [e].
Definition demo_out : outside Z :=
  mkout demo_names (fun _ l => Ok (fold_right Z.add 0 l))
    (fun k => if String.eqb k "x" then Ok 7 else if String.eqb k "mass" then Ok 2 else Err KeyError)
    (fun k => if String.eqb k "pi" then Some 31 else if String.eqb k "e" then Some 27 else None)
    (fun k => if String.eqb k "c" then Some 3 else if String.eqb k "pi" then Some 32 else None).
Definition demo_ops : list regop :=
  [RAdd (mksp "m+c" (Some "a") None None); RAdd (mksp "a" (Some "alpha") None (Some "a2")); RAdd (mksp "x" (Some "a") None None);
   RAdd (mksp "q" (Some "gone") None None); RRemove (Some "gone"); RRemove (Some "never"); RAdd (anonymous "z")].
(** mutually recursive definitions *)
Definition cyclic : registry := reg_run [RAdd (mksp "b" (Some "a") None None); RAdd (mksp "a" (Some "b") None None)] [].
Lemma cyclic_diverges : forall n vs, sget vs "a" = None -> sget vs "b" = None ->
  eval_sp n demo_out cyclic (mksp "b" (Some "a") None None) vs = Err Diverges /\
  eval_sp n demo_out cyclic (mksp "a" (Some "b") None None) vs = Err Diverges.
Proof.
  induction n as [|n IH]; intros vs A B; [split; reflexivity|]. destruct (IH vs A B) as [IA IB].
  split; cbn [eval_sp sp_expr demo_out o_names].
  - change (demo_names "b") with ["b"]. cbn [load]. rewrite B. change (synonym "b") with "b". cbn zeta. rewrite B.
    change (existsb (String.eqb "b") atomic_names) with false. cbv iota. change (reg_get cyclic (Some "b")) with (Some (mksp "a" (Some "b") None None)). cbv iota.
    rewrite IB. reflexivity.
  - change (demo_names "a") with ["a"]. cbn [load]. rewrite A. change (synonym "a") with "a". cbn zeta. rewrite A.
    change (existsb (String.eqb "a") atomic_names) with false. cbv iota. change (reg_get cyclic (Some "a")) with (Some (mksp "b" (Some "a") None None)). cbv iota.
    rewrite IA. reflexivity.
Qed.
Lemma cycle : forall n, evaluate n demo_out cyclic "a" = Err Diverges.
Proof. intro n. unfold evaluate. change (identify cyclic "a") with (mksp "b" (Some "a") None None). now rewrite (proj1 (cyclic_diverges n [] eq_refl eq_refl)). Qed.
(** x redefined as m+c *)
Definition redefined : registry := reg_run [RAdd (mksp "m+c" (Some "x") None None); RAdd (mksp "x" (Some "b") None None)] [].
