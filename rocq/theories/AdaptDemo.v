(** Cases for the theorems about the adaptive propagation. *)
From Coq Require Import Reals Lra Lia.
From Verif Require Import PyBase NdModel AdaptModel AdaptSpec AdaptFacts.
Local Open Scope R_scope.

(** fields given by their domain and box, which nothing changes but the transform *)
Definition demo_ops : adapt_ops (bool * list (R * R)) :=
  mkOps (fun f => Some (fst f)) (fun f => Ok (negb (fst f), snd f)) (fun f => Ok f) snd (fun f _ => Ok f) (fun f _ _ => Ok f) (fun f => Ok f).
Definition demo_field : bool * list (R * R) := (false, [(0, 1); (0, 2)]).
Definition mixed_ops : adapt_ops (bool * list (R * R)) :=
  mkOps (fun _ => None) (fun f => Ok f) (fun f => Ok f) snd (fun f _ => Ok f) (fun f _ _ => Ok f) (fun f => Ok f).
Definition fixed_ops : adapt_ops bool :=
  mkOps (fun f => Some f) (fun f => Ok (negb f)) (fun f => Ok f) (fun _ => [(0, 1); (0, 2)]) (fun f _ => Ok f) (fun f _ _ => Ok f) (fun f => Ok f).
Lemma demo_well : well_behaved demo_ops.
Proof.
  split; [intros [d box] b [= <-]; exists (negb d, box); cbn; rewrite Bool.negb_involutive; repeat split|]. repeat split; cbn in H; now injection H as <-.
Qed.
Lemma demo_axis : names_axis (length (op_box demo_ops demo_field)) (-2) 0.
Proof. split; cbn; [lia|right; reflexivity]. Qed.
Lemma demo_step axis : (axis = 0 \/ axis = -2)%Z -> adapt_step demo_ops 1 false axis [1; 0] (1 / 2) (0, demo_field) = Ok ((1, demo_field), (1, demo_field)).
Proof.
  intro H. assert (E : forall a, adapt_step demo_ops 1 false a [1; 0] (1 / 2) (0, demo_field) = adapt_step demo_ops 1 false a [1; 0] (1 / 2) (0, demo_field)) by reflexivity. clear E.
  assert (M : 0 + / 2 * ((Rabs (2 - 0) + 0) / 1) / 1 = 1) by (replace (2 - 0) with 2 by ring; rewrite Rabs_pos_eq by lra; field).
  destruct H as [->| ->]; unfold adapt_step; cbn; unfold rlength, centre; cbn; (destruct (Req_EM_T _ _) as [E|_]; [exfalso; replace (2 - 0) with 2 in E by ring; rewrite Rabs_pos_eq in E by lra; lra|]); cbn; rewrite M; reflexivity.
Qed.
Lemma demo_start axis : (axis = 0 \/ axis = -2)%Z -> adapt_start demo_ops axis demo_field = Ok (false, demo_field, [1; 0], 1 / 2).
Proof. intros [->| ->]; unfold adapt_start; cbn; unfold centre; cbn; replace ((0 + 1) / 2) with (1 / 2) by field; reflexivity. Qed.
Lemma demo_run : adaptive demo_ops 1 demo_field (-2) None true 2 = ([(0, demo_field); (1, demo_field)], More).
Proof. unfold adaptive. rewrite demo_start by now right. cbn [stops adapt_loop]. rewrite demo_step by now right. reflexivity. Qed.
Lemma demo_stop : adaptive demo_ops 1 demo_field 0 (Some (1 / 2)) false 5 = ([(1, demo_field)], Finished).
Proof.
  unfold adaptive. rewrite demo_start by now left. cbn [adapt_loop]. rewrite demo_step by now left. cbn [fst]. assert (E : stops (Some (1 / 2)) 1 = true) by (apply stops_true; exists (1 / 2); repeat split; lra). rewrite E. reflexivity.
Qed.
Lemma demo_prefix : fst (adaptive demo_ops 1 demo_field (-2) None true 1) = [(0, demo_field)] /\ fst (adaptive demo_ops 1 demo_field (-2) None true 2) = [(0, demo_field); (1, demo_field)].
Proof. split; [|now rewrite demo_run]. unfold adaptive. rewrite demo_start by now right. reflexivity. Qed.
Lemma demo_zero : exists t, 0 < t /\ adaptive demo_ops 1 demo_field (-2) (Some 0) true 2 = ([(0, demo_field); (t, demo_field)], More).
Proof.
  exists 1. split; [lra|]. assert (E : forall t, stops (Some 0) t = false) by (intro t; unfold stops; destruct (Req_EM_T 0 0) as [_|N]; [reflexivity|exfalso; now apply N]).
  unfold adaptive. rewrite demo_start by now right. rewrite E. cbn [adapt_loop]. rewrite demo_step by now right. cbn [fst]. rewrite E. reflexivity.
Qed.
Lemma fixed_case : well_behaved fixed_ops /\ in_space fixed_ops true false /\ names_axis (length (op_box fixed_ops false)) 0 0 /\ (forall s r, op_reduce fixed_ops s = Ok r -> 2 <= across (op_box fixed_ops r) 0) /\ 2 + 3 * (2 * 1) / 2 < INR 6.
Proof.
  split; [split; [intros d b [= <-]; exists (negb d); cbn; rewrite Bool.negb_involutive; repeat split|repeat split; cbn in H; now injection H as <-]|].
  split; [reflexivity|]. split; [split; cbn; [lia|left; reflexivity]|]. split; [|cbn; lra].
  intros s r _. unfold across. cbn. replace (2 - 0) with 2 by ring. replace (1 - 0) with 1 by ring. rewrite !Rabs_pos_eq by lra. lra.
Qed.
