(** Which Field objects kspace and its relatives write to. *)
From Coq Require Import Reals String Ascii List ZArith Lia Bool.
From Verif Require Import PyBase PyBaseFacts NumpyModel NdModel NdFacts FieldModel CplxModel FftModel FftSpec KspaceModel KspaceSpec.
Import ListNotations.
Local Open Scope nat_scope.

(** [m] started in a store of at least n objects writes, among the first n, only to those in W;
    its result satisfies Q *)
Definition tame (n : nat) (W : nat -> Prop) {A} (m : ST A) (Q : A -> Prop) : Prop :=
  forall s s' r, n <= length s -> m s = (s', r) ->
    length s <= length s' /\ (forall a, a < n -> ~ W a -> nth_error s' a = nth_error s a) /\ (forall x, r = Ok x -> Q x).
Lemma tame_ret n W {A} (x : A) (Q : A -> Prop) : Q x -> tame n W (sret x) Q.
Proof. intros H s s' r L E. injection E as <- <-. split; [lia|]. split; [reflexivity|]. intros y [= <-]. exact H. Qed.
Lemma tame_lift n W {A} (x : res A) (Q : A -> Prop) : (forall y, x = Ok y -> Q y) -> tame n W (lift x) Q.
Proof. intros H s s' r L E. injection E as <- <-. split; [lia|]. split; [reflexivity|]. exact H. Qed.
Lemma tame_lift' n W {A} (x : res A) : tame n W (lift x) (fun _ => True).
Proof. now apply tame_lift. Qed.
Lemma tame_bind n W {A B} (m : ST A) (k : A -> ST B) Q Q' : tame n W m Q -> (forall x, Q x -> tame n W (k x) Q') -> tame n W (sbind m k) Q'.
Proof.
  intros M K s s' r L E. unfold sbind in E. destruct (m s) as [s1 [x|e]] eqn:Em; destruct (M _ _ _ L Em) as (L1 & F1 & Q1).
  - destruct (K x (Q1 _ eq_refl) _ _ _ (Nat.le_trans _ _ _ L L1) E) as (L2 & F2 & Q2). split; [lia|]. split; [|exact Q2]. intros a La Wa. rewrite F2, F1; auto.
  - injection E as <- <-. split; [lia|]. split; [exact F1|discriminate].
Qed.
Lemma tame_load n W a : tame n W (load a) (fun _ => True).
Proof. intros s s' r L E. injection E as <- <-. split; [lia|]. split; [reflexivity|trivial]. Qed.
Lemma tame_alloc n W f : tame n W (alloc f) (fun a => n <= a).
Proof.
  intros s s' r L E. injection E as <- <-. rewrite app_length. cbn. split; [lia|]. split; [intros a La _; now rewrite nth_error_app1 by lia|]. intros x [= <-]. exact L.
Qed.
Lemma tame_assign n W a f : n <= a \/ W a -> tame n W (assign a f) (fun _ => True).
Proof.
  intros H s s' r L E. injection E as <- <-. rewrite upd_length. split; [lia|]. split; [|trivial]. intros b Lb Wb. rewrite nth_error_upd. destruct (Nat.eqb_spec b a) as [->|]; [destruct H; [lia|contradiction]|reflexivity].
Qed.
Lemma tame_weaken n W {A} (m : ST A) (Q Q' : A -> Prop) : tame n W m Q -> (forall x, Q x -> Q' x) -> tame n W m Q'.
Proof. intros M H s s' r L E. destruct (M s s' r L E) as (A1 & A2 & A3). split; [exact A1|]. split; [exact A2|]. intros x Ex. apply H, A3, Ex. Qed.
Lemma tame_for n W {A B} (f : A -> ST B) (Q : B -> Prop) l : (forall x, In x l -> tame n W (f x) Q) -> tame n W (sfor f l) (Forall Q).
Proof.
  induction l as [|x l IH]; cbn [sfor]; intro H; [apply tame_ret; constructor|].
  apply tame_bind with (Q := Q); [apply H; now left|]. intros y Qy. apply tame_bind with (Q := Forall Q); [apply IH; intros z I; apply H; now right|]. intros ys Qs. apply tame_ret. now constructor.
Qed.
Definition at_or n (a b : nat) : Prop := b = a \/ n <= b.
Lemma tame_ensure n W spl b a : tame n W (ensure_at spl b a) (at_or n a).
Proof.
  unfold ensure_at. eapply tame_bind; [apply tame_load|]. intros f _. eapply tame_bind; [apply tame_lift'|]. intros ok _. destruct ok; [apply tame_ret; now left|].
  eapply tame_bind; [apply tame_lift'|]. intros g _. eapply tame_weaken; [apply tame_alloc|]. intros x Hx. now right.
Qed.
Lemma tame_deepcopy n W a : tame n W (deepcopy a) (fun b => n <= b).
Proof. unfold deepcopy. eapply tame_bind; [apply tame_load|]. intros f _. apply tame_alloc. Qed.
Ltac go := eapply tame_bind; [first [apply tame_load|apply tame_lift'|apply tame_alloc|apply tame_deepcopy|apply tame_ensure]|intros].
Lemma tame_other n W spl lin ip other fields pol sh axes pre origin Dx dx result i : n <= result \/ W result ->
  tame n W (other_field spl lin ip other fields pol sh axes pre origin Dx dx result i) (fun _ => True).
Proof.
  intro HR. unfold other_field. destruct (_ <? _)%Z; [|now apply tame_ret]. destruct (field_key _ _); [|apply tame_lift']. destruct (dget _ _); [|apply tame_lift'].
  go. go. go.
  apply tame_bind with (Q := fun b => n <= b).
  { destruct x1 as [|]; [now apply tame_ret|]. destruct ip; (eapply tame_weaken; [apply tame_ensure|intros y [-> | ?]; assumption]). }
  intros b Hb. go. go. go. go. go. destruct (negb _); [apply tame_lift'|]. destruct (negb _); [apply tame_lift'|]. destruct (negb _); [apply tame_lift'|].
  apply tame_bind with (Q := fun b => n <= b).
  { destruct ip; [now apply tame_ret| |now apply tame_ret]. eapply tame_bind; [eapply tame_weaken; [apply tame_ensure|intros y [-> | ?]; [exact Hb|assumption]]|]. intros. go. go. apply tame_alloc. }
  intros b' Hb'. apply tame_bind with (Q := fun b => n <= b); [eapply tame_weaken; [apply tame_ensure|intros y [-> | ?]; assumption]|]. intros b2 Hb2.
  apply tame_bind with (Q := fun _ => True).
  { destruct ip; try now apply tame_ret. go. go. apply tame_assign. now left. }
  intros _ _. go. go. now apply tame_assign.
Qed.
(** the addresses of a dictionary are old or new *)
Definition all_new n (d : dict) : Prop := Forall (fun p => n <= snd p) d.
Lemma dget_In d k a : dget d k = Some a -> In (k, a) d.
Proof. induction d as [|[j b] d IH]; cbn; [discriminate|]. destruct (String.eqb_spec j k) as [->|]; [intros [= ->]; now left|]. intro H. right. now apply IH. Qed.
Lemma tame_cut n W spl cut component fields : tame n W (cut_fields spl cut component fields) (fun d => match cut with None => d = fields | Some _ => all_new n d end).
Proof.
  unfold cut_fields. destruct cut as [ct|]; [|now apply tame_ret]. unfold dmap.
  eapply tame_bind; [apply tame_for with (Q := fun _ => True); intros p _; go; now apply tame_ret|]. intros d _. destruct (dget d component).
  - go. apply tame_for. intros p _. eapply tame_bind with (Q := fun a => n <= a); [go; go; apply tame_alloc|]. intros a Ha. apply tame_ret. exact Ha.
  - now apply tame_lift.
Qed.
Lemma kspace_frame spl lin cut omega ip component fields s s' r : kspace spl lin cut omega ip component fields s = (s', r) ->
  unchanged_except (fun a => exists pol ax rest p key f, component = String pol (String ax rest) /\ cut = None /\ axis_letter ax = Ok p /\ field_key pol p = Some key /\ dget fields key = Some a /\ nth_error s a = Some f /\ in_domain f true = Ok true) s s'.
Proof.
  intros E a0 f0 Ef HW. assert (L0 : a0 < length s) by (apply nth_error_Some; congruence).
  unfold kspace in E. destruct component as [|pol [|ax rest]]; [injection E as <- _; exact Ef| |].
  { assert (T : tame (length s) (fun _ => False) (sbind (cut_fields spl cut (String pol "") fields) (fun _ => @lift nat (Err IndexError))) (fun _ => True)) by (eapply tame_bind; [apply tame_cut|intros; apply tame_lift']).
    destruct (T _ _ _ (le_n _) E) as (_ & F & _). rewrite F; auto. }
  set (W := fun a : nat => exists p key f, cut = None /\ axis_letter ax = Ok p /\ field_key pol p = Some key /\ dget fields key = Some a /\ nth_error s a = Some f /\ in_domain f true = Ok true).
  assert (HW' : ~ W a0) by (intros (p & key & f & H); apply HW; exists pol, ax, rest, p, key, f; tauto). clear HW.
  unfold sbind at 1 in E. destruct (cut_fields spl cut (String pol (String ax rest)) fields s) as [s1 [fields'|e]] eqn:Ec;
    destruct (tame_cut (length s) (fun _ => False) spl cut (String pol (String ax rest)) fields _ _ _ (le_n _) Ec) as (L1 & F1 & Q1); [|injection E as <- <-; rewrite F1; auto].
  specialize (Q1 _ eq_refl).
  unfold sbind at 1, lift at 1 in E. destruct (axis_letter ax) as [p|e] eqn:Ep; [|injection E as <- <-; rewrite F1; auto].
  destruct (field_key pol p) as [key|] eqn:Ek; [|injection E as <- <-; rewrite F1; auto].
  destruct (dget fields' key) as [a|] eqn:Ea; [|injection E as <- <-; rewrite F1; auto].
  unfold sbind at 1 in E. destruct (ensure_at spl true a s1) as [s2 [a2|e]] eqn:Ee; destruct (tame_ensure (length s) (fun _ => False) spl true a _ _ _ L1 Ee) as (L2 & F2 & Q2); [|injection E as <- <-; rewrite F2, F1; auto; lia].
  assert (HR : length s <= a2 \/ W a2).
  { destruct (Q2 _ eq_refl) as [-> |H]; [|now left]. destruct cut as [ct|]; [left; apply dget_In in Ea; unfold all_new in Q1; rewrite Forall_forall in Q1; exact (Q1 _ Ea)|].
    right. subst fields'. exists p, key. assert (s1 = s) by (now injection Ec). subst s1. unfold ensure_at, sbind, load, lift in Ee. destruct (nth_error s a) as [f|] eqn:Hf; [|discriminate Ee].
    destruct (in_domain f true) as [[|]|] eqn:Hd; [|destruct (ensure_domain spl f true); [|discriminate Ee]; unfold alloc in Ee; injection Ee as _ Ee; rewrite <- Ee in Hf; exfalso; assert (length s < length s) by (apply nth_error_Some; congruence); lia|discriminate Ee].
    exists f. tauto. }
  match type of E with ?m s2 = _ => assert (T : tame (length s) W m (fun _ => True)) end.
  { go. go. go. go. go. eapply tame_bind; [apply tame_other; exact HR|]. intros. eapply tame_bind; [apply tame_other; exact HR|]. intros. now apply tame_ret. }
  destruct (T _ _ _ (Nat.le_trans _ _ _ L1 L2) E) as (_ & F3 & _). rewrite F3, F2, F1; auto; lia.
Qed.
