(** Facts about labels and names (C126). *)
From Coq Require Import Lia.
From Verif Require Import PyBase LabelModel.
Local Open Scope string_scope.

Definition no_label (o : lab_op) : Prop := match o with SetLabel _ => False | _ => True end.
Definition no_name (o : lab_op) : Prop := match o with SetName _ => False | _ => True end.
Definition no_unit (o : lab_op) : Prop := match o with SetUnit _ => False | _ => True end.
Lemma run_app l l' f : lab_run (l ++ l')%list f = lab_run l' (lab_run l f).
Proof. apply fold_left_app. Qed.
Lemma keeps_label l : forall f, Forall no_label l -> lb_label (lab_run l f) = lb_label f.
Proof. induction l as [|o l IH]; intros f H; [reflexivity|]. inversion H as [|? ? Ho Hl]; subst. cbn [lab_run fold_left]. change (lb_label (lab_run l (lab_step f o)) = lb_label f). rewrite (IH _ Hl). now destruct o. Qed.
Lemma keeps_name l : forall f, Forall no_name l -> lb_name (lab_run l f) = lb_name f.
Proof. induction l as [|o l IH]; intros f H; [reflexivity|]. inversion H as [|? ? Ho Hl]; subst. change (lb_name (lab_run l (lab_step f o)) = lb_name f). rewrite (IH _ Hl). now destruct o. Qed.
Lemma keeps_unit l : forall f, Forall no_unit l -> lb_unit (lab_run l f) = lb_unit f.
Proof. induction l as [|o l IH]; intros f H; [reflexivity|]. inversion H as [|? ? Ho Hl]; subst. change (lb_unit (lab_run l (lab_step f o)) = lb_unit f). rewrite (IH _ Hl). now destruct o. Qed.
Lemma label_given pre post x f : x <> "" -> Forall no_label post -> field_label (lab_run (pre ++ SetLabel (Some x) :: post)%list f) = x.
Proof.
  intros N H. rewrite run_app. unfold field_label. change (lab_run (SetLabel (Some x) :: post) (lab_run pre f)) with (lab_run post (lab_step (lab_run pre f) (SetLabel (Some x)))). rewrite (keeps_label _ _ H). cbn. destruct (String.eqb_spec x ""); [contradiction|reflexivity].
Qed.
Lemma label_made l name unit : Forall (fun o => match o with SetLabel (Some x) => x = "" | _ => True end) l ->
  let f := lab_run l (new_labelled name unit) in field_label f = if String.eqb (lb_unit f) "" then lb_name f else (lb_name f ++ " [" ++ lb_unit f ++ "]").
Proof.
  intros H f. assert (G : lb_label f = None \/ lb_label f = Some ""); [|unfold field_label, made_label; destruct G as [-> | ->]; reflexivity].
  unfold f. assert (A : forall l g, Forall (fun o => match o with SetLabel (Some x) => x = "" | _ => True end) l -> (lb_label g = None \/ lb_label g = Some "") -> lb_label (lab_run l g) = None \/ lb_label (lab_run l g) = Some "").
  { clear. induction l as [|o l IH]; intros g H K; [exact K|]. inversion H as [|? ? Ho Hl]; subst. change (lab_run (o :: l) g) with (lab_run l (lab_step g o)). apply (IH _ Hl). destruct o as [[x|]|x|x]; cbn; [right; now rewrite Ho|now left|exact K|exact K]. }
  apply A; [exact H|now left].
Qed.
Lemma label_reset pre post f : Forall no_label post -> let g := lab_run (pre ++ SetLabel None :: post)%list f in field_label g = if String.eqb (lb_unit g) "" then lb_name g else (lb_name g ++ " [" ++ lb_unit g ++ "]").
Proof.
  intros H g. unfold field_label, made_label. assert (E : lb_label g = None); [|now rewrite E]. unfold g. rewrite run_app. change (lab_run (SetLabel None :: post) (lab_run pre f)) with (lab_run post (lab_step (lab_run pre f) (SetLabel None))). now rewrite (keeps_label _ _ H).
Qed.
Lemma name_current pre post x f : Forall no_name post -> lb_name (lab_run (pre ++ SetName x :: post)%list f) = x.
Proof. intro H. rewrite run_app. change (lb_name (lab_run post (lab_step (lab_run pre f) (SetName x))) = x). now rewrite (keeps_name _ _ H). Qed.
Lemma unit_current pre post x f : Forall no_unit post -> lb_unit (lab_run (pre ++ SetUnit x :: post)%list f) = x.
Proof. intro H. rewrite run_app. change (lb_unit (lab_run post (lab_step (lab_run pre f) (SetUnit x))) = x). now rewrite (keeps_unit _ _ H). Qed.

Lemma ident_kept l r : nm_ident (fold_left set_name l r) = nm_ident r.
Proof. revert r. induction l as [|v l IH]; intro r; [reflexivity|]. cbn [fold_left]. now rewrite IH. Qed.
Lemma name_assigned l v r : (truthy v = true -> pystr v <> "") ->
  reader_name (fold_left set_name (l ++ [v])%list r) = PText (if truthy v then pystr v else pystr (nm_ident r)).
Proof.
  intro N. rewrite fold_left_app. cbn [fold_left]. unfold reader_name, set_name. cbn [nm_name nm_ident]. rewrite ident_kept. destruct (truthy v) eqn:T; [|reflexivity]. cbn [truthy]. destruct (String.eqb_spec (pystr v) ""); [exfalso; now apply N|reflexivity].
Qed.
