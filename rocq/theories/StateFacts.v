(** Lemmas on the domain of the dimensions which atleast_nd appends. *)
From Coq Require Import Lia.
From Verif Require Import PyBase PyBaseFacts NumpyModel NdModel NdFacts AxisModel AxisSpec AxisFacts FieldModel FieldSpec FieldRearrFacts FieldIndexFacts AxisKeepSpec FieldIntFacts.

Lemma forallb_all (b : bool) st : forallb (fun s => match s with Some c => Bool.eqb b c | None => false end) st = true <-> Forall (eq (Some b)) st.
Proof.
  rewrite forallb_forall, Forall_forall. split; intros H x I; specialize (H x I).
  - destruct x as [c|]; [|discriminate]. apply Bool.eqb_prop in H. now subst.
  - subst x. apply Bool.eqb_reflx.
Qed.
Lemma state_common {V} (f : field V) st : consistent f -> nonempty (f_shape f) -> transform_state f = Ok st -> common_state (f_ats f) st.
Proof.
  intros (L & _ & L2 & _) Hne. unfold transform_state. rewrite (nonempty_dims _ Hne), Nat2Z.id.
  rewrite (mapM_map _ (fun i => nth i (f_ats f) None)).
  2:{ intros i Hin. apply in_seq in Hin. apply getidx_at. lia. }
  cbn [bind]. assert (M : map (fun i => nth i (f_ats f) None) (seq 0 (length (f_shape f))) = f_ats f) by (replace (length (f_shape f)) with (length (f_ats f)) by congruence; apply map_nth_seq). rewrite M.
  pose proof (forallb_all true (f_ats f)) as T. pose proof (forallb_all false (f_ats f)) as F.
  assert (ET : forall l, forallb (fun s : option bool => match s with Some true => true | _ => false end) l = forallb (fun s => match s with Some c => Bool.eqb true c | None => false end) l) by (intro l; induction l as [|[[|]|] l IH]; cbn; auto).
  assert (EF : forall l, forallb (fun s : option bool => match s with Some false => true | _ => false end) l = forallb (fun s => match s with Some c => Bool.eqb false c | None => false end) l) by (intro l; induction l as [|[[|]|] l IH]; cbn; auto).
  rewrite ET, EF. intro H. split.
  - intros N b. destruct (forallb _ (f_ats f)) eqn:A in H.
    + injection H as <-. pose proof (proj1 T A) as T'. destruct b; [tauto|]. split; [discriminate|]. intro K. destruct (f_ats f) as [|x l]; [congruence|]. inversion K; inversion T'; congruence.
    + assert (T' : ~ Forall (eq (Some true)) (f_ats f)) by (intro K; apply T in K; congruence). destruct (forallb _ (f_ats f)) eqn:B in H.
      * injection H as <-. pose proof (proj1 F B). destruct b; [split; [discriminate|tauto]|tauto].
      * injection H as <-. assert (F' : ~ Forall (eq (Some false)) (f_ats f)) by (intro K; apply F in K; congruence). split; [discriminate|]. destruct b; tauto.
  - intro N. rewrite N in H. cbn in H. now injection H as <-.
Qed.
Lemma atleast_states {V} spl (f : field V) n : consistent f -> nonempty (f_shape f) -> Forall axis_proper (f_axes f) -> f_inner f = [] ->
  (Z.of_nat (length (f_shape f)) < n <= Z.of_nat max_dims)%Z ->
  exists g st, field_atleast_nd spl f n = Ok g /\ f_ats g = f_ats f ++ repeat st (Z.to_nat n - length (f_shape f)) /\ common_state (f_ats f) st.
Proof.
  intros Hf Hne Hp Hi Hn. unfold field_atleast_nd. rewrite (nonempty_dims _ Hne).
  destruct (Z.leb_spec n (Z.of_nat (length (f_shape f)))) as [H|H]; [lia|].
  destruct (transform_state_total f Hf Hne) as (st & E). rewrite E. cbn [bind].
  replace (Z.to_nat (n - Z.of_nat (length (f_shape f)))) with (Z.to_nat n - length (f_shape f))%nat by lia.
  destruct (add_dims_total spl st (Z.to_nat n - length (f_shape f)) f Hi ltac:(lia) Hp) as (g & Eg & W & Gi & Gp & A). exists g, st. split; [exact Eg|]. split; [exact A|]. now apply state_common.
Qed.
