(** Objects apart from all others; the values of results. *)
From Coq Require Import Lia.
From Verif Require Import PyBase PyBaseFacts NumpyModel AxisModel NdModel NdFacts FieldModel HeapModel HeapSpec HeapFacts HeapLaws.
Local Open Scope nat_scope.

(** object r has no part in common with any other object *)
Definition apart (w : world) (r : nat) : Prop := exists o, nth_error (w_objs w) r = Some o /\
  forall y oy, nth_error (w_objs w) y = Some oy -> y <> r -> o_block oy <> o_block o /\ o_axes oy <> o_axes o /\ o_ats oy <> o_ats o /\ o_tao oy <> o_tao o.
Lemma apart_step c w w' x r : all_ok w -> effect c w w' x -> apart w r -> target c <> None -> (forall x y, c <> MMatrix x (AOf y)) -> apart w' r.
Proof.
  intros A E (o & Ho & H) T NM. destruct E as [-> _ _|o' T' _ _ _ _ _|x' o' b' _ _ Ho' ->|x' o' l _ _ Ho' ->|x' o' l _ _ Ho' ->|x' o' l _ _ Ho' ->|x' o' b' v _ -> Ho' G Ob Lb X1 X2 X3 D]; try congruence; try (exists o; split; [exact Ho|exact H]).
  destruct D as [(F & _)|(y & Sy & _)]; [|destruct c as [ | | | | | | | | | |? [|]| | |]; cbn in T; try congruence; cbn in Sy; try discriminate; exfalso; eapply NM; reflexivity].
  destruct (Nat.eq_dec r x') as [->|N].
  - rewrite Ho in Ho'. injection Ho' as <-. exists (mkobj b' v (o_axes o) (o_ats o) (o_tao o) (o_name o) (o_unit o)). split; [rewrite Ob; exact (upd_at _ _ _ _ Ho)|]. intros y oy Hy Ny. rewrite Ob, upd_away in Hy by exact Ny. destruct (H y oy Hy Ny) as (H1 & H2 & H3 & H4). cbn. destruct (A y oy Hy) as (K & _). repeat split; auto. lia.
  - exists o. split; [rewrite Ob, upd_away by exact N; exact Ho|]. intros y oy Hy Ny. rewrite Ob in Hy. destruct (Nat.eq_dec y x') as [->|N'].
    + rewrite (upd_at _ _ _ _ Ho') in Hy. injection Hy as <-. destruct (H x' o' Ho' Ny) as (H1 & H2 & H3 & H4). cbn. destruct (A r o Ho) as (K & _). repeat split; auto. lia.
    + rewrite upd_away in Hy by exact N'. exact (H y oy Hy Ny).
Qed.
Lemma value_shape w x f : value w x = Ok f -> f = mkField (f_data f) (mkLayer (f_axes f) (f_ats f) (f_tao f) (l_name (f_top f)) (l_unit (f_top f))) [].
Proof. intro V. unfold value in V. apply bind_ok in V as (o & _ & V). apply bind_ok in V as (a & _ & V). apply bind_ok in V as (l & _ & V). injection V as <-. unfold f_axes, f_ats, f_tao. cbn. now destruct l. Qed.
Lemma keeps_value w w' y (P Q S : Prop) : keeps w w' y P Q S -> P -> Q -> S -> value w' y = value w y.
Proof.
  intros (f & f' & V & V' & Nm & Un & D & X & L) p q s. rewrite V, V'. f_equal. rewrite (value_shape _ _ _ V), (value_shape _ _ _ V'). rewrite (D p), (X q), Nm, Un. destruct (L s) as [-> ->]. reflexivity.
Qed.
Lemma apart_value c w w' x r y : all_ok w -> effect c w w' x -> apart w r -> exists_in w y -> (forall z, target c = Some z -> (z = r /\ y <> r) \/ (z <> r /\ y = r)) -> value w' y = value w y.
Proof.
  intros A E (o & Ho & H) Ly T. apply (keeps_value _ _ _ _ _ _ (effect_keeps c w w' x y A E Ly)); intros z oz oy Tz Hz Hy; destruct (T z Tz) as [[-> N]|[N ->]].
  1,3,5: rewrite Ho in Hz; injection Hz as <-; destruct (H y oy Hy N) as (H1 & H2 & H3 & H4); auto.
  all: rewrite Ho in Hy; injection Hy as <-; destruct (H z oz Hz N) as (H1 & H2 & H3 & H4); auto.
Qed.
Lemma effect_objs c w w' x : effect c w w' x -> target c <> None -> length (w_objs w') = length (w_objs w).
Proof. intros E T. destruct E as [-> _ _|o' T' _ _ _ _ _|x' o' b' _ _ Ho' ->|x' o' l _ _ Ho' ->|x' o' l _ _ Ho' ->|x' o' l _ _ Ho' ->|x' o' b' v _ -> Ho' G Ob Lb X1 X2 X3 D]; try congruence; try reflexivity. rewrite Ob. apply upd_len. Qed.
Lemma apart_exec spl r y : forall ms w w' rs, all_ok w -> apart w r -> exists_in w y -> Forall (through (fun z => (z = r /\ y <> r) \/ (z <> r /\ y = r))) ms -> exec spl ms w = (w', rs) -> value w' y = value w y.
Proof.
  induction ms as [|m ms IH]; intros w w' rs A Ap Ly F E; cbn [exec] in E; [now injection E as <- _|]. inversion F as [|m0 ms0 ((x & Tx & Px) & NM) F']; subst.
  destruct (run spl m w) as [[w1 x1]|e] eqn:Er.
  - destruct (exec spl ms w1) as [w2 l] eqn:E2. injection E as <- _. assert (Ef := run_effect spl m w w1 x1 A Er). assert (T : target m <> None) by congruence. assert (A1 := effect_ok _ _ _ _ A Ef).
    rewrite (IH w1 w2 l A1 (apart_step _ _ _ _ _ A Ef Ap T NM)); [|unfold exists_in in *; now rewrite (effect_objs _ _ _ _ Ef T)|exact F'|exact E2].
    apply (apart_value m w w1 x1 r y A Ef Ap Ly). intros z Tz. rewrite Tx in Tz. injection Tz as <-. exact Px.
  - destruct (exec spl ms w) as [w2 l] eqn:E2. injection E as <- _. exact (IH w w2 l A Ap Ly F' E2).
Qed.
Lemma new_apart spl h w c w1 r : reachable spl h w -> independent c -> run spl c w = Ok (w1, r) -> apart w1 r /\ all_ok w1 /\ r = length (w_objs w) /\ length (w_objs w1) = S r.
Proof.
  intros R (T & Sd & Sl) E. assert (I := reachable_inv spl h w R). assert (A := i_ok _ _ I). assert (Ef := run_effect spl c w w1 r A E). assert (A1 := effect_ok _ _ _ _ A Ef).
  destruct Ef as [_ _ (_ & X)|o' T' (Co & Cg & Ck) -> Fx Fl Fb|x' o' b' T' _ _ _|x' o' l T' _ _ _|x' o' l T' _ _ _|x' o' l T' _ _ _|x' o' b' v T' _ _ _ _ _ _ _ _ _]; try congruence.
  destruct Fl as [(F1 & F2)|(s & Sc & _)]; [|congruence]. destruct Fb as [F|(s & Sc & _)]; [|congruence]. split; [|split; [exact A1|split; [reflexivity|rewrite Co, app_length; cbn; lia]]].
  exists o'. split; [rewrite Co, nth_error_app2 by lia; now rewrite Nat.sub_diag|]. intros y oy Hy N. rewrite Co in Hy. assert (L : y < length (w_objs w)). { destruct (Nat.lt_ge_cases y (length (w_objs w))); [assumption|]. rewrite nth_error_app2 in Hy by assumption. destruct (y - length (w_objs w)) as [|[|]] eqn:Z; try discriminate. lia. }
  rewrite nth_error_app1 in Hy by exact L. destruct (A y oy Hy) as (K1 & K2 & K3 & K4). unfold fresh_block, fresh_axes in *. repeat split; lia.
Qed.
Lemma independent_apart spl h w c w1 r ms w2 rs : reachable spl h w -> independent c -> run spl c w = Ok (w1, r) -> exec spl ms w1 = (w2, rs) ->
  (Forall (through (fun z => z = r)) ms -> forall y, exists_in w1 y -> y <> r -> value w2 y = value w1 y) /\
  (Forall (through (fun z => z <> r)) ms -> value w2 r = value w1 r).
Proof.
  intros R I E X. destruct (new_apart spl h w c w1 r R I E) as (Ap & A1 & _ & L). split.
  - intros F y Ly N. apply (apart_exec spl r y ms w1 w2 rs A1 Ap Ly); [|exact X]. revert F. apply Forall_impl. intros m ((x & T & ->) & NM). split; [exists r; auto|exact NM].
  - intro F. apply (apart_exec spl r r ms w1 w2 rs A1 Ap); [unfold exists_in; lia| |exact X]. revert F. apply Forall_impl. intros m ((x & T & N) & NM). split; [exists x; auto|exact NM].
Qed.
