(** Lemmas about the adaptive propagation. *)
From Coq Require Import Reals Lra Lia List.
From Verif Require Import PyBase PyBaseFacts NdModel NdFacts AdaptModel AdaptSpec.
Import ListNotations.
Local Open Scope R_scope.

Lemma upd_nth' {A} (l : list A) k x i d : nth i (upd l k x) d = if (i =? k)%nat then (if (k <? length l)%nat then x else d) else nth i l d.
Proof.
  revert k i. induction l as [|a l IH]; intros k i; cbn.
  - destruct k, i; cbn; try reflexivity. destruct (i =? k)%nat; reflexivity.
  - destruct k as [|k], i as [|i]; cbn; try reflexivity. rewrite IH. reflexivity.
Qed.
Lemma upd_len {A} (l : list A) k x : length (upd l k x) = length l.
Proof. revert k. induction l as [|a l IH]; intros [|k]; cbn; [reflexivity|reflexivity|reflexivity|]. now rewrite IH. Qed.
Lemma getidx_pos {A} (l : list A) axis k d : py_pos (length l) axis = Ok k -> (k < length l)%nat -> getidx l axis = Ok (nth k l d).
Proof. intros P H. apply getidx_some. exists k. split; [exact P|]. now apply nth_error_nth'. Qed.
Lemma sum_del l k : (k < length l)%nat -> fold_right Rplus 0 (del l k) = fold_right Rplus 0 l - nth k l 0.
Proof. revert k. induction l as [|a l IH]; intros [|k] H; cbn in *; [lia|lia|ring|]. rewrite IH by lia. ring. Qed.
Lemma del_len {A} (l : list A) k : (k < length l)%nat -> length (del l k) = (length l - 1)%nat.
Proof. revert k. induction l as [|a l IH]; intros [|k] H; cbn in *; [lia|lia|lia|]. rewrite IH by lia. lia. Qed.

Section steps.
Context {S : Type} (ops : adapt_ops S) (c : R) (axis : Z) (k : nat).
Hypothesis (Hw : well_behaved ops).

Lemma step_advances b mw x0 t s t' out t2 s2 : names_axis (length (op_box ops s)) axis k -> op_state ops s = Some false -> unit_vector (length (op_box ops s)) k mw ->
  adapt_step ops c b axis mw x0 (t, s) = Ok ((t', out), (t2, s2)) ->
  t2 = t' /\ op_state ops s2 = Some false /\ length (op_box ops s2) = length (op_box ops s) /\ (if b then op_fft ops s2 = Ok out else out = s2) /\
  exists r p padded q, op_reduce ops s = Ok r /\ t' - t = across (op_box ops r) k / 2 / c /\ padding (op_box ops r) k (across (op_box ops r) k / 2) (middle (op_box ops r) k - x0) p /\ op_pad ops r p = Ok padded /\
    op_propagate ops padded (t' - t) mw = Ok q /\ op_cut ops q = Ok s2.
Proof.
  intros [Hk Ha] Hs Hu E. destruct Hw as (_ & Wr & Wp & Wg & Wc). unfold adapt_step in E. cbn [fst snd] in E. apply bind_ok in E as (r & Er & E). destruct (Wr _ _ Er) as [Sr Lr].
  set (box := op_box ops r) in *. assert (Kb : (k < length box)%nat) by lia. assert (Pk : py_pos (length box) axis = Ok k) by (apply py_pos_ok; rewrite Lr; tauto).
  assert (Ed : delidx (map rlength box) axis = Ok (del (map rlength box) k)) by (unfold delidx; rewrite map_length, Pk; reflexivity). rewrite Ed in E. cbn [bind] in E.
  destruct (del (map rlength box) k) as [|z zs] eqn:Ez; [discriminate|]. rewrite <- Ez in E. assert (Em : rmean (del (map rlength box) k) = Some (across box k)).
  { unfold rmean. rewrite Ez. rewrite <- Ez. f_equal. unfold across. rewrite sum_del by (rewrite map_length; exact Kb). rewrite del_len, map_length by (rewrite map_length; exact Kb). f_equal. f_equal. rewrite (nth_indep _ 0 (rlength (0, 0))) by (rewrite map_length; exact Kb). rewrite map_nth. reflexivity. }
  rewrite Em in E. rewrite (getidx_pos box axis k (0, 0) Pk Kb) in E. cbn [bind] in E. rewrite (getidx_pos (map rlength box) axis k (rlength (0, 0))) in E by (rewrite map_length; assumption). rewrite map_nth in E. cbn [bind] in E.
  destruct (Req_EM_T _ _) as [_|Nx] in E; [discriminate|]. unfold setidx in E. rewrite repeat_length, Pk in E. cbn [bind] in E.
  apply bind_ok in E as (padded & Ep & E). apply bind_ok in E as (q & Eq & E). apply bind_ok in E as (g & Eg & E). apply bind_ok in E as (o & Eo & E). injection E as <- <- <- <-.
  destruct (Wp _ _ _ Ep) as [Sp Lp]. destruct (Wg _ _ _ _ Eq) as [Sq Lq]. destruct (Wc _ _ Eg) as [Sg Lg].
  split; [reflexivity|]. split; [congruence|]. split; [rewrite Lg, Lq, Lp; exact Lr|]. split; [destruct b; [exact Eo|now injection Eo]|].
  exists r. eexists. exists padded, q. fold box. split; [exact Er|]. assert (Et : t + / 2 * across box k / c - t = across box k / 2 / c) by (unfold Rdiv; ring). split; [exact Et|]. split; [|split; [exact Ep|split; [|exact Eg]]].
  - split; [now rewrite upd_len, repeat_length|]. intros i Hi. rewrite upd_nth', repeat_length. destruct (Nat.ltb_spec k (length box)); [|lia]. destruct (Nat.eqb_spec i k) as [->|_].
    + change (Rabs (snd (nth k box (0, 0)) - fst (nth k box (0, 0)))) with (rlength (nth k box (0, 0))). change (centre (nth k box (0, 0))) with (middle box k).
      replace (/ 2 * across box k) with (across box k / 2) by (unfold Rdiv; ring). f_equal; unfold Rdiv; ring.
    + rewrite (nth_indep _ _ (/ 2 * across box k, / 2 * across box k)) by (now rewrite repeat_length). rewrite nth_repeat. unfold Rdiv. f_equal; ring.
  - replace (t + / 2 * across box k / c - t) with (/ 2 * across box k / c) by ring. exact Eq.
Qed.

Lemma in_space_out (b : bool) out s2 : op_state ops s2 = Some false -> (if b then op_fft ops s2 = Ok out else out = s2) -> in_space ops out s2 /\ op_state ops out = Some b.
Proof.
  intros Hs Ho. destruct b.
  - destruct Hw as (Wf & _). destruct (Wf _ _ Hs) as (g & Eg & Sg & Bg). rewrite Ho in Eg. injection Eg as ->. cbn in Sg. unfold in_space. rewrite Sg. auto.
  - subst out. unfold in_space. rewrite Hs. auto.
Qed.
Lemma loop_chain b mw x0 tf n : forall t s prev l st, names_axis (length (op_box ops s)) axis k -> op_state ops s = Some false -> unit_vector (length (op_box ops s)) k mw -> in_space ops prev s ->
  adapt_loop ops c b axis mw x0 tf n (t, s) = (l, st) ->
  (forall i t1 f1 t2 f2, nth_error ((t, prev) :: l) i = Some (t1, f1) -> nth_error l i = Some (t2, f2) -> advances ops c k x0 t1 f1 t2 f2) /\
  (forall y, In y l -> op_state ops (snd y) = Some b).
Proof.
  induction n as [|n IH]; intros t s prev l st Ha Hs Hu Hp E; cbn in E.
  - injection E as <- <-. split; [intros [|i]; discriminate|intros y []].
  - destruct (adapt_step _ _ _ _ _ _ _) as [[[t' out] [t2 s2]]|e] eqn:Es; [|injection E as <- <-; split; [intros [|i]; discriminate|intros y []]].
    destruct (step_advances b mw x0 t s t' out t2 s2 Ha Hs Hu Es) as (-> & S2 & L2 & Ho & r & p & padded & q & A1 & A2 & A3 & A4 & A5 & A6).
    destruct (in_space_out b out s2 S2 Ho) as [Io So]. assert (First : advances ops c k x0 t prev t' out) by (exists s, r, p, padded, q, mw, s2; tauto). cbn [fst] in E.
    destruct (stops tf t').
    + injection E as <- <-. split; [|intros y [<-|[]]; exact So]. intros [|i] t1 f1 t3 f3; cbn; [intros [= <- <-] [= <- <-]; exact First|destruct i; discriminate].
    + destruct (adapt_loop _ _ _ _ _ _ _ _ _) as [l' st'] eqn:El. injection E as <- <-. rewrite <- L2 in Ha, Hu. destruct (IH t' s2 out l' st' Ha S2 Hu Io El) as [H1 H2]. split.
      * intros [|i] t1 f1 t3 f3; cbn; [intros [= <- <-] [= <- <-]; exact First|apply H1].
      * intros y [<-|Hy]; [exact So|now apply H2].
Qed.
Lemma start_ok field_in b s mw x0 : adapt_start ops axis field_in = Ok (b, s, mw, x0) -> names_axis (length (op_box ops s)) axis k ->
  op_state ops field_in = Some b /\ op_state ops s = Some false /\ in_space ops field_in s /\ unit_vector (length (op_box ops s)) k mw /\ x0 = middle (op_box ops s) k.
Proof.
  unfold adapt_start. intros E [Hk Ha]. destruct (op_state ops field_in) as [d|] eqn:Ed; [|discriminate]. apply bind_ok in E as (s' & Es & E). apply bind_ok in E as (v & Ev & E). apply bind_ok in E as (e & Ee & E). injection E as -> -> -> <-.
  assert (Pk : py_pos (length (op_box ops s)) axis = Ok k) by (apply py_pos_ok; tauto).
  rewrite (getidx_pos _ axis k (0, 0) Pk Hk) in Ee. injection Ee as <-. unfold window_vector, setidx in Ev. rewrite repeat_length, Pk in Ev. injection Ev as <-.
  assert (U : unit_vector (length (op_box ops s)) k (upd (repeat 0 (length (op_box ops s))) k 1)).
  { split; [now rewrite upd_len, repeat_length|]. intros i Hi. rewrite upd_nth', repeat_length. destruct (Nat.ltb_spec k (length (op_box ops s))); [|lia]. destruct (Nat.eqb_spec i k); [reflexivity|]. apply nth_repeat. }
  destruct b.
  - destruct Hw as (Wf & _). destruct (Wf _ _ Ed) as (g & Eg & Sg & _). rewrite Es in Eg. injection Eg as <-. unfold in_space. rewrite Ed. repeat split; try assumption; apply U.
  - injection Es as ->. unfold in_space. rewrite Ed. repeat split; try assumption; apply U.
Qed.
End steps.

Section any.
Context {S : Type} (ops : adapt_ops S) (c : R).

Lemma stops_true tf t : stops tf t = true <-> exists f, tf = Some f /\ f <> 0 /\ f < t.
Proof.
  unfold stops. destruct tf as [f|]; [|split; [discriminate|intros (f & E & _); discriminate]]. destruct (Req_EM_T f 0) as [E|N]; [split; [discriminate|intros (f' & [= <-] & Hn & _); contradiction]|].
  destruct (Rlt_dec f t) as [L|L]; split; [eauto|auto|discriminate|]. intros (f' & [= <-] & _ & H). contradiction.
Qed.
Lemma loop_stop b axis mw x0 tf n : forall z l st, adapt_loop ops c b axis mw x0 tf n z = (l, st) ->
  (st = Finished -> exists l0 y, l = l0 ++ [y] /\ stops tf (fst y) = true /\ forall y', In y' l0 -> stops tf (fst y') = false) /\
  (st <> Finished -> forall y, In y l -> stops tf (fst y) = false) /\ (st = More -> length l = n).
Proof.
  induction n as [|n IH]; intros z l st E; cbn in E.
  - injection E as <- <-. repeat split; try discriminate. intros _ y [].
  - destruct (adapt_step _ _ _ _ _ _ _) as [[y z2]|e]; [|injection E as <- <-; repeat split; try discriminate; intros _ y []].
    destruct (stops tf (fst y)) eqn:Est.
    + injection E as <- <-. repeat split; try discriminate; [|intro H; contradiction]. intros _. exists [], y. repeat split; [exact Est|intros y' []].
    + destruct (adapt_loop _ _ _ _ _ _ _ _ _) as [l' st'] eqn:El. injection E as <- <-. destruct (IH _ _ _ El) as (H1 & H2 & H3). repeat split.
      * intro F. destruct (H1 F) as (l0 & y1 & -> & B & C). exists (y :: l0), y1. repeat split; [exact B|]. intros y' [<-|Hy]; [exact Est|now apply C].
      * intros F y' [<-|Hy]; [exact Est|now apply H2].
      * intro F. cbn. now rewrite (H3 F).
Qed.
Lemma loop_prefix b axis mw x0 tf n : forall m z, (n <= m)%nat -> fst (adapt_loop ops c b axis mw x0 tf n z) = firstn n (fst (adapt_loop ops c b axis mw x0 tf m z)).
Proof.
  induction n as [|n IH]; intros [|m] z H; try reflexivity; [lia|]. cbn [adapt_loop]. destruct (adapt_step _ _ _ _ _ _ _) as [[y z2]|e]; [|reflexivity]. destruct (stops tf (fst y)); [destruct n; reflexivity|].
  specialize (IH m z2 ltac:(lia)). destruct (adapt_loop _ _ _ _ _ _ _ n _), (adapt_loop _ _ _ _ _ _ _ m _). cbn in *. now rewrite IH.
Qed.

Theorem stop_law field_in axis tf zeroth n l st : adaptive ops c field_in axis tf zeroth n = (l, st) ->
  (st = Finished -> exists l0 y f, l = l0 ++ [y] /\ tf = Some f /\ f < fst y /\ forall y', In y' l0 -> fst y' <= f) /\
  (st <> Finished -> forall y f, In y l -> tf = Some f -> f <> 0 -> fst y <= f) /\ (st = More -> length l = n) /\ (length l <= n)%nat.
Proof.
  intro E. assert (G : (st = Finished -> exists l0 y, l = l0 ++ [y] /\ stops tf (fst y) = true /\ forall y', In y' l0 -> stops tf (fst y') = false) /\ (st <> Finished -> forall y, In y l -> stops tf (fst y) = false) /\ (st = More -> length l = n)).
  { unfold adaptive in E. destruct n as [|n]; [injection E as <- <-; repeat split; try discriminate; intros _ y []|].
    destruct (adapt_start _ _ _) as [[[[b s] mw] x0]|e]; [|injection E as <- <-; repeat split; try discriminate; intros _ y []]. destruct zeroth; [|exact (loop_stop _ _ _ _ _ _ _ _ _ E)].
    destruct (stops tf 0) eqn:Es; [injection E as <- <-; repeat split; try discriminate; [|intro H; contradiction]; intros _; exists [], (0, field_in); repeat split; [exact Es|intros y' []]|].
    destruct (adapt_loop _ _ _ _ _ _ _ _ _) as [l' st'] eqn:El. injection E as <- <-. destruct (loop_stop _ _ _ _ _ _ _ _ _ El) as (H1 & H2 & H3). repeat split.
    - intro F. destruct (H1 F) as (l0 & y1 & -> & B & C). exists ((0, field_in) :: l0), y1. repeat split; [exact B|]. intros y' [<-|Hy]; [exact Es|now apply C].
    - intros F y' [<-|Hy]; [exact Es|now apply H2].
    - intro F. cbn. now rewrite (H3 F). }
  destruct G as (G1 & G2 & G3). assert (N : forall f (y : R * S), tf = Some f -> f <> 0 -> stops tf (fst y) = false -> fst y <= f).
  { intros f y -> Nf Hs. apply Rnot_lt_le. intro H. assert (stops (Some f) (fst y) = true) by (apply stops_true; eauto). congruence. }
  repeat split.
  - intro F. destruct (G1 F) as (l0 & y & -> & B & C). apply stops_true in B as (f & Ef & Nf & Lf). exists l0, y, f. repeat split; try assumption. intros y' Hy. eapply N; eauto.
  - intros F y f Hy Ef Nf. eapply N; eauto.
  - exact G3.
  - clear G1 G2 G3 N. assert (L : forall b mw x0 n z l st, adapt_loop ops c b axis mw x0 tf n z = (l, st) -> (length l <= n)%nat).
    { clear. intros b mw x0 n. induction n as [|n IH]; intros z l st E; cbn in E; [injection E as <- <-; auto|]. destruct (adapt_step _ _ _ _ _ _ _) as [[y z2]|e]; [|injection E as <- <-; cbn; lia]. destruct (stops tf (fst y)); [injection E as <- <-; cbn; lia|].
      destruct (adapt_loop _ _ _ _ _ _ _ _ _) as [l' st'] eqn:El. injection E as <- <-. apply IH in El. cbn. lia. }
    unfold adaptive in E. destruct n as [|n]; [injection E as <- <-; auto|]. destruct (adapt_start _ _ _) as [[[[b s] mw] x0]|e]; [|injection E as <- <-; cbn; lia]. destruct zeroth; [|eapply L; exact E].
    destruct (stops tf 0); [injection E as <- <-; cbn; lia|]. destruct (adapt_loop _ _ _ _ _ _ _ _ _) as [l' st'] eqn:El. injection E as <- <-. apply L in El. cbn. lia.
Qed.
Theorem prefix_law field_in axis tf zeroth n m : (n <= m)%nat -> fst (adaptive ops c field_in axis tf zeroth n) = firstn n (fst (adaptive ops c field_in axis tf zeroth m)).
Proof.
  intro H. unfold adaptive. destruct n as [|n]; [reflexivity|]. destruct m as [|m]; [lia|]. destruct (adapt_start _ _ _) as [[[[b s] mw] x0]|e]; [|reflexivity]. destruct zeroth; [|now apply loop_prefix].
  destruct (stops tf 0); [destruct n; reflexivity|]. pose proof (loop_prefix b axis mw x0 tf n m (0, s) ltac:(lia)) as P. destruct (adapt_loop _ _ _ _ _ _ _ n _), (adapt_loop _ _ _ _ _ _ _ m _). cbn in *. now rewrite P.
Qed.
Theorem never_stops field_in axis tf zeroth n : (tf = None \/ tf = Some 0) -> snd (adaptive ops c field_in axis tf zeroth n) <> Finished.
Proof.
  intros H E. assert (N : forall t, stops tf t = false) by (intro t; destruct (stops tf t) eqn:Es; [|reflexivity]; apply stops_true in Es as (f & Ef & Nf & _); destruct H as [->| ->]; [discriminate|injection Ef as <-; contradiction]).
  assert (L : forall b mw x0 n z, snd (adapt_loop ops c b axis mw x0 tf n z) <> Finished).
  { clear - N. intros b mw x0 n. induction n as [|n IH]; intros z; cbn; [discriminate|]. destruct (adapt_step _ _ _ _ _ _ _) as [[y z2]|e]; [|discriminate]. rewrite N. specialize (IH z2). destruct (adapt_loop _ _ _ _ _ _ _ _ _). exact IH. }
  revert E. unfold adaptive. destruct n as [|n]; [discriminate|]. destruct (adapt_start _ _ _) as [[[[b s] mw] x0]|e]; [|discriminate]. destruct zeroth; [|apply L]. rewrite N. specialize (L b mw x0 n (0, s)). destruct (adapt_loop _ _ _ _ _ _ _ _ _). exact L.
Qed.
End any.

Theorem clock_law {S} (ops : adapt_ops S) c field_in axis k tf zeroth n l st s0 : well_behaved ops -> in_space ops field_in s0 -> names_axis (length (op_box ops s0)) axis k ->
  adaptive ops c field_in axis tf zeroth n = (l, st) ->
  (forall i t1 f1 t2 f2, nth_error (history zeroth field_in l) i = Some (t1, f1) -> nth_error (history zeroth field_in l) (Datatypes.S i) = Some (t2, f2) -> advances ops c k (middle (op_box ops s0) k) t1 f1 t2 f2) /\
  (forall y, In y l -> op_state ops (snd y) = op_state ops field_in) /\
  (forall y, nth_error (history zeroth field_in l) 0 = Some y -> y = (0, field_in)).
Proof.
  intros Hw Hs Ha E. unfold adaptive in E. destruct n as [|n]; [injection E as <- <-; split; [|split; [intros y []|destruct zeroth; cbn; [discriminate|now intros y [= <-]]]]; intros [|i] t1 f1 t2 f2; destruct zeroth; cbn; try discriminate; destruct i; discriminate|].
  destruct (adapt_start _ _ _) as [[[[b s] mw] x0]|e] eqn:Est; [|injection E as <- <-; split; [|split; [intros y []|destruct zeroth; cbn; [discriminate|now intros y [= <-]]]]; intros [|i] t1 f1 t2 f2; destruct zeroth; cbn; try discriminate; destruct i; discriminate].
  assert (Es : s = s0).
  { unfold adapt_start, in_space in *. destruct (op_state ops field_in) as [d|]; [|contradiction]. apply bind_ok in Est as (s' & E1 & Est). apply bind_ok in Est as (v & _ & Est). apply bind_ok in Est as (e & _ & Est). injection Est as -> -> _ _. destruct b; congruence. }
  subst s0. destruct (start_ok ops axis k Hw field_in b s mw x0 Est Ha) as (Sf & Ss & _ & Hu & Hx). subst x0. destruct zeroth.
  - destruct (stops tf 0).
    + injection E as <- <-. split; [intros [|i] t1 f1 t2 f2; cbn; [discriminate|destruct i; discriminate]|]. split; [now intros y [<-|[]]|now intros y [= <-]].
    + destruct (adapt_loop _ _ _ _ _ _ _ _ _) as [l' st'] eqn:El. injection E as <- <-. destruct (loop_chain ops c axis k Hw b mw _ tf n 0 s field_in l' st' Ha Ss Hu Hs El) as [H1 H2]. split; [|split].
      * intros i t1 f1 t2 f2 A1 A2. exact (H1 i t1 f1 t2 f2 A1 A2).
      * intros y [<-|Hy]; [reflexivity|]. rewrite Sf. now apply H2.
      * now intros y [= <-].
  - destruct (loop_chain ops c axis k Hw b mw _ tf _ 0 s field_in l st Ha Ss Hu Hs E) as [H1 H2]. split; [|split].
    + intros i t1 f1 t2 f2 A1 A2. exact (H1 i t1 f1 t2 f2 A1 A2).
    + intros y Hy. rewrite Sf. now apply H2.
    + now intros y [= <-].
Qed.

Theorem terminates_law {S} (ops : adapt_ops S) c field_in axis k f zeroth n s0 w : well_behaved ops -> in_space ops field_in s0 -> names_axis (length (op_box ops s0)) axis k -> 0 < c -> 0 < w -> 0 < f ->
  (forall s r, op_reduce ops s = Ok r -> w <= across (op_box ops r) k) -> 2 + f * (2 * c) / w < INR n ->
  snd (adaptive ops c field_in axis (Some f) zeroth n) <> More.
Proof.
  intros Hw Hs Ha Hc Hv Hf Hr Hn E. destruct (adaptive ops c field_in axis (Some f) zeroth n) as [l st] eqn:El. cbn in E. subst st.
  destruct (clock_law ops c field_in axis k (Some f) zeroth n l More s0 Hw Hs Ha El) as (H1 & _ & H3). destruct (stop_law ops c field_in axis (Some f) zeroth n l More El) as (_ & G2 & G3 & _). specialize (G3 eq_refl).
  set (h := history zeroth field_in l) in *.
  assert (Q : 0 < f * (2 * c) / w) by (apply Rmult_lt_0_compat; [nra|now apply Rinv_0_lt_compat]).
  assert (Ln : (2 < n)%nat) by (apply INR_lt; cbn; lra).
  assert (Lh : (n <= length h)%nat) by (unfold h, history; destruct zeroth; cbn; lia).
  assert (T : forall i, (i < length h)%nat -> INR i * (w / 2 / c) <= fst (nth i h (0, field_in))).
  { induction i as [|i IH]; intro Hi.
    - cbn. rewrite Rmult_0_l. destruct h as [|y h'] eqn:Eh; [cbn; lra|]. rewrite (H3 y eq_refl). cbn. lra.
    - specialize (IH ltac:(lia)). destruct (nth i h (0, field_in)) as [t1 f1] eqn:N1, (nth (Datatypes.S i) h (0, field_in)) as [t2 f2] eqn:N2.
      assert (E1 : nth_error h i = Some (t1, f1)) by (rewrite <- N1; apply nth_error_nth'; lia). assert (E2 : nth_error h (Datatypes.S i) = Some (t2, f2)) by (rewrite <- N2; apply nth_error_nth'; lia).
      destruct (H1 i t1 f1 t2 f2 E1 E2) as (s & r & p & padded & q & v & g & _ & Er & Et & _). pose proof (Hr _ _ Er) as B. rewrite S_INR. cbn [fst] in *.
      assert (w / 2 / c <= across (op_box ops r) k / 2 / c) by (unfold Rdiv; apply Rmult_le_compat_r; [left; now apply Rinv_0_lt_compat|lra]). lra. }
  assert (Lst : exists t y, nth (n - 1) h (0, field_in) = (t, y) /\ In (t, y) l).
  { destruct (nth (n - 1) h (0, field_in)) as [t y] eqn:Ny. exists t, y. split; [reflexivity|]. unfold h, history in Ny. destruct zeroth.
    - rewrite <- Ny. apply nth_In. lia.
    - destruct n as [|[|n]]; [lia|lia|]. cbn in Ny. rewrite <- Ny. apply nth_In. lia. }
  destruct Lst as (t & y & Ny & Iy). specialize (T (n - 1)%nat ltac:(lia)). rewrite Ny in T. cbn [fst] in T. specialize (G2 ltac:(discriminate) (t, y) f Iy eq_refl ltac:(lra)). cbn [fst] in G2.
  rewrite minus_INR in T by lia. cbn [INR] in T. assert (M : f * (2 * c) / w * (w / 2 / c) = f) by (field; lra). assert (P : 0 < w / 2 / c) by (unfold Rdiv; repeat apply Rmult_lt_0_compat; try lra; now apply Rinv_0_lt_compat).
  assert (f * (2 * c) / w * (w / 2 / c) < (INR n - 1) * (w / 2 / c)) by (apply Rmult_lt_compat_r; lra). lra.
Qed.

Theorem one_axis {S} (ops : adapt_ops S) c field_in tf n s0 r e e' : in_space ops field_in s0 -> op_box ops s0 = [e] -> op_reduce ops s0 = Ok r -> op_box ops r = [e'] ->
  adaptive ops c field_in 0 tf false (Datatypes.S n) = ([], Raised ValueError).
Proof.
  intros Hs B0 Er Br. unfold adaptive, adapt_start, in_space in *. destruct (op_state ops field_in) as [b|]; [|contradiction].
  assert (Es : (if b then op_fft ops field_in else Ok field_in) = Ok s0) by (destruct b; congruence). rewrite Es. cbn [bind]. rewrite B0. cbn [length window_vector]. cbn [adapt_loop]. unfold adapt_step. cbn [fst snd].
  unfold window_vector, setidx, getidx, py_pos. cbn. rewrite Er. cbn. rewrite Br. reflexivity.
Qed.
Theorem mixed {S} (ops : adapt_ops S) c field_in axis tf zeroth n : op_state ops field_in = None -> adaptive ops c field_in axis tf zeroth (Datatypes.S n) = ([], Raised ValueError).
Proof. intro H. unfold adaptive, adapt_start. now rewrite H. Qed.
