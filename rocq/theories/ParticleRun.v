(** Every history of operations is followed by the groups of ParticleSpec (C33-C38). *)
From Coq Require Import Lia Qround Permutation Sorted.
From Verif Require Import PyBase PyBaseFacts NumpyModel NumpyFacts NdModel NdFacts FieldModel FieldReduceFacts HelperModel HelperFacts ParticleModel ParticleSpec ParticleFacts ParticleOps ParticleHist.

Section Run.
Variable sizes : dump -> string -> nat.
Notation winv := (winv sizes).
Notation obj_ok := (obj_ok sizes).
Notation awf := (awf sizes).
Notation count := (count sizes).
Notation group_of := (group_of sizes).

(** the collections of a store *)
Record oinv (w : world) (oss : list (list aobj)) : Prop := mkoinv {
  oi_w : winv w;
  oi_ms : Forall2 (Forall2 (ref w)) (w_ms w) oss }.
Lemma ref_wf w i o : winv w -> ref w i o -> awf o.
Proof. intros W [s [H <-]]. apply abs_wf, W. eapply nth_error_In; eauto. Qed.
Lemma refs_wf w is os : winv w -> Forall2 (ref w) is os -> Forall awf os.
Proof. intros W. induction 1; constructor; auto. eapply ref_wf; eauto. Qed.
Lemma refss_ext w w' l oss : winv w -> ext w w' -> Forall2 (Forall2 (ref w)) l oss -> Forall2 (Forall2 (ref w')) l oss.
Proof. intros W X. induction 1; constructor; auto. eapply refs_ext; eauto. Qed.
Lemma oinv_ext w w' oss : oinv w oss -> winv w' -> ext w w' -> oinv w' oss.
Proof. intros [W F] W' X. split; [exact W'|]. rewrite (ex_ms _ _ X). exact (refss_ext w w' _ _ W X F). Qed.
Lemma Forall2_nth_error {A B} (R : A -> B -> Prop) l m : Forall2 R l m -> forall k, (k < length l)%nat ->
  exists a, nth_error l k = Some a /\ forall d, R a (nth k m d).
Proof.
  induction 1 as [|a b l m H F IH]; intros k L; cbn in L; [lia|]. destruct k; cbn.
  - exists a. auto.
  - apply IH. lia.
Qed.
Lemma oinv_ms w oss m : oinv w oss -> (m < length (w_ms w))%nat -> exists is, get_ms m w = (w, Ok is) /\ Forall2 (ref w) is (nth m oss []).
Proof.
  intros [W F] L. destruct (Forall2_nth_error _ _ _ F m L) as [is [H R]]. exists is. unfold get_ms. rewrite H. split; [reflexivity|apply R].
Qed.
Lemma Forall2_len' {A B} (R : A -> B -> Prop) l m : Forall2 R l m -> length l = length m.
Proof. induction 1; cbn; congruence. Qed.
(** only the list of collections changes *)
Definition set_ms (w : world) (l : list (list nat)) : world := mkworld (w_bools w) (w_ids w) (w_objs w) l.
Lemma set_ms_winv w l : winv w -> winv (set_ms w l).
Proof. intros W s I. apply (obj_ok_ext sizes w); [exists []; now rewrite app_nil_r|]. apply W, I. Qed.
Lemma set_ms_refs w l is os : Forall2 (ref w) is os -> Forall2 (ref (set_ms w l)) is os.
Proof. intro F. exact F. Qed.
Lemma produce w oss (f : M (list nat)) w1 r a : oinv w oss -> f w = (w1, r) -> winv w1 -> ext w w1 ->
  result (fun w => Forall2 (ref w)) w1 r a ->
  exists w2, (do! js := f in new_ms js) w = (w2, match a with Ok _ => Ok (length (w_ms w)) | Err e => Err e end) /\
    oinv w2 (match a with Ok os => oss ++ [os] | Err _ => oss end) /\
    w_ids w2 = w_ids w1.
Proof.
  intros O E W1 X R. pose proof (oinv_ext _ _ _ O W1 X) as O1. unfold result in R. destruct a as [os|e], r as [js|e']; try contradiction.
  - rewrite (mbind_eq _ _ _ _ _ E). unfold new_ms. rewrite (ex_ms _ _ X). eexists. split; [reflexivity|].
    split; [|reflexivity]. split; [exact (set_ms_winv w1 _ W1)|]. cbn [w_ms]. apply Forall2_app; [|constructor; [exact R|constructor]].
    rewrite <- (ex_ms _ _ X). apply O1.
  - subst e'. rewrite (mbind_err _ _ _ _ _ E). exists w1. split; [reflexivity|split; [exact O1|reflexivity]].
Qed.
Lemma unary w oss m f g : oinv w oss -> (m < length (w_ms w))%nat -> does sizes any ref f g ->
  exists w2, (do! is := get_ms m in do! js := mmap f is in new_ms js) w = (w2, match mapM g (nth m oss []) with Ok _ => Ok (length (w_ms w)) | Err e => Err e end) /\
    oinv w2 (match mapM g (nth m oss []) with Ok os => oss ++ [os] | Err _ => oss end).
Proof.
  intros O L D. destruct (oinv_ms w oss m O L) as [is [G F]]. rewrite (mbind_eq _ _ _ _ _ G).
  destruct (mmap_does sizes any ref f g D (ref_lasting sizes) (fun _ _ _ h => h) is _ w (oi_w _ _ O) I F) as [w1 [r [E [W1 [X R]]]]].
  destruct (produce w oss _ w1 r _ O E W1 X R) as [w2 [P [Q _]]]. eauto.
Qed.
Lemma ids_op w oss m k : oinv w oss -> (m < length (w_ms w))%nat ->
  let a := mapM (aids (nth k (w_ids w) [])) (nth m oss []) in
  exists w2, ms_compress_ids m k w = (w2, match a with Ok _ => Ok (length (w_ms w)) | Err e => Err e end) /\
    oinv w2 (match a with Ok os => oss ++ [os] | Err _ => oss end).
Proof.
  intros O L a. destruct (oinv_ms w oss m O L) as [is [G F]]. unfold ms_compress_ids. rewrite (mbind_eq _ _ _ _ _ G).
  destruct (mmap_does sizes _ ref _ _ (ids_does sizes k (nth k (w_ids w) [])) (ref_lasting sizes)
    (fun w w' X h => Permutation_trans h (ex_ids _ _ X k)) is _ w (oi_w _ _ O) (Permutation_refl _) F) as [w1 [r [E [W1 [X R]]]]].
  destruct (produce w oss _ w1 r _ O E W1 X R) as [w2 [P [Q _]]]. eauto.
Qed.
Lemma compress_op w oss m v : oinv w oss -> (m < length (w_ms w))%nat -> view_ok w v ->
  let a := aeach sizes (read_view w v) 0 (nth m oss []) in
  exists w2, ms_compress m v w = (w2, match a with Ok _ => Ok (length (w_ms w)) | Err e => Err e end) /\
    oinv w2 (match a with Ok os => oss ++ [os] | Err _ => oss end).
Proof.
  intros O L V a. destruct (oinv_ms w oss m O L) as [is [G F]]. unfold ms_compress. rewrite (mbind_eq _ _ _ _ _ G).
  destruct (each_ok sizes v is _ 0%nat w (oi_w _ _ O) V F) as [w1 [r [E [W1 [X R]]]]].
  destruct (produce w oss _ w1 r _ O E W1 X R) as [w2 [P [Q _]]]. eauto.
Qed.
Definition there (d : dump) (n : string) : bool := existsb (String.eqb n) (d_names d).
Definition anew (d : dump) (names : list string) (ig : bool) : res (list aobj) :=
  if ig || forallb (there d) names then Ok (map (fun n => mkaobj d n AAll) (filter (there d) names)) else Err KeyError.
Lemma add_species_ok d ig : forall names w, winv w -> (forall n, In n names -> dump_ok d n (sizes d n)) ->
  exists w' r, add_species d ig names w = (w', r) /\ winv w' /\ ext w w' /\ result (fun w => Forall2 (ref w)) w' r (anew d names ig).
Proof.
  induction names as [|n names IH]; intros w W D.
  { exists w, (Ok []). split; [reflexivity|split; [exact W|split; [apply ext_refl|]]]. unfold anew. cbn. rewrite orb_true_r. constructor. }
  cbn [add_species]. destruct (new_single_ok sizes w d n W (D n (or_introl eq_refl))) as [w1 [r1 [E1 [W1 [X1 R1]]]]]. rewrite E1.
  destruct (IH w1 W1 ltac:(intros; apply D; now right)) as [w2 [r2 [E2 [W2 [X2 R2]]]]].
  assert (X12 : ext w w2) by (eapply ext_trans; eauto).
  unfold anew in *. cbn [forallb filter]. unfold there at 1 3. unfold result in R1.
  destruct (existsb (String.eqb n) (d_names d)) eqn:T, r1 as [i|e]; try contradiction.
  - cbn [andb map]. unfold result in R2. destruct (ig || forallb (there d) names), r2 as [is|e]; try contradiction.
    + rewrite (mbind_eq _ _ _ _ _ E2). eexists _, _. split; [reflexivity|]. split; [exact W2|split; [exact X12|]]. constructor; [|exact R2].
      exact (ref_lasting sizes w1 w2 _ _ W1 X2 R1).
    + subst e. rewrite (mbind_err _ _ _ _ _ E2). eexists _, _. split; [reflexivity|]. split; [exact W2|split; [exact X12|reflexivity]].
  - subst e. cbn [andb]. rewrite orb_false_r. destruct ig.
    + exists w2, r2. split; [exact E2|]. split; [exact W2|split; [exact X12|exact R2]].
    + exists w1. eexists. split; [reflexivity|]. split; [exact W1|split; [exact X1|reflexivity]].
Qed.
Lemma new_op w oss d names ig : oinv w oss -> (forall n, In n names -> dump_ok d n (sizes d n)) ->
  exists w2, ms_new d names ig w = (w2, match anew d names ig with Ok _ => Ok (length (w_ms w)) | Err e => Err e end) /\
    oinv w2 (match anew d names ig with Ok os => oss ++ [os] | Err _ => oss end).
Proof.
  intros O D. destruct (add_species_ok d ig names w (oi_w _ _ O) D) as [w1 [r [E [W1 [X R]]]]]. unfold ms_new.
  destruct (produce w oss _ w1 r _ O E W1 X R) as [w2 [P [Q _]]]. eauto.
Qed.
Lemma mapM_ok_id {A} (l : list A) : mapM (fun o => Ok o) l = Ok l.
Proof. induction l as [|x l IH]; [reflexivity|]. cbn. now rewrite IH. Qed.
Lemma Forall2_weaken {A B} (R S : A -> B -> Prop) : (forall a b, R a b -> S a b) -> forall l m, Forall2 R l m -> Forall2 S l m.
Proof. intros H l m. induction 1; constructor; auto. Qed.
Lemma Forall2_upd {A B} (R : A -> B -> Prop) l m k x y : Forall2 R l m -> R x y -> Forall2 R (upd l k x) (upd m k y).
Proof. intros F H. revert k. induction F; intros [|k]; cbn; constructor; auto. Qed.
Lemma iadd_op w oss m o : oinv w oss -> (m < length (w_ms w))%nat -> (o < length (w_ms w))%nat -> m <> o ->
  exists w2, ms_iadd m o w = (w2, Ok m) /\ oinv w2 (upd oss m (nth m oss [] ++ nth o oss [])).
Proof.
  intros O L L2 N. destruct (oinv_ms w oss m O L) as [is [G F]]. destruct (oinv_ms w oss o O L2) as [js [G2 F2]].
  unfold ms_iadd. rewrite (mbind_eq _ _ _ _ _ G), (mbind_eq _ _ _ _ _ G2). apply Nat.eqb_neq in N. rewrite N.
  destruct (mmap_does sizes any ref _ _ (copy_does sizes) (ref_lasting sizes) (fun _ _ _ h => h) js _ w (oi_w _ _ O) I F2) as [w1 [r [E [W1 [X R]]]]].
  rewrite mapM_ok_id in R. unfold result in R. destruct r as [cs|]; [|contradiction]. rewrite (mbind_eq _ _ _ _ _ E).
  pose proof (oinv_ext _ _ _ O W1 X) as O1. unfold put_ms, mbind, mret. eexists. split; [reflexivity|].
  split; [exact (set_ms_winv w1 _ W1)|]. cbn [w_ms]. apply (Forall2_upd (Forall2 (ref w1))); [apply O1|].
  apply Forall2_app; [|exact R]. eapply refs_ext; [apply O| |exact F]. exact X.
Qed.
Lemma upd_app_end {A} (l : list A) x y : upd (l ++ [x]) (length l) y = l ++ [y].
Proof. induction l as [|z l IH]; [reflexivity|]. cbn. now rewrite IH. Qed.
Lemma add_op w oss m o : oinv w oss -> (m < length (w_ms w))%nat -> (o < length (w_ms w))%nat ->
  exists w2, ms_add m o w = (w2, Ok (length (w_ms w))) /\ oinv w2 (oss ++ [nth m oss [] ++ nth o oss []]).
Proof.
  intros O L L2. destruct (oinv_ms w oss m O L) as [is [G F]]. unfold ms_add. rewrite (mbind_eq _ _ _ _ _ G).
  set (w1 := set_ms w (w_ms w ++ [is])).
  assert (O1 : oinv w1 (oss ++ [nth m oss []])).
  { split; [exact (set_ms_winv w _ (oi_w _ _ O))|]. cbn [w1 set_ms w_ms]. apply Forall2_app; [apply O|constructor; [exact F|constructor]]. }
  assert (E1 : new_ms is w = (w1, Ok (length (w_ms w)))) by reflexivity. rewrite (mbind_eq _ _ _ _ _ E1).
  pose proof (Forall2_len' _ _ _ (oi_ms _ _ O)) as Len.
  destruct (iadd_op w1 _ (length (w_ms w)) o O1) as [w2 [E2 O2]]; [cbn [w1 set_ms w_ms]; rewrite app_length; cbn; lia|cbn [w1 set_ms w_ms]; rewrite app_length; lia|lia|].
  exists w2. split; [exact E2|]. rewrite Len in O2. rewrite (app_nth2 oss), Nat.sub_diag in O2 by lia. cbn [nth] in O2.
  rewrite app_nth1 in O2 by lia. rewrite upd_app_end in O2. exact O2.
Qed.
Lemma len_op w oss m : oinv w oss -> (m < length (w_ms w))%nat ->
  exists w2, ms_len m w = (w2, Ok (fold_right Nat.add 0%nat (map count (nth m oss [])))) /\ oinv w2 oss.
Proof.
  intros O L. destruct (oinv_ms w oss m O L) as [is [G F]]. unfold ms_len. rewrite (mbind_eq _ _ _ _ _ G).
  destruct (mmap_does sizes any vrel _ _ (len_does sizes) (vrel_lasting sizes) (fun _ _ _ h => h) is _ w (oi_w _ _ O) I F) as [w1 [r [E [W1 [X R]]]]].
  assert (Mc : mapM (fun o => Ok (count o)) (nth m oss []) = Ok (map count (nth m oss []))).
  { generalize (nth m oss []). intro l. induction l as [|x l IH]; [reflexivity|]. cbn. now rewrite IH. }
  rewrite Mc in R. unfold result in R. destruct r as [ns|]; [|contradiction]. rewrite (mbind_eq _ _ _ _ _ E).
  apply (vrels w1) in R. subst ns. exists w1. split; [reflexivity|]. exact (oinv_ext _ _ _ O W1 X).
Qed.
Lemma call_op {A} (e : expr A) w oss m : oinv w oss -> (m < length (w_ms w))%nat ->
  exists w2, ms_call m e w = (w2, pcall sizes e (nth m oss [])) /\ oinv w2 oss.
Proof.
  intros O L. destruct (oinv_ms w oss m O L) as [is [G F]]. unfold ms_call, pcall. rewrite (mbind_eq _ _ _ _ _ G).
  destruct (mmap_does sizes any vrel _ _ (call_does sizes e) (vrel_lasting sizes) (fun _ _ _ h => h) is _ w (oi_w _ _ O) I F) as [w1 [r [E [W1 [X R]]]]].
  unfold result in R. destruct (mapM (acall sizes e) (nth m oss [])) as [ds|x], r as [ds'|x']; try contradiction.
  - apply (vrels w1) in R. subst ds'. rewrite (mbind_eq _ _ _ _ _ E). exists w1. split; [reflexivity|]. exact (oinv_ext _ _ _ O W1 X).
  - subst x'. rewrite (mbind_err _ _ _ _ _ E). exists w1. split; [reflexivity|]. exact (oinv_ext _ _ _ O W1 X).
Qed.

(** ** One step of a history, without references *)
Definition afollow (o : uop) (w : world) (oss : list (list aobj)) : list (list aobj) * bool :=
  let ms m := nth m oss [] in
  let add a := match a with Ok os => (oss ++ [os], true) | Err _ => (oss, false) end in
  match o with
  | UNew d names ig => add (anew d names ig)
  | UCompress m v => add (aeach sizes (read_view w v) 0 (ms m))
  | UCompressIds m k => add (mapM (aids (nth k (w_ids w) [])) (ms m))
  | UFilter m e => add (mapM (afilter sizes e) (ms m))
  | UInvert m => add (mapM ainvert (ms m))
  | UUncompress m => add (mapM auncompress (ms m))
  | UAdd m o => (oss ++ [ms m ++ ms o], true)
  | UIadd m o => if (m =? o)%nat then (oss, match ms o with [] => true | _ => false end) else (upd oss m (ms m ++ ms o), true)
  | UBools _ | UIds _ | UWrite _ _ _ | ULen _ | UCall _ _ => (oss, true)
  end.
Lemma length_upd {A} (l : list A) : forall k x, length (upd l k x) = length l.
Proof. induction l as [|y l IH]; intros [|k] x; cbn; auto. Qed.
Lemma nth_upd {A} (l : list A) d : forall k x j, (k < length l)%nat -> nth j (upd l k x) d = if (j =? k)%nat then x else nth j l d.
Proof. induction l as [|y l IH]; intros [|k] x j L; cbn in L; try lia; destruct j; cbn; auto. apply IH. lia. Qed.
Lemma upd_over {A} (l : list A) : forall k x, (length l <= k)%nat -> upd l k x = l.
Proof. induction l as [|y l IH]; intros [|k] x L; cbn in *; auto; try lia. f_equal. apply IH. lia. Qed.
Lemma step_ok o w oss : oinv w oss -> allowed sizes o w ->
  oinv (step o w) (fst (afollow o w oss)) /\ succeeds o w = snd (afollow o w oss).
Proof.
  intros O A. destruct o as [d names ig|l|l|k p b|m v|m k|m e|m|m|m o|m o|m|m e]; cbn [step succeeds afollow] in *; unfold forget.
  - destruct (new_op w oss d names ig O A) as [w2 [E O2]]. rewrite E. destruct (anew d names ig); auto.
  - split; [|reflexivity]. destruct (new_bools_ok sizes w l (oi_w _ _ O)) as [w1 [E [W1 [X _]]]]. rewrite E. exact (oinv_ext _ _ _ O W1 X).
  - split; [|reflexivity]. cbn [fst]. destruct O as [W F]. split; [|exact F]. intros s I. apply (obj_ok_ext sizes w); [exists []; now rewrite app_nil_r|]. apply W, I.
  - split; [|reflexivity]. cbn [fst]. set (w' := mkworld (upd (w_bools w) k (upd (nth k (w_bools w) []) p b)) (w_ids w) (w_objs w) (w_ms w)).
    assert (R : forall v s, In s (w_objs w) -> s_sel s = SArr v -> read_view w' v = read_view w v /\ (view_ok w v -> view_ok w' v)).
    { intros v s I S. pose proof (A s v I S) as N. unfold read_view, view_ok, w'. cbn [w_bools].
      destruct (Nat.lt_ge_cases k (length (w_bools w))) as [L|L].
      - rewrite nth_upd by exact L. apply Nat.eqb_neq in N. rewrite N, length_upd. auto.
      - rewrite upd_over by exact L. auto. }
    assert (AB : forall s, In s (w_objs w) -> abs w' s = abs w s).
    { intros s I. unfold abs. f_equal. destruct (s_sel s) as [| |v] eqn:S; auto. f_equal. apply (R v s I S). }
    destruct O as [W F]. split.
    + intros s I. change (In s (w_objs w)) in I. destruct (W s I) as [O1 O2 O3 O4]. split; auto.
      * intros v S. destruct (O3 v S). split; [now apply (R v s I S)|assumption].
      * intros key x J. rewrite (AB s I). now apply O4.
    + cbn [w_ms w']. revert F. apply Forall2_weaken. intros is os. apply Forall2_weaken. intros i o [s [H E]]. exists s. split; [exact H|].
      rewrite AB; [exact E|]. eapply nth_error_In; eauto.
  - destruct A as [A V]. destruct (compress_op w oss m v O A V) as [w2 [E O2]]. rewrite E. destruct (aeach _ _ _ _); auto.
  - destruct A as [A V]. destruct (ids_op w oss m k O A) as [w2 [E O2]]. rewrite E. destruct (mapM _ _); auto.
  - destruct (unary w oss m _ _ O A (filter_does sizes e)) as [w2 [E O2]]. unfold ms_filter. rewrite E. destruct (mapM _ _); auto.
  - destruct (unary w oss m _ _ O A (invert_does sizes)) as [w2 [E O2]]. unfold ms_invert. rewrite E. destruct (mapM _ _); auto.
  - destruct (unary w oss m _ _ O A (uncompress_does sizes)) as [w2 [E O2]]. unfold ms_uncompress. rewrite E. destruct (mapM _ _); auto.
  - destruct A as [A B]. destruct (add_op w oss m o O A B) as [w2 [E O2]]. rewrite E. auto.
  - destruct A as [A B]. destruct (Nat.eqb_spec m o) as [->|N].
    + destruct (oinv_ms w oss o O A) as [is [G F]]. unfold ms_iadd. rewrite (mbind_eq _ _ _ _ _ G), (mbind_eq _ _ _ _ _ G), Nat.eqb_refl.
      inversion F; cbn; auto.
    + destruct (iadd_op w oss m o O A B N) as [w2 [E O2]]. rewrite E. auto.
  - split; [|reflexivity]. destruct (len_op w oss m O A) as [w2 [E O2]]. rewrite E. exact O2.
  - split; [|reflexivity]. destruct (call_op e w oss m O A) as [w2 [E O2]]. rewrite E. exact O2.
Qed.

(** ** The groups *)
Lemma nth_map_map oss m : nth m (map (map group_of) oss) [] = map group_of (nth m oss []).
Proof. exact (map_nth (map group_of) oss [] m). Qed.
Lemma aeach_groups c : forall os pos os', Forall awf os -> aeach sizes c pos os = Ok os' ->
  map group_of os' = distribute (skipn pos c) (map group_of os).
Proof.
  induction os as [|o os IH]; intros pos os' W H; cbn in H; [injection H as <-; reflexivity|].
  inversion W as [|? ? W1 W2]; subst. destruct (Nat.eqb_spec (count o) (length (firstn (count o) (skipn pos c)))) as [E|]; [|discriminate].
  destruct (aeach sizes c (pos + count o) os) as [r|] eqn:R; [|discriminate]. injection H as <-. cbn [map distribute].
  rewrite (IH _ _ W2 R). change (g_sel (group_of o)) with (sel_of sizes o). rewrite (sel_length sizes o W1).
  rewrite skipn_skipn, (Nat.add_comm (count o)). f_equal. apply group_compress; auto.
Qed.
Lemma mapM_groups g h os : Forall awf os -> (forall o o', awf o -> g o = Ok o' -> group_of o' = h (group_of o)) ->
  forall os', mapM g os = Ok os' -> map group_of os' = map h (map group_of os).
Proof.
  intros W H. induction W as [|o os W1 W2 IH]; intros os' E; cbn in E; [injection E as <-; reflexivity|].
  destruct (g o) as [o1|] eqn:G; [|discriminate]. cbn in E. destruct (mapM g os) as [r|]; [|discriminate]. injection E as <-.
  cbn. rewrite (IH r eq_refl). f_equal. now apply H.
Qed.
Lemma filter_group e o o' : awf o -> afilter sizes e o = Ok o' -> group_of o' = select_if (fun g i => expr_value e g i) (group_of o).
Proof.
  intros W H. unfold afilter in H. destruct (aeval o e) as [[a|l|n]|] eqn:E; try discriminate.
  destruct (Nat.eqb_spec (count o) (length l)) as [L|]; [|discriminate]. injection H as <-. destruct (aeval_spec sizes e o _ W E) as [-> _].
  rewrite group_compress by auto. unfold select_if. f_equal. rewrite keep_picked. apply picked_filter.
Qed.
Lemma ids_group l o o' : awf o -> aids l o = Ok o' -> group_of o' = select_if (has_id l) (group_of o).
Proof.
  intros W H. unfold aids in H. destruct (aread o "id") as [[q|ids|n]|] eqn:E; try discriminate.
  assert (o' = acompress o (map (fun q => mem_Z (Qfloor q) l) ids)) as -> by (destruct l, ids; congruence).
  pose proof (aread_vec_length sizes o _ _ W E) as L. rewrite group_compress by (auto; now rewrite map_length).
  unfold select_if. f_equal. rewrite keep_picked.
  assert (V : ids = map (fun i => value (a_dump o) (a_name o) i "id") (sel_of sizes o)).
  { apply nth_ext with (d := 0) (d' := value (a_dump o) (a_name o) 0%nat "id"); [now rewrite map_length, sel_length|].
    intros j J. rewrite L in J. rewrite (map_nth (fun i => value (a_dump o) (a_name o) i "id")).
    exact (aread_item sizes o "id" _ W E j J). }
  rewrite V, map_map, picked_filter. apply filter_ext. intro i. unfold has_id. cbn [group_of g_dump g_name].
  assert (Z : exists z, value (a_dump o) (a_name o) i "id" = inject_Z z) by (unfold value; rewrite String.eqb_refl; eauto).
  destruct Z as [z ->]. rewrite Qfloor_Z. clear. induction l as [|y l IH]; [reflexivity|]. cbn [mem_Z existsb]. rewrite IH. f_equal.
  destruct (Z.eqb_spec z y) as [->|N].
  - symmetry. apply Qeq_bool_iff. reflexivity.
  - symmetry. apply not_true_is_false. intro C. apply Qeq_bool_iff in C. unfold Qeq in C. cbn in C. lia.
Qed.
Lemma follow_groups o w oss : oinv w oss -> allowed sizes o w -> snd (afollow o w oss) = true ->
  map (map group_of) (fst (afollow o w oss)) = follow sizes o w (map (map group_of) oss).
Proof.
  intros O A S.
  assert (WF : forall m, Forall awf (nth m oss [])).
  { intro m. destruct (Nat.lt_ge_cases m (length (w_ms w))) as [L|L].
    - destruct (oinv_ms w oss m O L) as [is [_ F]]. eapply refs_wf; [apply O|exact F].
    - rewrite nth_overflow; [constructor|]. rewrite <- (Forall2_len' _ _ _ (oi_ms _ _ O)). exact L. }
  destruct o as [d names ig|l|l|k p b|m v|m k|m e|m|m|m o|m o|m|m e]; cbn [afollow follow fst snd] in *; try reflexivity; rewrite ?nth_map_map.
  - destruct (anew d names ig) as [os|] eqn:E; [|discriminate]. cbn [fst]. rewrite map_app. do 2 f_equal. unfold anew in E.
    destruct (_ || _); [|discriminate]. injection E as <-. cbn [map]. f_equal. rewrite map_map. reflexivity.
  - destruct (aeach _ _ _ _) as [os|] eqn:E; [|discriminate]. cbn [fst]. rewrite map_app. do 2 f_equal. cbn [map]. f_equal.
    rewrite (aeach_groups _ _ _ _ (WF m) E). reflexivity.
  - destruct (mapM _ _) as [os|] eqn:E; [|discriminate]. cbn [fst]. rewrite map_app. do 2 f_equal. cbn [map]. f_equal.
    exact (mapM_groups _ _ _ (WF m) (ids_group _) os E).
  - destruct (mapM _ _) as [os|] eqn:E; [|discriminate]. cbn [fst]. rewrite map_app. do 2 f_equal. cbn [map]. f_equal.
    exact (mapM_groups _ _ _ (WF m) (filter_group e) os E).
  - destruct (mapM _ _) as [os|] eqn:E; [|discriminate]. cbn [fst]. rewrite map_app. do 2 f_equal. cbn [map]. f_equal.
    exact (mapM_groups _ _ _ (WF m) (group_invert sizes) os E).
  - destruct (mapM _ _) as [os|] eqn:E; [|discriminate]. cbn [fst]. rewrite map_app. do 2 f_equal. cbn [map]. f_equal.
    refine (mapM_groups _ _ _ (WF m) _ os E). intros o o' _ [= <-]. reflexivity.
  - rewrite map_app. cbn [map]. now rewrite map_app.
  - destruct (m =? o)%nat; [reflexivity|]. cbn [fst]. rewrite <- map_app. clear. generalize (nth m oss [] ++ nth o oss []). 
    intros x. revert m. induction oss as [|y l IH]; intros [|m]; cbn; auto. now rewrite IH.
Qed.
Lemma history_ok w s : history sizes w s -> exists oss, oinv w oss /\ s = map (map group_of) oss.
Proof.
  induction 1 as [|o w s H IH A].
  - exists []. split; [|reflexivity]. split; [intros t []|constructor].
  - destruct IH as [oss [O ->]]. destruct (step_ok o w oss O A) as [O' S]. exists (fst (afollow o w oss)). split; [exact O'|].
    rewrite S. destruct (snd (afollow o w oss)) eqn:B.
    + symmetry. now apply follow_groups.
    + destruct o; cbn [afollow fst snd] in *; try discriminate; try (destruct (anew _ _ _); [discriminate|reflexivity]);
        try (destruct (aeach _ _ _ _); [discriminate|reflexivity]); try (destruct (mapM _ _); [discriminate|reflexivity]).
      destruct (m =? other)%nat; [reflexivity|discriminate].
Qed.
End Run.
