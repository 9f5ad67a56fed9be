(** Every operation on particle collections (C33-C38). *)
From Coq Require Import Lia Qround Permutation Sorted.
From Verif Require Import PyBase PyBaseFacts NumpyModel NumpyFacts NdModel NdFacts FieldModel FieldReduceFacts HelperModel HelperFacts ParticleModel ParticleSpec ParticleFacts.

Section Ops.
Variable sizes : dump -> string -> nat.
Notation winv := (winv sizes).
Notation obj_ok := (obj_ok sizes).
Notation awf := (awf sizes).
Notation count := (count sizes).

(** ** Operations object by object *)
Definition ref (w : world) (i : nat) (o : aobj) : Prop := exists s, nth_error (w_objs w) i = Some s /\ abs w s = o.
Definition result {A B} (rel : world -> A -> B -> Prop) (w : world) (r : res A) (a : res B) : Prop :=
  match a, r with Ok o, Ok j => rel w j o | Err e, Err e' => e' = e | _, _ => False end.
Definition does {A B} (P : world -> Prop) (rel : world -> A -> B -> Prop) (f : nat -> M A) (g : aobj -> res B) : Prop :=
  forall w i s, winv w -> P w -> nth_error (w_objs w) i = Some s ->
    exists w' r, f i w = (w', r) /\ winv w' /\ ext w w' /\ result rel w' r (g (abs w s)).
Definition lasting {A B} (rel : world -> A -> B -> Prop) : Prop :=
  forall w w' a b, winv w -> ext w w' -> rel w a b -> rel w' a b.
Lemma ref_lasting : lasting ref.
Proof.
  intros w w' i o W E [s [H A]]. destruct (ext_obj sizes w w' i s E W H) as [s' [H' A']]. exists s'. split; [exact H'|congruence].
Qed.
Lemma refs_ext w w' is os : winv w -> ext w w' -> Forall2 (ref w) is os -> Forall2 (ref w') is os.
Proof. intros W E. induction 1; constructor; auto. eapply ref_lasting; eauto. Qed.
Lemma mmap_does {A B} P rel (f : nat -> M A) (g : aobj -> res B) :
  does P rel f g -> lasting rel -> (forall w w', ext w w' -> P w -> P w') ->
  forall is os w, winv w -> P w -> Forall2 (ref w) is os ->
  exists w' r, mmap f is w = (w', r) /\ winv w' /\ ext w w' /\
    result (fun w => Forall2 (rel w)) w' r (mapM g os).
Proof.
  intros D S PS is. induction is as [|i is IH]; intros os w W HP F; inversion F as [|? o ? os' [s [H Ho]] F']; subst.
  { exists w, (Ok []). split; [reflexivity|split; [exact W|split; [apply ext_refl|constructor]]]. }
  destruct (D w i s W HP H) as [w1 [r1 [E1 [W1 [X1 R1]]]]].
  cbn [mmap mapM]. unfold result in R1. destruct (g (abs w s)) as [b|e], r1 as [a|e']; try contradiction.
  2:{ subst e'. rewrite (mbind_err _ _ _ _ _ E1). exists w1, (Err e). split; [reflexivity|]. split; [exact W1|split; [exact X1|reflexivity]]. }
  rewrite (mbind_eq _ _ _ _ _ E1). cbn [bind].
  destruct (IH os' w1 W1 (PS _ _ X1 HP) (refs_ext _ _ _ _ W X1 F')) as [w2 [r2 [E2 [W2 [X2 R2]]]]].
  unfold result in R2. destruct (mapM g os') as [bs|e], r2 as [as'|e']; try contradiction.
  2:{ subst e'. rewrite (mbind_err _ _ _ _ _ E2). exists w2, (Err e). split; [reflexivity|]. split; [exact W2|split; [eapply ext_trans; eauto|reflexivity]]. }
  rewrite (mbind_eq _ _ _ _ _ E2). cbn [bind mret]. exists w2, (Ok (a :: as')).
  split; [reflexivity|]. split; [exact W2|split; [eapply ext_trans; eauto|]]. constructor; [|exact R2]. apply (S w1); [exact W1|exact X2|exact R1].
Qed.
Definition vrel {A} (_ : world) (a b : A) : Prop := a = b.
Lemma vrel_lasting {A} : lasting (@vrel A). Proof. intros w w' a b _ _ H. exact H. Qed.
Definition any (_ : world) : Prop := True.
Lemma vrels {A} w (l m : list A) : Forall2 (vrel w) l m -> l = m.
Proof. induction 1; [reflexivity|]. unfold vrel in *. congruence. Qed.

(** ** Reading and evaluating *)
Definition aeval {A} (o : aobj) (e : expr A) : res (values A) :=
  let! ds := mapM (aread o) (e_keys e) in apply_expr (e_fn e) ds.
Lemma read_keys keys : forall w i s, winv w -> nth_error (w_objs w) i = Some s ->
  exists w', mmap (readatomic i) keys w = (w', mapM (aread (abs w s)) keys) /\ winv w' /\ ext w w'.
Proof.
  induction keys as [|k keys IH]; intros w i s W H.
  { exists w. split; [reflexivity|split; [exact W|apply ext_refl]]. }
  cbn [mmap mapM]. destruct (readatomic_ok sizes w i s k W H) as [w1 [R1 [W1 X1]]].
  destruct (aread (abs w s) k) as [d|e].
  2:{ rewrite (mbind_err _ _ _ _ _ R1). exists w1. auto. }
  rewrite (mbind_eq _ _ _ _ _ R1). cbn [bind].
  destruct (ext_obj sizes w w1 i s X1 W H) as [s1 [H1 A1]].
  destruct (IH w1 i s1 W1 H1) as [w2 [R2 [W2 X2]]]. rewrite A1 in R2.
  exists w2. split; [|split; [exact W2|eapply ext_trans; eauto]].
  destruct (mapM (aread (abs w s)) keys) as [ds|e].
  - now rewrite (mbind_eq _ _ _ _ _ R2).
  - now rewrite (mbind_err _ _ _ _ _ R2).
Qed.
Lemma eval_single_ok {A} (e : expr A) w i s : winv w -> nth_error (w_objs w) i = Some s ->
  exists w', eval_single i e w = (w', aeval (abs w s) e) /\ winv w' /\ ext w w'.
Proof.
  intros W H. destruct (read_keys (e_keys e) w i s W H) as [w1 [R1 [W1 X1]]]. exists w1. split; [|auto].
  unfold eval_single, aeval. destruct (mapM (aread (abs w s)) (e_keys e)) as [ds|x].
  - now rewrite (mbind_eq _ _ _ _ _ R1).
  - now rewrite (mbind_err _ _ _ _ _ R1).
Qed.
Definition acall {A} (e : expr A) (o : aobj) : res (values A) :=
  match aeval o e with Ok (VScalar a) => Ok (VVec (repeat a (count o))) | r => r end.
Lemma call_does {A} (e : expr A) : does any vrel (call_single e) (acall e).
Proof.
  intros w i s W _ H. destruct (eval_single_ok e w i s W H) as [w1 [R1 [W1 X1]]].
  unfold call_single, acall. destruct (aeval (abs w s) e) as [[a|l|n]|x].
  - rewrite (mbind_eq _ _ _ _ _ R1). destruct (ext_obj sizes w w1 i s X1 W H) as [s1 [H1 A1]].
    destruct (len_single_ok sizes w1 i s1 W1 H1) as [w2 [R2 [W2 X2]]]. rewrite (mbind_eq _ _ _ _ _ R2).
    rewrite A1. eexists _, _. split; [reflexivity|]. split; [exact W2|split; [eapply ext_trans; eauto|reflexivity]].
  - rewrite (mbind_eq _ _ _ _ _ R1). eexists _, _. split; [reflexivity|]. split; [exact W1|split; [exact X1|reflexivity]].
  - rewrite (mbind_eq _ _ _ _ _ R1). eexists _, _. split; [reflexivity|]. split; [exact W1|split; [exact X1|reflexivity]].
  - rewrite (mbind_err _ _ _ _ _ R1). eexists _, _. split; [reflexivity|]. split; [exact W1|split; [exact X1|reflexivity]].
Qed.
Lemma len_does : does any vrel len_single (fun o => Ok (count o)).
Proof.
  intros w i s W _ H. destruct (len_single_ok sizes w i s W H) as [w1 [R1 [W1 X1]]]. exists w1. eexists. split; [exact R1|].
  split; [exact W1|split; [exact X1|reflexivity]].
Qed.
(** ** Making new objects *)
Definition afilter (e : expr bool) (o : aobj) : res aobj :=
  match aeval o e with
  | Err x => Err x
  | Ok (VScalar _) => Err TypeError
  | Ok (VVoid _) => Err ValueError
  | Ok (VVec l) => if (count o =? length l)%nat then Ok (acompress o l) else Err ValueError
  end.
Lemma filter_does (e : expr bool) : does any ref (filter_single e) (afilter e).
Proof.
  intros w i s W _ H. destruct (eval_single_ok e w i s W H) as [w1 [R1 [W1 X1]]].
  unfold filter_single, afilter. destruct (aeval (abs w s) e) as [[a|l|n]|x].
  - rewrite (mbind_eq _ _ _ _ _ R1). eexists _, _. split; [reflexivity|]. split; [exact W1|split; [exact X1|reflexivity]].
  - rewrite (mbind_eq _ _ _ _ _ R1). destruct (new_bools_ok sizes w1 l W1) as [w2 [R2 [W2 [X2 [Q1 [Q2 Q3]]]]]].
    rewrite (mbind_eq _ _ _ _ _ R2). assert (X12 : ext w w2) by (eapply ext_trans; eauto).
    destruct (ext_obj sizes w w2 i s X12 W H) as [s2 [H2 A2]].
    destruct (compress_bool_ok sizes w2 i s2 _ W2 H2 Q3) as [w3 [r [R3 [W3 [X3 Z]]]]].
    exists w3, r. split; [exact R3|]. split; [exact W3|split; [eapply ext_trans; eauto|]].
    rewrite A2, Q2 in Z. exact Z.
  - rewrite (mbind_eq _ _ _ _ _ R1). eexists _, _. split; [reflexivity|]. split; [exact W1|split; [exact X1|reflexivity]].
  - rewrite (mbind_err _ _ _ _ _ R1). eexists _, _. split; [reflexivity|]. split; [exact W1|split; [exact X1|reflexivity]].
Qed.
Lemma new_single_ok w d name : winv w -> dump_ok d name (sizes d name) ->
  exists w' r, new_single d name w = (w', r) /\ winv w' /\ ext w w' /\
    result ref w' r (if existsb (String.eqb name) (d_names d) then Ok (mkaobj d name AAll) else Err KeyError).
Proof.
  intros W D. unfold new_single. destruct (existsb (String.eqb name) (d_names d)) eqn:E.
  - destruct (new_obj_ok sizes w (mksingle d name SNone []) W) as [w1 [R1 [W1 [X1 [Q1 Q2]]]]].
    { split; cbn [s_dump s_name s_sel s_cache]; auto; [discriminate|intros ? ? []]. }
    eexists _, _. split; [exact R1|]. split; [exact W1|split; [exact X1|]]. eexists. split; [exact Q1|reflexivity].
  - eexists _, _. split; [reflexivity|]. split; [exact W|split; [apply ext_refl|reflexivity]].
Qed.
Definition auncompress (o : aobj) : res aobj := Ok (mkaobj (a_dump o) (a_name o) AAll).
Lemma uncompress_does : does any ref uncompress_single auncompress.
Proof.
  intros w i s W _ H. assert (O : obj_ok w s) by (apply W; eapply nth_error_In; eauto).
  unfold uncompress_single. rewrite (mbind_eq _ _ _ _ _ (get_obj_eq _ _ _ H)).
  destruct (new_single_ok w (s_dump s) (s_name s) W (oo_dump _ _ _ O)) as [w1 [r [R1 [W1 [X1 Z]]]]].
  rewrite (oo_name _ _ _ O) in Z. exists w1, r. auto.
Qed.
Definition ainvert (o : aobj) : res aobj :=
  Ok (mkaobj (a_dump o) (a_name o) (match a_mask o with AAll => ANone | ANone => AAll | ASome b => ASome (map negb b) end)).
Lemma invert_does : does any ref invert_single ainvert.
Proof.
  intros w i s W _ H. assert (O : obj_ok w s) by (apply W; eapply nth_error_In; eauto).
  unfold invert_single, ainvert. rewrite (mbind_eq _ _ _ _ _ (get_obj_eq _ _ _ H)). cbn [abs a_dump a_name a_mask].
  destruct (s_sel s) as [| |v] eqn:S.
  - destruct (new_obj_ok sizes w (mksingle (s_dump s) (s_name s) SFalse []) W) as [w1 [R1 [W1 [X1 [Q1 Q2]]]]].
    { split; cbn [s_dump s_name s_sel s_cache]; [apply (oo_dump _ _ _ O)|apply (oo_name _ _ _ O)|discriminate|intros ? ? []]. }
    eexists _, _. split; [exact R1|]. split; [exact W1|split; [exact X1|]]. eexists. split; [exact Q1|reflexivity].
  - destruct (new_obj_ok sizes w (mksingle (s_dump s) (s_name s) SNone []) W) as [w1 [R1 [W1 [X1 [Q1 Q2]]]]].
    { split; cbn [s_dump s_name s_sel s_cache]; [apply (oo_dump _ _ _ O)|apply (oo_name _ _ _ O)|discriminate|intros ? ? []]. }
    eexists _, _. split; [exact R1|]. split; [exact W1|split; [exact X1|]]. eexists. split; [exact Q1|reflexivity].
  - destruct (oo_view _ _ _ O v S) as [V1 V2]. unfold get_view, mbind at 1.
    destruct (new_bools_ok sizes w (map negb (read_view w v)) W) as [w1 [R1 [W1 [X1 [Q1 [Q2 Q3]]]]]].
    rewrite (mbind_eq _ _ _ _ _ R1). rewrite map_length in Q2, Q3.
    destruct (new_obj_ok sizes w1 (mksingle (s_dump s) (s_name s) (SArr (mkview (length (w_bools w)) 0 (length (read_view w v)))) []) W1) as [w2 [R2 [W2 [X2 [Q4 Q5]]]]].
    { split; cbn [s_dump s_name s_sel s_cache]; [apply (oo_dump _ _ _ O)|apply (oo_name _ _ _ O)| |intros ? ? []].
      intros u [= <-]. split; [exact Q3|]. cbn [v_len]. now rewrite read_view_length. }
    eexists _, _. split; [exact R2|]. split; [exact W2|split; [eapply ext_trans; eauto|]]. eexists. split; [exact Q4|].
    unfold abs. cbn [s_dump s_name s_sel]. do 2 f_equal. rewrite <- Q2. unfold read_view. now rewrite Q5.
Qed.
Lemma copy_does : does any ref copy_single (fun o => Ok o).
Proof.
  intros w i s W _ H. assert (O : obj_ok w s) by (apply W; eapply nth_error_In; eauto).
  unfold copy_single. rewrite (mbind_eq _ _ _ _ _ (get_obj_eq _ _ _ H)).
  destruct (s_sel s) as [| |v] eqn:S.
  - destruct (new_obj_ok sizes w s W O) as [w1 [R1 [W1 [X1 [Q1 Q2]]]]].
    eexists _, _. split; [exact R1|]. split; [exact W1|split; [exact X1|]]. eexists. split; [exact Q1|]. unfold abs, read_view. now rewrite Q2.
  - destruct (new_obj_ok sizes w s W O) as [w1 [R1 [W1 [X1 [Q1 Q2]]]]].
    eexists _, _. split; [exact R1|]. split; [exact W1|split; [exact X1|]]. eexists. split; [exact Q1|]. unfold abs, read_view. now rewrite Q2.
  - destruct (oo_view _ _ _ O v S) as [V1 V2]. unfold get_view, mbind at 1.
    destruct (new_bools_ok sizes w (read_view w v) W) as [w1 [R1 [W1 [X1 [Q1 [Q2 Q3]]]]]].
    rewrite (mbind_eq _ _ _ _ _ R1).
    set (s' := mksingle (s_dump s) (s_name s) (SArr (mkview (length (w_bools w)) 0 (length (read_view w v)))) (s_cache s)).
    assert (AA : abs w1 s' = abs w s).
    { unfold abs, s'. cbn [s_dump s_name s_sel]. rewrite S. do 2 f_equal. exact Q2. }
    destruct (new_obj_ok sizes w1 s' W1) as [w2 [R2 [W2 [X2 [Q4 Q5]]]]].
    { split; unfold s' at 1; cbn [s_dump s_name s_sel s_cache]; [apply (oo_dump _ _ _ O)|apply (oo_name _ _ _ O)| |].
      - intros u [= <-]. split; [exact Q3|]. cbn [v_len]. now rewrite read_view_length.
      - intros k x I. rewrite AA. now apply (oo_cache _ _ _ O). }
    eexists _, _. split; [exact R2|]. split; [exact W2|split; [eapply ext_trans; eauto|]]. eexists. split; [exact Q4|].
    rewrite <- AA. unfold abs, read_view. now rewrite Q5.
Qed.
(** ** Compressing by ids *)
Lemma filter_le {A} (f : A -> bool) l : (length (filter f l) <= length l)%nat.
Proof. induction l as [|x l IH]; cbn; [lia|]. destruct (f x); cbn; lia. Qed.
Definition aids (l : list Z) (o : aobj) : res aobj :=
  match aread o "id" with
  | Err e => Err e
  | Ok (DScalar _) => Err TypeError
  | Ok (DVoid _) => Err ValueError
  | Ok (DVec ids) =>
      match l, ids with
      | [], _ :: _ => Err IndexError
      | _, _ => Ok (acompress o (map (fun q => mem_Z (Qfloor q) l) ids))
      end
  end.
Lemma is_listed_spec l q : l <> [] -> is_listed (sort_Z l) q = Ok (mem_Z (Qfloor q) l).
Proof.
  intro Hl. unfold is_listed. cbv zeta. pose proof (sort_Z_sorted l) as S. pose proof (sort_Z_perm l) as P.
  set (t := sort_Z l) in *. set (n := Qfloor q). pose proof (search_spec t n S) as Sp. unfold searchsorted_Z in *.
  assert (T : (0 < length t)%nat) by (rewrite (Permutation_length P); destruct l; [easy|cbn; lia]).
  assert (I : mem_Z n l = true <-> In n t).
  { rewrite mem_Z_In. split; apply Permutation_in; auto using Permutation_sym. }
  destruct (Z.eqb_spec (Z.of_nat (length (filter (fun x => (x <? n)%Z) t))) (Z.of_nat (length t))) as [E|E].
  - assert (Hlt : forall x, In x t -> (x < n)%Z).
    { rewrite E in Sp. unfold getidx in Sp. replace (Z.of_nat (length t) <? 0)%Z with false in Sp by (symmetry; apply Z.ltb_ge; lia).
      rewrite Z.ltb_irrefl, andb_false_r in Sp. exact Sp. }
    rewrite (getidx_at t 0 0%Z T : getidx t 0 = _). cbn [bind]. f_equal.
    destruct (mem_Z n l) eqn:Q; [specialize (Hlt n (proj1 I eq_refl)); lia|].
    apply Z.eqb_neq. specialize (Hlt (nth 0 t 0%Z) (nth_In t 0%Z T)). lia.
  - assert (Hb : (length (filter (fun x => (x <? n)%Z) t) < length t)%nat) by (pose proof (filter_le (fun x => (x <? n)%Z) t); lia).
    rewrite (getidx_at _ _ 0%Z Hb) in Sp |- *. cbn [bind]. f_equal. destruct Sp as [Sp1 [Sp2 Sp3]].
    destruct (mem_Z n l) eqn:Q.
    + apply Z.eqb_eq. specialize (Sp3 n (proj1 I eq_refl) (Z.le_refl n)). lia.
    + apply Z.eqb_neq. intro C. rewrite C in Sp1. apply I in Sp1. discriminate.
Qed.
Lemma mem_Z_perm x l l' : Permutation l l' -> mem_Z x l = mem_Z x l'.
Proof.
  intro P. apply eq_true_iff_eq. rewrite !mem_Z_In. split; apply Permutation_in; auto using Permutation_sym.
Qed.
Lemma ids_does k l : does (fun w => Permutation l (nth k (w_ids w) [])) ref (fun i => compress_int i k) (aids l).
Proof.
  intros w i s W HP H. unfold compress_int.
  set (w1 := mkworld (w_bools w) (upd (w_ids w) k (sort_Z (nth k (w_ids w) []))) (w_objs w) (w_ms w)).
  assert (X1 : ext w w1).
  { split; cbn; [exists []; now rewrite app_nil_r| |reflexivity|].
    - intros j t T. exists t. split; [exact T|apply same_refl].
    - intro j. destruct (Nat.lt_ge_cases k (length (w_ids w))) as [L|L].
      + destruct (Nat.eq_dec j k) as [->|N].
        * rewrite (nth_error_nth (upd (w_ids w) k _) k [] (x := sort_Z (nth k (w_ids w) []))).
          { symmetry. apply sort_Z_perm. } rewrite nth_error_upd by exact L. now rewrite Nat.eqb_refl.
        * assert (E : nth j (upd (w_ids w) k (sort_Z (nth k (w_ids w) []))) [] = nth j (w_ids w) []); [|now rewrite E].
          pose proof (nth_error_upd (w_ids w) k (sort_Z (nth k (w_ids w) [])) j L) as U. apply Nat.eqb_neq in N. rewrite N in U.
          destruct (nth_error (w_ids w) j) as [x|] eqn:Z.
          -- rewrite (nth_error_nth _ _ [] U). symmetry. now apply nth_error_nth.
          -- apply nth_error_None in Z. apply nth_error_None in U. now rewrite !nth_overflow.
      + replace (upd (w_ids w) k (sort_Z (nth k (w_ids w) []))) with (w_ids w); [reflexivity|].
        generalize (sort_Z (nth k (w_ids w) [])). revert L. clear. revert k. induction (w_ids w) as [|x r IH]; intros k L z; [now destruct k|].
        destruct k; cbn in L; [lia|]. cbn. f_equal. apply IH. lia. }
  assert (W1 : winv w1).
  { intros t T. apply (obj_ok_ext sizes w); [exists []; now rewrite app_nil_r|]. apply W, T. }
  assert (R1 : sort_ids k w = (w1, Ok (sort_Z (nth k (w_ids w) [])))) by reflexivity.
  rewrite (mbind_eq _ _ _ _ _ R1). set (cond := sort_Z (nth k (w_ids w) [])).
  assert (H1 : nth_error (w_objs w1) i = Some s) by exact H.
  assert (A1 : abs w1 s = abs w s) by reflexivity.
  destruct (readatomic_ok sizes w1 i s "id" W1 H1) as [w2 [R2 [W2 X2]]]. rewrite A1 in R2.
  assert (X12 : ext w w2) by (eapply ext_trans; eauto). unfold aids.
  destruct (aread (abs w s) "id") as [[q|ids|n]|e] eqn:RD.
  - rewrite (mbind_eq _ _ _ _ _ R2). eexists _, _. split; [reflexivity|]. split; [exact W2|split; [exact X12|reflexivity]].
  - rewrite (mbind_eq _ _ _ _ _ R2).
    assert (AW : awf (abs w s)) by (apply abs_wf, W; eapply nth_error_In; eauto).
    pose proof (aread_vec_length sizes (abs w s) "id" ids AW RD) as LC.
    assert (MM : mapM (is_listed cond) ids =
      match l, ids with [], _ :: _ => Err IndexError | _, _ => Ok (map (fun q => mem_Z (Qfloor q) l) ids) end).
    { destruct l as [|z l].
      - apply Permutation_nil in HP. unfold cond. rewrite HP. destruct ids; reflexivity.
      - assert (Hn : nth k (w_ids w) [] <> []) by (intro C; rewrite C in HP; now apply Permutation_sym, Permutation_nil in HP).
        clear - Hn HP. induction ids as [|q ids IH]; [reflexivity|]. cbn [mapM map].
        unfold cond at 1. rewrite is_listed_spec by exact Hn. cbn [bind]. rewrite IH. cbn [bind].
        now rewrite (mem_Z_perm _ _ _ HP). }
    set (bs := map (fun q => mem_Z (Qfloor q) l) ids) in *.
    assert (Hb : length bs = count (abs w s)) by (unfold bs; now rewrite map_length).
    assert (G : match l, ids with [], _ :: _ => Err IndexError | _, _ => Ok (acompress (abs w s) bs) end =
                match (match l, ids with [], _ :: _ => Err IndexError | _, _ => Ok bs end) with Ok b => Ok (acompress (abs w s) b) | Err e => Err e end).
    { destruct l, ids; reflexivity. }
    rewrite G, <- MM. unfold mlift. destruct (mapM (is_listed cond) ids) as [b|e] eqn:Mb.
    2:{ unfold mbind at 1. eexists _, _. split; [reflexivity|]. split; [exact W2|split; [exact X12|reflexivity]]. }
    assert (b = bs) as -> by (destruct l, ids; congruence).
    unfold mbind at 1. destruct (new_bools_ok sizes w2 bs W2) as [w3 [R3 [W3 [X3 [Q1 [Q2 Q3]]]]]].
    rewrite (mbind_eq _ _ _ _ _ R3). assert (X13 : ext w w3) by (eapply ext_trans; eauto).
    destruct (ext_obj sizes w w3 i s X13 W H) as [s3 [H3 A3]].
    destruct (compress_bool_ok sizes w3 i s3 _ W3 H3 Q3) as [w4 [r [R4 [W4 [X4 Z]]]]].
    exists w4, r. split; [exact R4|]. split; [exact W4|split; [eapply ext_trans; eauto|]].
    cbn [v_len] in Z. rewrite A3, Q2, Hb, Nat.eqb_refl in Z. exact Z.
  - rewrite (mbind_eq _ _ _ _ _ R2). eexists _, _. split; [reflexivity|]. split; [exact W2|split; [exact X12|reflexivity]].
  - rewrite (mbind_err _ _ _ _ _ R2). eexists _, _. split; [reflexivity|]. split; [exact W2|split; [exact X12|reflexivity]].
Qed.
(** ** A condition for all species *)
Lemma skipn_skipn {A} a : forall b (l : list A), skipn a (skipn b l) = skipn (a + b) l.
Proof.
  intros b l. rewrite Nat.add_comm. revert l. induction b as [|b IH]; intro l; [reflexivity|]. destruct l; [cbn [skipn Nat.add]; apply skipn_nil|]. apply IH.
Qed.
Fixpoint aeach (c : list bool) (pos : nat) (os : list aobj) : res (list aobj) :=
  match os with
  | [] => Ok []
  | o :: r =>
      let seg := firstn (count o) (skipn pos c) in
      if (count o =? length seg)%nat then let! r' := aeach c (pos + count o) r in Ok (acompress o seg :: r') else Err ValueError
  end.
Lemma each_ok v : forall is os pos w, winv w -> view_ok w v -> Forall2 (ref w) is os ->
  exists w' r, compress_each v pos is w = (w', r) /\ winv w' /\ ext w w' /\
    result (fun w => Forall2 (ref w)) w' r (aeach (read_view w v) pos os).
Proof.
  induction is as [|i is IH]; intros os pos w W V F; inversion F as [|? o ? os' [s [H Ho]] F']; subst.
  { exists w, (Ok []). split; [reflexivity|split; [exact W|split; [apply ext_refl|constructor]]]. }
  cbn [compress_each aeach]. destruct (len_single_ok sizes w i s W H) as [w1 [R1 [W1 X1]]].
  rewrite (mbind_eq _ _ _ _ _ R1). cbv zeta. set (n := count (abs w s)).
  set (lo := Nat.min pos (v_len v)). set (u := mkview (v_buf v) (v_off v + lo) (Nat.min (pos + n) (v_len v) - lo)).
  assert (VU : view_ok w u).
  { destruct V as [V1 V2]. split; unfold u; cbn [v_buf v_off v_len]; [exact V1|]. unfold lo. lia. }
  assert (RU : read_view w u = firstn n (skipn pos (read_view w v))).
  { unfold read_view, u. cbn [v_buf v_off v_len]. rewrite skipn_firstn_comm, skipn_skipn, firstn_firstn.
    unfold lo. destruct (Nat.le_gt_cases pos (v_len v)).
    - replace (Nat.min pos (v_len v)) with pos by lia. rewrite (Nat.add_comm (v_off v) pos). f_equal. lia.
    - replace (Nat.min (pos + n) (v_len v) - Nat.min pos (v_len v))%nat with 0%nat by lia.
      replace (Nat.min n (v_len v - pos)) with 0%nat by lia. reflexivity. }
  assert (LU : length (read_view w u) = v_len u) by now apply read_view_length.
  pose proof (view_ok_ext _ _ _ (ex_bools _ _ X1) VU) as VU1.
  destruct (ext_obj sizes w w1 i s X1 W H) as [s1 [H1 A1]].
  destruct (compress_bool_ok sizes w1 i s1 u W1 H1 VU1) as [w2 [r2 [R2 [W2 [X2 Z]]]]].
  rewrite A1, (read_view_ext _ _ _ (ex_bools _ _ X1) VU), <- LU, RU in Z. fold n in Z.
  assert (X12 : ext w w2) by (eapply ext_trans; eauto). unfold made in Z.
  destruct (n =? length (firstn n (skipn pos (read_view w v))))%nat, r2 as [j|e]; try contradiction.
  2:{ rewrite (mbind_err _ _ _ _ _ R2). exists w2, (Err e). split; [reflexivity|]. split; [exact W2|split; [exact X12|exact Z]]. }
  rewrite (mbind_eq _ _ _ _ _ R2).
  destruct (IH os' (pos + n)%nat w2 W2 (view_ok_ext _ _ _ (ex_bools _ _ X12) V) (refs_ext _ _ _ _ W X12 F')) as [w3 [r3 [R3 [W3 [X3 Z3]]]]].
  rewrite (read_view_ext _ _ _ (ex_bools _ _ X12) V) in Z3. unfold result in Z3.
  assert (X13 : ext w w3) by (eapply ext_trans; eauto).
  destruct (aeach (read_view w v) (pos + n) os') as [bs|e], r3 as [js|e']; try contradiction.
  - rewrite (mbind_eq _ _ _ _ _ R3). cbn [bind]. eexists _, _. split; [reflexivity|]. split; [exact W3|split; [exact X13|]].
    constructor; [|exact Z3]. eapply ref_lasting; [exact W2|exact X3|exact Z].
  - subst e'. rewrite (mbind_err _ _ _ _ _ R3). eexists _, _. split; [reflexivity|]. split; [exact W3|split; [exact X13|reflexivity]].
Qed.
End Ops.
