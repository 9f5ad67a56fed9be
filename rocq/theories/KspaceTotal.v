(** When kspace succeeds. *)
From Coq Require Import Reals String Ascii List ZArith Lia Lra Bool.
From Verif Require Import PyBase PyBaseFacts NumpyModel NdModel NdFacts FieldModel CplxModel CplxFacts FftModel FftSpec FftAxes FftKernel FftFacts FftLaws FftMore FftShift KspaceModel KspaceSpec KspaceFrame KspaceFacts.
Import ListNotations.
Local Open Scope R_scope.

Lemma all_in_at b f a : all_in b f -> (a < ndim f)%nat -> nth_error (rf_ats f) a = Some (Some b).
Proof. intros H L. apply H, in_seq. lia. Qed.
Lemma all_in_one b c f : (0 < ndim f)%nat -> all_in b f -> all_in c f -> b = c.
Proof. intros P H K. assert (X := all_in_at b f 0 H P). rewrite (all_in_at c f 0 K P) in X. congruence. Qed.
(** a field wholly in one domain *)
Lemma whole_lives b f nd U W : consistent f -> ndim f = nd -> on_grid f (seq 0 nd) U -> all_in b f -> (forall a, (a < nd)%nat -> W a = if b then dual (nth a (rf_tao f) None) (U a) else U a) -> lives_on f nd W.
Proof. intros C Nd G A H. split; [exact C|]. split; [exact Nd|]. exists (fun _ => b), U. split; [exact G|]. intros a L. split; [apply all_in_at; [exact A|lia]|now apply H]. Qed.
Lemma lives_whole b f nd W : lives_on f nd W -> all_in b f -> consistent f /\ ndim f = nd /\ exists U, on_grid f (seq 0 nd) U /\ forall a, (a < nd)%nat -> W a = if b then dual (nth a (rf_tao f) None) (U a) else U a.
Proof.
  intros (C & Nd & B & U & G & H) A. split; [exact C|]. split; [exact Nd|]. exists U. split; [exact G|]. intros a L. destruct (H a L) as [E ->].
  rewrite (all_in_at b f a A) in E by lia. injection E as <-. reflexivity.
Qed.
Lemma known_space f : all_in false f -> origins_known f.
Proof. intros A a L. left. now apply all_in_at. Qed.
Lemma known_all f : (forall a, (a < ndim f)%nat -> exists x, nth_error (rf_tao f) a = Some (Some x)) -> origins_known f.
Proof. intros H a L. right. now apply H. Qed.
Lemma lives_wf f nd W : (0 < nd)%nat -> lives_on f nd W -> wellformed f.
Proof.
  intros P (C & <- & B & U & G & A). split; [exact C|]. split; [exists U; exact G|]. split; [exact P|]. intros a L. exists (B a). now apply A.
Qed.
Lemma in_domain_ok f b : wellformed f -> exists r, in_domain f b = Ok r /\ (r = true <-> all_in b f).
Proof.
  intro W. assert (H := in_domain_wf f b W). destruct (in_domain f b) as [r|e] eqn:E; [exists r; split; [reflexivity|]; rewrite <- H; split; [now intros ->|now intros [= ->]]|].
  exfalso. destruct W as (C & (U & G) & P & Hb). unfold in_domain in E. rewrite (all_dims_grid f U G) in E.
  rewrite (mapM_nat _ (fun a => (Z.of_nat a, negb (state_is b (nth a (rf_ats f) None))))) in E; [discriminate|]. intros a I. apply in_seq in I. destruct (Hb a) as [s Es]; [lia|]. rewrite (getidx_nat _ _ _ Es). cbn [rmap]. now rewrite (nth_error_nth _ _ None Es).
Qed.
Lemma ensure_at_ok spl b a f s : linear_spline spl -> wellformed f -> nth_error s a = Some f -> exists s' a', ensure_at spl b a s = (s', Ok a').
Proof.
  intros Sp W H. destruct (in_domain_ok f b W) as (r & E & _). destruct (ensure_wf spl f b Sp W) as (G & EG & _). unfold ensure_at, sbind, load, lift. rewrite H, E.
  destruct r; [do 2 eexists; reflexivity|]. rewrite EG. do 2 eexists. reflexivity.
Qed.
(** the transform of a field stays at the same place *)
Lemma ensure_place spl b f nd W : linear_spline spl -> (0 < nd)%nat -> lives_on f nd W -> exists F, ensure_domain spl f b = Ok F /\ lives_on F nd W /\ all_in b F /\ a_shape (rf_data F) = a_shape (rf_data f) /\
  (b = true -> origins_known f -> forall a, (a < nd)%nat -> exists x, nth_error (rf_tao F) a = Some (Some x)).
Proof.
  intros Sp P L. assert (Wf := lives_wf f nd W P L). destruct (ensure_wf spl f b Sp Wf) as (F & E & WF & AF & ShF & _ & Id). exists F. split; [exact E|].
  assert (NdF : ndim F = ndim f) by (unfold ndim; now rewrite ShF).
  enough (X : lives_on F nd W /\ (b = true -> origins_known f -> forall a, (a < nd)%nat -> exists x, nth_error (rf_tao F) a = Some (Some x))) by (split; [apply X|]; split; [exact AF|]; split; [exact ShF|apply X]).
  destruct L as (C & Nd & B & U & G & H). assert (Ug : on_grid f (seq 0 (ndim f)) U) by now rewrite Nd.
  rewrite (ensure_unfold spl f b U C Ug) in E. destruct (wrong f b) as [|w l] eqn:Ew.
  - assert (F = f) by congruence. subst F. split; [split; [exact C|]; split; [exact Nd|]; exists B, U; auto|]. intros -> O a La. destruct (O a) as [O'|O']; [lia| |exact O']. exfalso. rewrite (all_in_at true f a AF) in O' by lia. discriminate O'.
  - rewrite <- Ew in E. assert (Sub : forall a, In a (wrong f b) -> In a (seq 0 (ndim f))) by (intros a I; apply wrong_In in I; apply in_seq; lia). assert (UgW := on_grid_sub f _ _ U Sub Ug).
    destruct (fft_named spl false false f (map Z.of_nat (wrong f b)) (wrong f b) U (negb b) Sp C) as (G' & EG & T); [congruence|exact UgW| |intro; apply iff_refl|].
    { intros a I. apply wrong_In in I as [La Sf]. destruct (H a) as [Es _]; [lia|]. rewrite Es. rewrite (nth_error_nth _ _ None Es) in Sf. destruct (B a), b; try reflexivity; discriminate. }
    assert (G' = F) by congruence. subst G'. clear EG.
    assert (Un : on_grid f (named (ndim f) (wrong f b)) U) by (apply (on_grid_sub f (wrong f b)); [intro c; rewrite named_In; tauto|exact UgW]).
    assert (Wr : forall a, (a < nd)%nat -> is_named (named (ndim f) (wrong f b)) a = negb (Bool.eqb b (B a))).
    { intros a La. apply Bool.eq_iff_eq_true. rewrite is_named_In, named_In, wrong_In. destruct (H a La) as [Es _]. rewrite (nth_error_nth _ _ None Es). cbn [state_is]. rewrite negb_true_iff. intuition lia. }
    split.
    + split; [exact (T_consistent f F _ U (negb b) false false C T)|]. split; [congruence|]. exists (fun _ => b), (fun a => if Bool.eqb b (B a) then U a else VV f U a). split.
      * intros a I. apply in_seq in I. assert (La : (a < nd)%nat) by lia. specialize (Wr a La). destruct (Bool.eqb b (B a)).
        -- destruct (G a) as (ax & X1 & X2 & X3); [apply in_seq; lia|]. exists ax. rewrite (t_axes _ _ _ _ _ _ _ T), Wr. split; [exact X1|]. split; [exact X2|]. now rewrite (t_shape _ _ _ _ _ _ _ T).
        -- apply (T_grid f F (named (ndim f) (wrong f b)) U (negb b) false false Un T). now apply is_named_In.
      * intros a La. split; [apply all_in_at; [exact AF|lia]|]. destruct (H a La) as [Es ->]. specialize (Wr a La). destruct (Bool.eqb b (B a)) eqn:Eb.
        -- apply eqb_prop in Eb. subst b. destruct (B a); [|reflexivity]. f_equal. assert (Tt := t_tao _ _ _ _ _ _ _ T a). rewrite Wr in Tt. cbn [negb] in Tt. 
           destruct (nth_error (rf_tao f) a) as [o|] eqn:Eo; [now rewrite (nth_error_nth _ _ None Eo), (nth_error_nth _ _ None Tt)|]. rewrite !nth_overflow; [reflexivity|now apply nth_error_None|now apply nth_error_None].
        -- assert (Ia : In a (named (ndim f) (wrong f b))) by now apply is_named_In. destruct b, (B a); try discriminate Eb.
           ++ symmetry. exact (T_back f F _ U false false false Un T a Ia).
           ++ reflexivity.
    + intros -> O a La. rewrite (t_tao _ _ _ _ _ _ _ T), (Wr a La). destruct (H a La) as [Es _]. destruct (B a) eqn:Eb; cbn [Bool.eqb negb]; [|eexists; reflexivity]. destruct (O a) as [O'|O']; [lia| |exact O']. rewrite Es in O'. discriminate O'.
Qed.
Lemma ensure_lives spl f nd W : linear_spline spl -> (0 < nd)%nat -> lives_on f nd W -> exists F, ensure_domain spl f true = Ok F /\ lives_on F nd W /\ all_in true F /\ a_shape (rf_data F) = a_shape (rf_data f) /\
  (origins_known f -> forall a, (a < nd)%nat -> exists x, nth_error (rf_tao F) a = Some (Some x)).
Proof. intros Sp P L. destruct (ensure_place spl true f nd W Sp P L) as (F & A & B & C & D & E). exists F. auto 6. Qed.
Lemma lives_grids f nd W : (0 < nd)%nat -> lives_on f nd W -> all_in true f -> spatial_grids f = Ok (map (fun a => grid_of (W a)) (seq 0 nd)).
Proof.
  intros P L Af. destruct (lives_whole true f nd W L Af) as (C & Nd & U & G & HW).
  assert (Ug : on_grid f (seq 0 (ndim f)) U) by now rewrite Nd. unfold spatial_grids. rewrite (all_dims_grid f U Ug), (step_grids f (seq 0 (ndim f)) U C Ug). cbn [rmap]. f_equal. rewrite map_map, Nd. apply map_ext_in. intros a I. apply in_seq in I. now rewrite HW by lia.
Qed.
Lemma mapM_map_ok {A B} (h : A -> res B) (u : nat -> A) (g : nat -> B) l : (forall a, In a l -> h (u a) = Ok (g a)) -> mapM h (map u l) = Ok (map g l).
Proof. induction l as [|a l IH]; intro H; [reflexivity|]. cbn [map mapM]. rewrite H by now left. cbn [bind]. rewrite IH by (intros; apply H; now right). reflexivity. Qed.
Lemma grid_get u k : (k < u_n u)%nat -> getidx (grid_of u) (Z.of_nat k) = Ok (point u (Z.of_nat k)).
Proof. intro H. rewrite (getidx_at _ _ 0) by (rewrite grid_length; lia). now rewrite grid_at. Qed.
Lemma grid_end u : (0 < u_n u)%nat -> getidx (grid_of u) (-1) = Ok (point u (Z.of_nat (u_n u - 1))).
Proof.
  intro H. apply getidx_some. exists (u_n u - 1)%nat. split.
  - apply py_pos_ok. rewrite grid_length. lia.
  - rewrite (nth_error_nth' _ 0) by (rewrite grid_length; lia). now rewrite grid_at by lia.
Qed.
Lemma grids_data nd W : (forall a, (a < nd)%nat -> proper (W a)) -> let gs := map (fun a => grid_of (W a)) (seq 0 nd) in
  firsts gs = Ok (map (fun a => u_x0 (W a)) (seq 0 nd)) /\ lengths gs = Ok (map (fun a => INR (u_n (W a) - 1) * u_dx (W a)) (seq 0 nd)) /\ spacings gs = Ok (map (fun a => u_dx (W a)) (seq 0 nd)).
Proof.
  intros P gs. unfold firsts, lengths, spacings, gs. split; [|split]; apply mapM_map_ok; intros a I; apply in_seq in I; destruct (P a) as [N D]; try lia.
  - now apply grid_first.
  - rewrite grid_end, grid_first by lia. cbn [bind]. f_equal. unfold point. rewrite <- INR_IZR_INZ. ring.
  - change 1%Z with (Z.of_nat 1). rewrite grid_get, grid_first by lia. cbn [bind]. f_equal. unfold point. cbn [Z.of_nat Pos.of_succ_nat]. ring.
Qed.
Lemma lives_proper f nd W : lives_on f nd W -> forall a, (a < nd)%nat -> proper (W a) /\ nth_error (a_shape (rf_data f)) a = Some (Z.of_nat (u_n (W a))).
Proof.
  intros (C & Nd & B & U & G & HW) a La. destruct (G a) as (ax & _ & (_ & _ & P) & Sh); [apply in_seq; lia|]. rewrite (proj2 (HW a La)). destruct (B a); [split; [now apply dual_proper|exact Sh]|split; assumption].
Qed.
Lemma lives_shape f g nd W V : lives_on f nd W -> lives_on g nd V -> (forall a, (a < nd)%nat -> u_n (V a) = u_n (W a)) -> a_shape (rf_data g) = a_shape (rf_data f).
Proof.
  intros Lf Lg H. apply nth_error_eq. intro a. destruct (Nat.lt_ge_cases a nd) as [L|L].
  - rewrite (proj2 (lives_proper f nd W Lf a L)), (proj2 (lives_proper g nd V Lg a L)). now rewrite H.
  - destruct Lf as (_ & Nf & _), Lg as (_ & Ng & _). unfold ndim in *. now rewrite !(proj2 (nth_error_None _ _)) by lia.
Qed.
Lemma all_close_map (g h : nat -> R) l : (forall a, In a l -> g a = h a) -> all_close (map g l) (map h l) = true.
Proof. intro H. unfold all_close. rewrite combine_map. apply forallb_map_true. intros a I. cbn [fst snd]. rewrite H by exact I. apply rclose_refl. Qed.
Lemma ensure_again spl f g b : linear_spline spl -> wellformed f -> ensure_domain spl f b = Ok g -> ensure_domain spl g b = Ok g.
Proof.
  intros Sp Wf E. destruct (ensure_wf spl f b Sp Wf) as (g' & E' & Wg & Ag & _). assert (g' = g) by congruence. subst g'. destruct (in_domain_ok g b Wg) as (t & Et & Ht). rewrite (proj2 Ht Ag) in Et. now apply in_domain_ensure.
Qed.
(** what is done after the copy of the other field has been made *)
Section Tail.
Variables (spl : rspline) (lin : rfield -> list (Z * R) -> res rfield) (ip : interp) (pol : Z) (sh : list Z) (axes : list raxis) (pre : list Z -> R) (origin Dx dx : list R) (result : nat) (i : Z).
Definition checked (a : nat) : ST unit :=
  st! f := load a in
  st! st := lift (rstate (rf_ats f) (all_dims f)) in
  st! gs := lift (match st with Some true => spatial_grids f | _ => Ok (map ra_grid (rf_axes f)) end) in
  st! fo := lift (firsts gs) in
  st! oDx := lift (lengths gs) in
  if negb (if list_eq_dec Z.eq_dec (a_shape (rf_data f)) sh then true else false) then lift (Err ValueError)
  else if negb (all_close Dx oDx) then lift (Err ValueError)
  else
    let shift := combine (zrange (Z.of_nat (length origin))) (map2 (fun so fo => so - fo) origin fo) in
    if negb (match ip with
             | INone => all_close origin fo
             | _ => forallb (fun p => Rltb (Rabs (snd (fst p))) (2 * snd p)) (combine shift dx)
             end) then lift (Err ValueError)
    else
      st! a := (match ip with
                | ILinear => st! a := ensure_at spl false a in st! f := load a in st! g := lift (lin f shift) in alloc g
                | _ => sret a end) in
      st! a := ensure_at spl true a in
      st! _ := (match ip with
                | IFourier => st! f := load a in st! tao := lift (move_origins (rf_tao f) shift) in assign a (mkrf (rf_data f) (rf_axes f) (rf_ats f) tao)
                | _ => sret tt end) in
      st! f := load a in
      st! r := load result in
      assign result (with_data r (mkarr (a_shape (rf_data r)) (fun idx =>
        Cadd (a_at (rf_data r) idx) (Cmul (RtoC ((if (i =? 1)%Z then 1 else -1) * pre idx * mesh axes ((pol - i) mod 3)%Z idx)) (a_at (rf_data f) idx))))).
Definition aims : bool := match ip with ILinear => false | _ => true end.
Lemma other_copied other fields key a f s : ((pol - i) mod 3 <? Z.of_nat (length axes))%Z = true -> field_key other ((pol + i) mod 3) = Some key -> dget fields key = Some a -> nth_error s a = Some f ->
  other_field spl lin ip other fields pol sh axes pre origin Dx dx result i s =
  (st! st := lift (rstate (rf_ats f) (all_dims f)) in st! a := (match st with None => ensure_at spl aims (length s) | Some _ => sret (length s) end) in checked a) (s ++ [f]).
Proof.
  intros Lt Hk Ha Hf. unfold other_field. rewrite Lt, Hk, Ha.
  transitivity (sbind (deepcopy a) (fun a => sbind (load a) (fun f => sbind (lift (rstate (rf_ats f) (all_dims f))) (fun st => sbind (match st with None => match ip with ILinear => ensure_at spl false a | _ => ensure_at spl true a end | Some _ => sret a end) checked))) s); [reflexivity|].
  assert (D : deepcopy a s = (s ++ [f], Ok (length s))) by (unfold deepcopy, sbind, load, alloc; now rewrite Hf). unfold sbind at 1. rewrite D.
  assert (L : load (length s) (s ++ [f]) = (s ++ [f], Ok f)) by (unfold load; now rewrite nth_error_app2, Nat.sub_diag by lia). unfold sbind at 1. rewrite L.
  unfold sbind at 1 3. unfold lift. destruct (rstate (rf_ats f) (all_dims f)) as [[st|]|e]; [reflexivity| |reflexivity]. unfold aims. destruct ip; reflexivity.
Qed.
(** the copy that is used: the field itself, or its transform if it was in a mixture of domains *)
Lemma other_checked nd V other fields key a f s : linear_spline spl -> (0 < nd)%nat -> lives_on f nd V -> ((pol - i) mod 3 <? Z.of_nat (length axes))%Z = true -> field_key other ((pol + i) mod 3) = Some key -> dget fields key = Some a -> nth_error s a = Some f ->
  exists s1 b g st, other_field spl lin ip other fields pol sh axes pre origin Dx dx result i s = checked b s1 /\ nth_error s1 b = Some g /\ (length s <= b)%nat /\ (forall c, (c < length s)%nat -> nth_error s1 c = nth_error s c) /\
    lives_on g nd V /\ all_in st g /\ a_shape (rf_data g) = a_shape (rf_data f) /\ (origins_known f -> origins_known g) /\ (g = f \/ ensure_domain spl f aims = Ok g).
Proof.
  intros Sp Pn L Lt Hk Ha Hf. rewrite (other_copied other fields key a f s Lt Hk Ha Hf). assert (L0 := L). assert (Wf := lives_wf f nd V Pn L). destruct L0 as (C & Nd & B & U & G & H). assert (Ug : on_grid f (seq 0 (ndim f)) U) by now rewrite Nd.
  assert (H1 : nth_error (s ++ [f]) (length s) = Some f) by now rewrite nth_error_app2, Nat.sub_diag by lia.
  assert (O1 : forall c, (c < length s)%nat -> nth_error (s ++ [f]) c = nth_error s c) by (intros c Lc; now rewrite nth_app_old).
  assert (Cs : (exists st, all_in st f) \/ rstate (rf_ats f) (all_dims f) = Ok None).
  { destruct (in_domain_ok f true Wf) as (t & _ & Ht), (in_domain_ok f false Wf) as (u & _ & Hu). destruct t; [left; exists true; now apply Ht|]. destruct u; [left; exists false; now apply Hu|]. right.
    assert (R : exists o, rstate (rf_ats f) (all_dims f) = Ok o /\ forall st, o = Some st -> all_in st f).
    { rewrite (all_dims_grid f U Ug). unfold rstate.
      assert (K : forall st l, (forall a, In a l -> (a < nd)%nat) -> exists t, all_axes (fun j => rmap (state_is st) (getidx (rf_ats f) j)) (map Z.of_nat l) = Ok t /\ (t = true -> forall a, In a l -> nth_error (rf_ats f) a = Some (Some st))).
      { intro st. induction l as [|c l IH]; intro Hl; [exists true; split; [reflexivity|contradiction]|]. destruct (H c (Hl c (or_introl eq_refl))) as [Es _]. cbn [map all_axes]. rewrite (getidx_nat _ _ _ Es). cbn [rmap bind state_is].
        destruct (Bool.eqb st (B c)) eqn:Eb; [|exists false; split; [reflexivity|discriminate]]. apply eqb_prop in Eb. subst st. destruct IH as (t & Et & Ht'); [intros; apply Hl; now right|]. exists t. split; [exact Et|]. intros Tt x [<-|I]; [exact Es|now apply Ht']. }
      destruct (K true (seq 0 (ndim f))) as (t & Et & T1); [intros c I; apply in_seq in I; lia|]. destruct (K false (seq 0 (ndim f))) as (u & Eu & U1); [intros c I; apply in_seq in I; lia|]. rewrite Et. cbn [bind]. destruct t; [exists (Some true); split; [reflexivity|]; intros st [= <-]; exact (T1 eq_refl)|].
      rewrite Eu. cbn [bind]. destruct u; eexists; (split; [reflexivity|]); [intros st [= <-]; exact (U1 eq_refl)|discriminate]. }
    destruct R as ([st|] & E & X); [|exact E]. exfalso. specialize (X st eq_refl). destruct st; [apply Ht in X|apply Hu in X]; discriminate X. }
  destruct Cs as [[st A]|Rn].
  - assert (Rs : rstate (rf_ats f) (all_dims f) = Ok (Some st)) by (rewrite (all_dims_grid f U Ug); apply rstate_nat; [rewrite Nd; destruct nd; [lia|discriminate]|exact A]).
    rewrite Rs. exists (s ++ [f]), (length s), f, st. split; [reflexivity|]. split; [exact H1|]. split; [lia|]. split; [exact O1|]. split; [exact L|]. split; [exact A|]. split; [reflexivity|]. split; [tauto|now left].
  - rewrite Rn. unfold sbind at 1, lift at 1. destruct (ensure_at_ok spl aims (length s) f (s ++ [f]) Sp Wf H1) as (s2 & b2 & E2). destruct (ensure_at_value spl aims (length s) f (s ++ [f]) s2 b2 H1 E2) as (g & Eg & H2 & Cs).
    destruct (ensure_place spl aims f nd V Sp Pn L) as (g' & Eg' & Lg & Ag & Shg & Og). assert (g' = g) by congruence. subst g'.
    exists s2, b2, g, aims. split; [unfold sbind at 1; now rewrite E2|]. split; [exact H2|].
    split; [destruct Cs as [(_ & -> & _)|(_ & ->)]; [lia|rewrite app_length; cbn; lia]|].
    split; [intros c Lc; destruct Cs as [(-> & _)|(-> & _)]; [now apply O1|rewrite nth_app_old by (rewrite app_length; cbn; lia); now apply O1]|].
    split; [exact Lg|]. split; [exact Ag|]. split; [exact Shg|]. split; [|now right].
    intro O. destruct aims; [|now apply known_space]. apply known_all. intros c Lc. apply Og; [reflexivity|exact O|]. destruct Lg as (_ & Ng & _). lia.
Qed.
End Tail.
Lemma other_total spl lin ip other fields pol axes pre nd W V result i s r key a f : linear_spline spl -> (0 < nd)%nat -> ip <> ILinear -> (forall a, (a < nd)%nat -> proper (W a)) ->
  nth_error s result = Some r -> field_key other ((pol + i) mod 3) = Some key -> dget fields key = Some a -> nth_error s a = Some f -> lives_on f nd V -> compatible ip nd W V -> (ip = IFourier -> origins_known f) ->
  exists s', other_field spl lin ip other fields pol (a_shape (rf_data f)) axes pre (map (fun a => u_x0 (W a)) (seq 0 nd)) (map (fun a => INR (u_n (W a) - 1) * u_dx (W a)) (seq 0 nd)) (map (fun a => u_dx (W a)) (seq 0 nd)) result i s = (s', Ok tt).
Proof.
  intros Sp Pn Ip PW Hr Hk Ha Hf Lf0 Co Or. destruct ((pol - i) mod 3 <? Z.of_nat (length axes))%Z eqn:Lm; [|unfold other_field; rewrite Lm; eexists; reflexivity].
  destruct (other_checked spl lin ip pol (a_shape (rf_data f)) axes pre (map (fun a => u_x0 (W a)) (seq 0 nd)) (map (fun a => INR (u_n (W a) - 1) * u_dx (W a)) (seq 0 nd)) (map (fun a => u_dx (W a)) (seq 0 nd)) result i nd V other fields key a f s Sp Pn Lf0 Lm Hk Ha Hf)
    as (s1 & b & g & st & -> & H1 & Lb & Old & Lf & A & Shg & Kn & _).
  assert (Lr : (result < b)%nat) by (assert (result < length s)%nat by (apply nth_error_Some; congruence); lia). assert (Ls1 : (b < length s1)%nat) by (apply nth_error_Some; congruence).
  assert (Hr1 : nth_error s1 result = Some r) by (rewrite Old; [exact Hr|apply nth_error_Some; congruence]).
  assert (Or' : ip = IFourier -> origins_known g) by auto. rewrite <- Shg. clear Or Kn Shg Old Hr Hf Lf0 a Ha s Lb. rename g into f0. clear f. rename f0 into f. rename Or' into Or.
  assert (Wf := lives_wf f nd V Pn Lf). destruct (ensure_lives spl f nd V Sp Pn Lf) as (G & EG & LG & AG & ShG & TG).
  destruct (lives_whole st f nd V Lf A) as (C & Nd & U & Gd & HV). assert (Ug : on_grid f (seq 0 (ndim f)) U) by now rewrite Nd.
  assert (Rs : rstate (rf_ats f) (all_dims f) = Ok (Some st)) by (rewrite (all_dims_grid f U Ug); apply rstate_nat; [rewrite Nd; destruct nd; [lia|discriminate]|exact A]).
  unfold checked, load, alloc. unfold sbind at 1. rewrite H1. unfold sbind at 1, lift at 1. rewrite Rs.
  assert (Gs : (match st with true => spatial_grids f | false => Ok (map ra_grid (rf_axes f)) end) = Ok (map (fun a => grid_of (V a)) (seq 0 nd))).
  { destruct st; [now apply lives_grids|]. f_equal. apply nth_error_eq. intro c. rewrite !nth_error_map'. destruct (Nat.lt_ge_cases c nd) as [L|L].
    - destruct (Gd c) as (ax & Ea & (Eg & _) & _); [apply in_seq; lia|]. rewrite Ea. rewrite (nth_error_nth' _ 0%nat) by (rewrite seq_length; lia). rewrite seq_nth by lia. cbn [option_map plus]. now rewrite Eg, HV.
    - rewrite !(proj2 (nth_error_None _ _)); [reflexivity|rewrite seq_length; lia|rewrite (c_axes f C); lia]. }
  assert (PV : forall a, (a < nd)%nat -> proper (V a)) by (intros c L; apply (lives_proper f nd V Lf c L)). destruct (grids_data nd V PV) as (D1 & D2 & _). cbv zeta in D1, D2.
  unfold sbind at 1, lift at 1. replace (match st with true => spatial_grids f | false => Ok (map ra_grid (rf_axes f)) end) with (Ok (map (fun a => grid_of (V a)) (seq 0 nd))) by (symmetry; exact Gs).
  unfold sbind at 1, lift at 1. rewrite D1. unfold sbind at 1, lift at 1. rewrite D2.
  destruct (list_eq_dec Z.eq_dec (a_shape (rf_data f)) (a_shape (rf_data f))) as [_|N]; [|congruence]. cbn [negb].
  rewrite all_close_map by (intros c I; apply in_seq in I; destruct (Co c) as (-> & -> & _); [lia|reflexivity]). cbn [negb].
  cbv zeta. set (shift := combine (zrange _) _). assert (Es : shift = map (fun c => (Z.of_nat c, u_x0 (W c) - u_x0 (V c))) (seq 0 nd)).
  { unfold shift. rewrite map_length, seq_length, map2_map. unfold zrange. rewrite Nat2Z.id. now rewrite combine_map. }
  clearbody shift. subst shift.
  assert (Gd2 : match ip with INone => all_close (map (fun a => u_x0 (W a)) (seq 0 nd)) (map (fun a => u_x0 (V a)) (seq 0 nd))
          | _ => forallb (fun p : Z * R * R => Rltb (Rabs (snd (fst p))) (2 * snd p)) (combine (map (fun c => (Z.of_nat c, u_x0 (W c) - u_x0 (V c))) (seq 0 nd)) (map (fun a => u_dx (W a)) (seq 0 nd))) end = true).
  { destruct ip; [|congruence|].
    - apply all_close_map. intros c I. apply in_seq in I. destruct (Co c) as (_ & _ & E); [lia|]. now rewrite E.
    - rewrite combine_map. apply forallb_map_true. intros c I. apply in_seq in I. destruct (Co c) as (_ & _ & E); [lia|]. now apply Rltb_true. }
  rewrite Gd2. cbn [negb].
  replace (match ip with ILinear => _ | _ => sret b end) with (@sret nat b) by (destruct ip; [reflexivity|congruence|reflexivity]).
  unfold sbind at 1, sret at 1. destruct (ensure_at_ok spl true b f s1 Sp Wf H1) as (s2 & b2 & E2). destruct (ensure_at_value spl true b f s1 s2 b2 H1 E2) as (G' & EG' & H2 & Cs). rewrite EG in EG'. injection EG' as <-.
  unfold sbind at 1. rewrite E2. assert (Hr2 : nth_error s2 result = Some r) by (destruct Cs as [(-> & _)|(-> & _)]; [exact Hr1|rewrite nth_app_old by lia; exact Hr1]).
  assert (Nr : result <> b2) by (destruct Cs as [(_ & -> & _)|(_ & ->)]; lia). assert (Lb2 : (b2 < length s2)%nat) by (apply nth_error_Some; congruence). clear Cs.
  destruct ip; [|congruence|].
  - unfold sbind at 1, sret at 1. unfold sbind at 1. rewrite H2. unfold sbind at 1. rewrite Hr2. eexists. reflexivity.
  - specialize (TG (Or eq_refl)). assert (TG' : exists x : nat -> R, forall c, In c (seq 0 nd) -> nth_error (rf_tao G) c = Some (Some (x c))).
    { exists (fun c => match nth_error (rf_tao G) c with Some (Some x) => x | _ => 0 end). intros c I. apply in_seq in I. destruct (TG c) as [x E]; [lia|]. now rewrite E. }
    destruct TG' as (x & Hx). destruct (move_ok (fun c => u_x0 (W c) - u_x0 (V c)) (seq 0 nd) (rf_tao G) x (seq_NoDup _ _) Hx) as (tao & Em & _).
    unfold sbind at 1. unfold sbind at 1. rewrite H2. unfold sbind at 1, lift at 1. rewrite Em. unfold assign at 1. unfold sbind at 1.
    rewrite nth_error_upd, Nat.eqb_refl. destruct (Nat.ltb_spec b2 (length s2)); [|lia]. unfold sbind at 1. rewrite nth_error_upd. destruct (Nat.eqb_spec result b2); [congruence|]. rewrite Hr2. eexists. reflexivity.
Qed.
Lemma needed_third el p nd i : (p < 3)%nat -> (i = 1 \/ i = 2)%nat -> (turn3 p (3 - i) < nd)%nat -> In (comp (negb el) (turn3 p i)) (tl (needed el p nd)).
Proof.
  intros Hp Hi L. unfold needed. cbn [tl]. apply in_map_iff. exists (turn3 p (3 - i)). split.
  - f_equal. destruct p as [|[|[|]]]; try lia; destruct Hi as [-> | ->]; reflexivity.
  - apply filter_In. split; [apply in_seq; lia|]. destruct p as [|[|[|]]]; try lia; destruct Hi as [-> | ->]; reflexivity.
Qed.
Lemma kspace_unfold spl lin omega ip (el : bool) p fields s : (p < 3)%nat ->
  kspace spl lin None omega ip (comp el p) fields s =
  (let turns (a : nat) (f : rfield) (origin Dx dx : list R) : ST nat := st! _ := other_field spl lin ip (if negb el then "E" else "B")%char fields (Z.of_nat p) (a_shape (rf_data f)) (rf_axes f) (prefactor el omega (rf_axes f)) origin Dx dx a 1 in
                 st! _ := other_field spl lin ip (if negb el then "E" else "B")%char fields (Z.of_nat p) (a_shape (rf_data f)) (rf_axes f) (prefactor el omega (rf_axes f)) origin Dx dx a 2 in sret a in
     match dget fields (comp el p) with None => lift (Err ValueError) | Some a =>
       st! a := ensure_at spl true a in st! f := load a in st! gs := lift (spatial_grids f) in st! origin := lift (firsts gs) in st! Dx := lift (lengths gs) in st! dx := lift (spacings gs) in turns a f origin Dx dx end) s.
Proof.
  intro Hp. destruct (axis_comp p Hp) as (ax & CE & CB & Ax). assert (Kp : field_key (if el then "E" else "B")%char (Z.of_nat p) = Some (comp el p)) by now apply key_comp.
  destruct el; [rewrite CE in *|rewrite CB in *]; unfold kspace, cut_fields, sbind, sret, lift; rewrite Ax; change (Ascii.eqb "E" "E") with true; change (Ascii.eqb "B" "E") with false; cbv iota beta; rewrite Kp; reflexivity.
Qed.
Lemma turn_total spl lin ip (el : bool) p nd W fields axes pre result r i s : linear_spline spl -> (0 < nd)%nat -> ip <> ILinear -> (p < 3)%nat -> (i = 1 \/ i = 2)%nat -> length axes = nd -> nth_error s result = Some r -> lives_on r nd W ->
  (forall key, In key (tl (needed el p nd)) -> exists a f V, dget fields key = Some a /\ nth_error s a = Some f /\ lives_on f nd V /\ compatible ip nd W V /\ (ip = IFourier -> origins_known f)) ->
  exists s', other_field spl lin ip (if negb el then "E" else "B")%char fields (Z.of_nat p) (a_shape (rf_data r)) axes pre (map (fun a => u_x0 (W a)) (seq 0 nd)) (map (fun a => INR (u_n (W a) - 1) * u_dx (W a)) (seq 0 nd)) (map (fun a => u_dx (W a)) (seq 0 nd)) result (Z.of_nat i) s = (s', Ok tt).
Proof.
  intros Sp Pn Ip Hp Hi La Hr Lr H. destruct (turn_mod p i Hi) as [M1 M2]. destruct (Nat.lt_ge_cases (turn3 p (3 - i)) nd) as [L|L].
  - destruct (H _ (needed_third el p nd i Hp Hi L)) as (a & f & V & Ha & Hf & Lf & Co & Or).
    rewrite <- (lives_shape r f nd W V Lr Lf) by (intros c Lc; apply (Co c Lc)).
    apply other_total with (V := V) (key := comp (negb el) (turn3 p i)) (a := a) (r := r); try assumption; [intros c Lc; apply (lives_proper r nd W Lr c Lc)|rewrite M1; apply key_comp; [apply turn_lt|reflexivity]].
  - unfold other_field. rewrite M2. destruct (Z.ltb_spec (Z.of_nat (turn3 p (3 - i))) (Z.of_nat (length axes))); [lia|]. eexists. reflexivity.
Qed.
Lemma kspace_total spl lin omega ip el p nd W fields s : linear_spline spl -> ip <> ILinear -> (p < 3)%nat -> (0 < nd)%nat -> distinct fields s -> given ip el p nd W fields s ->
  exists s' a', kspace spl lin None omega ip (comp el p) fields s = (s', Ok a').
Proof.
  intros Sp Ip Hp Pn [Di Ex] ((a & f & Ha & Hf & Lf) & H). rewrite kspace_unfold by exact Hp. cbv zeta. rewrite Ha.
  assert (Wf := lives_wf f nd W Pn Lf). destruct (ensure_lives spl f nd W Sp Pn Lf) as (F & EF & LF & AF & ShF & _). destruct (ensure_at_ok spl true a f s Sp Wf Hf) as (s1 & a1 & E1). destruct (ensure_at_value spl true a f s s1 a1 Hf E1) as (F' & EF' & H1 & Cs). rewrite EF in EF'. injection EF' as <-.
  destruct (tame_ensure (length s) (fun _ => False) spl true a _ _ _ (le_n _) E1) as (Len1 & Fr1 & _).
  assert (Far : forall key b, In key (tl (needed el p nd)) -> dget fields key = Some b -> (b < length s)%nat /\ b <> a1).
  { intros key b Hk Hb. assert (Lb := Ex _ _ Hb). split; [exact Lb|]. intro. subst b. destruct Cs as [(_ & -> & _)|(_ & ->)]; [|lia].
    specialize (Di _ _ _ Ha Hb). subst key. unfold needed in Hk. cbn [tl] in Hk. apply in_map_iff in Hk as (d & D & _). destruct el, p as [|[|[|]]], (3 - _ - d)%nat as [|[|?]]; discriminate D. }
  unfold sbind at 1. rewrite E1. unfold sbind at 1, load at 1. rewrite H1.
  assert (PW : forall a, (a < nd)%nat -> proper (W a)) by (intros c L; apply (lives_proper f nd W Lf c L)). destruct (grids_data nd W PW) as (D1 & D2 & D3). cbv zeta in D1, D2, D3.
  do 4 (unfold sbind at 1, lift at 1). rewrite (lives_grids F nd W Pn LF AF), D1, D2, D3.
  assert (L1 : (a1 < length s1)%nat) by (apply nth_error_Some; congruence). assert (LaF : length (rf_axes F) = nd) by (destruct LF as (CF & NF & _); rewrite (c_axes F CF); exact NF).
  destruct (turn_total spl lin ip el p nd W fields (rf_axes F) (prefactor el omega (rf_axes F)) a1 F 1 s1 Sp Pn Ip Hp (or_introl eq_refl) LaF H1 LF) as (s2 & T1).
  { intros key Hk. destruct (H key Hk) as (b & g & V & Hb & Hg & R). exists b, g, V. split; [exact Hb|]. split; [|exact R]. destruct (Far key b Hk Hb). rewrite Fr1; auto. }
  change (Z.of_nat 1) with 1%Z in T1. unfold sbind at 1. rewrite T1.
  destruct (tame_other (length s1) (fun a => a = a1) spl lin ip _ fields _ _ _ _ _ _ _ a1 _ (or_intror eq_refl) _ _ _ (le_n _) T1) as (Len2 & Fr2 & _).
  assert (Wfo : forall b g, dget fields (comp (negb el) (turn3 p 1)) = Some b -> nth_error s1 b = Some g -> (turn3 p 2 < nd)%nat -> wellformed g).
  { intros b g Hb Hg L. assert (Hk := needed_third el p nd 1 Hp (or_introl eq_refl) L). destruct (H _ Hk) as (b' & g' & V & Hb' & Hg' & Lg & _). destruct (Far _ _ Hk Hb). rewrite Hb in Hb'. injection Hb' as <-. rewrite Fr1 in Hg by auto. rewrite Hg' in Hg. injection Hg as <-. exact (lives_wf _ _ _ Pn Lg). }
  assert (H2 : exists r, nth_error s2 a1 = Some r /\ lives_on r nd W /\ a_shape (rf_data r) = a_shape (rf_data F)).
  { destruct (Nat.lt_ge_cases (turn3 p 2) nd) as [L|L].
    - apply (turn_value spl lin ip el fields p _ _ _ _ _ _ a1 1) in T1; [|exact Sp|exact Ip|exact L1|now left|intros b g Hb Hg; exact (Wfo b g Hb Hg L)].
      destruct T1 as (r0 & r & R0 & R & X1 & X2 & X3 & X4 & _). rewrite H1 in R0. injection R0 as <-. exists r. split; [exact R|]. split; [|exact X4].
      destruct LF as ([A1 A2 A3 A4] & NF & B & U & G & HW). assert (Nr : ndim r = ndim F) by (unfold ndim; now rewrite X4).
      split; [split; rewrite ?Nr, ?X1, ?X2, ?X3; assumption|]. split; [congruence|]. exists B, U. split; [intros c Ic; destruct (G c Ic) as (ax & Q1 & Q2 & Q3); exists ax; rewrite X1, X4; auto|]. intros c Lc. rewrite X2, X3. now apply HW.
    - unfold other_field in T1. destruct (turn_mod p 1 (or_introl eq_refl)) as [_ M2]. change (Z.of_nat 1) with 1%Z in M2. rewrite M2 in T1. change (3 - 1)%nat with 2%nat in T1. destruct (Z.ltb_spec (Z.of_nat (turn3 p 2)) (Z.of_nat (length (rf_axes F)))); [lia|]. injection T1 as <-. exists F. auto. }
  destruct H2 as (r & H2 & Lr & Shr). rewrite <- Shr.
  destruct (turn_total spl lin ip el p nd W fields (rf_axes F) (prefactor el omega (rf_axes F)) a1 r 2 s2 Sp Pn Ip Hp (or_intror eq_refl) LaF H2 Lr) as (s3 & T2).
  { intros key Hk. destruct (H key Hk) as (b & g & V & Hb & Hg & R). exists b, g, V. split; [exact Hb|]. split; [|exact R]. destruct (Far key b Hk Hb). rewrite Fr2, Fr1; auto; lia. }
  change (Z.of_nat 2) with 2%Z in T2. unfold sbind at 1. rewrite T2. do 2 eexists. reflexivity.
Qed.
