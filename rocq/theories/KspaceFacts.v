(** What kspace computes. *)
From Coq Require Import Reals String Ascii List ZArith Lia Lra Bool Ring.
From Verif Require Import PyBase PyBaseFacts NumpyModel NdModel NdFacts FieldModel CplxModel CplxFacts FftModel FftSpec FftAxes FftKernel FftFacts FftLaws FftMore KspaceModel KspaceSpec KspaceFrame.
Import ListNotations.
Local Open Scope R_scope.

Lemma sbind_ok {A B} (m : ST A) (k : A -> ST B) s s' x : sbind m k s = (s', Ok x) -> exists s1 y, m s = (s1, Ok y) /\ k y s1 = (s', Ok x).
Proof. unfold sbind. destruct (m s) as [s1 [y|e]]; [|discriminate]. intro H. exists s1, y. split; [reflexivity|exact H]. Qed.
Lemma lift_ok {A} (r : res A) s s' x : lift r s = (s', Ok x) -> s' = s /\ r = Ok x.
Proof. unfold lift. intros [= -> ->]. split; reflexivity. Qed.
Lemma load_ok a s s' f : load a s = (s', Ok f) -> s' = s /\ nth_error s a = Some f.
Proof. unfold load. destruct (nth_error s a); [|discriminate]. intros [= -> ->]. split; reflexivity. Qed.
Lemma sret_ok {A} (x y : A) s s' : sret x s = (s', Ok y) -> s' = s /\ y = x.
Proof. unfold sret. intros [= -> ->]. split; reflexivity. Qed.
Lemma alloc_ok f s s' a : alloc f s = (s', Ok a) -> s' = s ++ [f] /\ a = length s.
Proof. unfold alloc. intros [= <- <-]. split; reflexivity. Qed.
Lemma mapM_map {A B D} (f : B -> res D) (g : A -> B) l : mapM f (map g l) = mapM (fun x => f (g x)) l.
Proof. induction l as [|x l IH]; cbn; [reflexivity|]. now rewrite IH. Qed.
Lemma in_domain_ensure spl f b : in_domain f b = Ok true -> ensure_domain spl f b = Ok f.
Proof.
  unfold in_domain, ensure_domain, ensure_states. rewrite mapM_map. cbn [fst snd].
  destruct (mapM _ (all_dims f)) as [todo|]; cbn [bind]; [|discriminate]. destruct (filter snd todo); [reflexivity|discriminate].
Qed.
Lemma ensure_at_value spl b a f s s' a' : nth_error s a = Some f -> ensure_at spl b a s = (s', Ok a') ->
  exists G, ensure_domain spl f b = Ok G /\ nth_error s' a' = Some G /\ ((s' = s /\ a' = a /\ G = f /\ in_domain f b = Ok true) \/ (s' = s ++ [G] /\ a' = length s)).
Proof.
  intros Hf E. unfold ensure_at in E. apply sbind_ok in E as (s1 & f1 & E1 & E). apply load_ok in E1 as [-> E1]. rewrite Hf in E1. injection E1 as <-.
  apply sbind_ok in E as (s1 & ok & E1 & E). apply lift_ok in E1 as [-> E1]. destruct ok.
  - apply sret_ok in E as [-> ->]. exists f. split; [now apply in_domain_ensure|]. split; [exact Hf|]. left. auto.
  - apply sbind_ok in E as (s1 & G & E2 & E). apply lift_ok in E2 as [-> E2]. apply alloc_ok in E as [-> ->]. exists G. split; [exact E2|]. split; [now rewrite nth_error_app2, Nat.sub_diag by lia|]. right. split; reflexivity.
Qed.
(** ensure on fields with uniform grids *)
Lemma ensure_wf spl f b : linear_spline spl -> wellformed f ->
  exists G, ensure_domain spl f b = Ok G /\ wellformed G /\ all_in b G /\ a_shape (rf_data G) = a_shape (rf_data f) /\ ensure_domain spl G b = Ok G /\ (all_in b f -> G = f).
Proof.
  intros Sp (Cf & (U & Ug) & P & Hb). destruct (ensure_ok spl f b U Sp Cf Ug Hb) as (G & E & Ats & E2 & Id). exists G. split; [exact E|].
  assert (Hall : a_shape (rf_data G) = a_shape (rf_data f) /\ consistent G /\ exists V, on_grid G (seq 0 (ndim f)) V).
  { rewrite (ensure_unfold spl f b U Cf Ug) in E. destruct (wrong f b) as [|w l] eqn:Ew; [injection E as <-; split; [reflexivity|]; split; [exact Cf|exists U; exact Ug]|]. rewrite <- Ew in E.
    assert (Sub : forall a, In a (wrong f b) -> In a (seq 0 (ndim f))) by (intros a I; apply wrong_In in I; apply in_seq; lia). assert (UgW := on_grid_sub f _ _ U Sub Ug).
    destruct (fft_named spl false false f (map Z.of_nat (wrong f b)) (wrong f b) U (negb b) Sp Cf) as (G' & EG & T); [congruence|exact UgW| |intro; apply iff_refl|].
    { intros a I. apply wrong_In in I as [L Sf]. destruct (Hb a L) as [s Es]. rewrite Es. rewrite (nth_error_nth _ _ None Es) in Sf. destruct s, b; try reflexivity; discriminate. }
    rewrite EG in E. injection E as ->. split; [apply (t_shape _ _ _ _ _ _ _ T)|]. split; [exact (T_consistent f G _ U (negb b) false false Cf T)|].
    exists (fun a => if is_named (wrong f b) a then VV f U a else U a). intros a I. assert (L : (a < ndim f)%nat) by (apply in_seq in I; lia). destruct (is_named (wrong f b) a) eqn:En.
    - apply (T_grid f G (named (ndim f) (wrong f b)) U (negb b) false false); [|exact T|apply named_In; split; [now apply is_named_In|exact L]]. apply (on_grid_sub f (wrong f b)); [intro c; rewrite named_In; tauto|exact UgW].
    - destruct (Ug a I) as (ax & X1 & X2 & X3). exists ax. rewrite (t_axes _ _ _ _ _ _ _ T), named_is, En by exact L. split; [exact X1|]. split; [exact X2|]. now rewrite (t_shape _ _ _ _ _ _ _ T). }
  destruct Hall as (Sh & CG & V & GV). assert (Nd : ndim G = ndim f) by (unfold ndim; now rewrite Sh).
  split; [split; [exact CG|]; rewrite Nd; split; [exists V; exact GV|]; split; [exact P|]; intros a L; exists b; now apply Ats|].
  split; [intros a I; apply in_seq in I; apply Ats; lia|]. split; [exact Sh|]. split; [exact E2|exact Id].
Qed.
Lemma in_domain_wf f b : wellformed f -> (in_domain f b = Ok true <-> all_in b f).
Proof.
  intros (Cf & (U & Ug) & P & Hb). unfold in_domain. rewrite (all_dims_grid f U Ug).
  assert (G : forall l, (forall a, In a l -> (a < ndim f)%nat) -> exists todo, mapM (fun i => rmap (fun s => (i, negb (state_is b s))) (getidx (rf_ats f) i)) (map Z.of_nat l) = Ok todo /\ (filter snd todo = [] <-> forall a, In a l -> nth_error (rf_ats f) a = Some (Some b))).
  { induction l as [|a l IH]; intro L; [exists []; split; [reflexivity|]; split; [contradiction|reflexivity]|]. destruct IH as (todo & Em & Ef); [intros; apply L; now right|]. destruct (Hb a (L a (or_introl eq_refl))) as [s Es].
    cbn [map mapM]. rewrite (getidx_nat _ _ _ Es). cbn [rmap bind]. rewrite Em. cbn [bind]. eexists. split; [reflexivity|]. cbn [filter snd state_is]. destruct (Bool.eqb b s) eqn:Eb.
    - apply eqb_prop in Eb. subst s. cbn [negb]. rewrite Ef. split; [intros H x [<-|I]; [exact Es|now apply H]|intros H x I; apply H; now right].
    - cbn [negb]. split; [discriminate|]. intro H. specialize (H a (or_introl eq_refl)). rewrite Es in H. injection H as ->. destruct b; discriminate. }
  destruct (G (seq 0 (ndim f))) as (todo & Em & Ef); [intros a I; apply in_seq in I; lia|]. rewrite Em. cbn [bind]. unfold all_in, in_state. rewrite <- Ef. destruct (filter snd todo); split; try reflexivity; discriminate.
Qed.
(** * One component of the other field *)
Definition pure_turn (r : rfield) (pre : list Z -> R) (axes : list raxis) (sign : R) (m : Z) (v : list Z -> C) : rfield :=
  with_data r (mkarr (a_shape (rf_data r)) (fun idx => Cadd (a_at (rf_data r) idx) (Cmul (RtoC (sign * pre idx * mesh axes m idx)) (v idx)))).
Lemma nth_app_old {A} (s : list A) l a : (a < length s)%nat -> nth_error (s ++ l) a = nth_error s a.
Proof. intro H. now rewrite nth_error_app1. Qed.
Lemma other_value spl lin ip other fields pol sh axes pre origin Dx dx result i s s' : linear_spline spl -> ip <> ILinear -> (result < length s)%nat ->
  (forall k a f, field_key other ((pol + i) mod 3) = Some k -> dget fields k = Some a -> nth_error s a = Some f -> wellformed f) ->
  other_field spl lin ip other fields pol sh axes pre origin Dx dx result i s = (s', Ok tt) ->
  exists r, nth_error s result = Some r /\
    if ((pol - i) mod 3 <? Z.of_nat (length axes))%Z
    then exists key a, field_key other ((pol + i) mod 3) = Some key /\ dget fields key = Some a /\ (exists f, nth_error s a = Some f) /\
         nth_error s' result = Some (pure_turn r pre axes (if (i =? 1)%Z then 1 else -1) ((pol - i) mod 3) (fun idx => spectrum spl s fields key idx)) /\
         forall b, (b < length s)%nat -> b <> result -> nth_error s' b = nth_error s b
    else s' = s.
Proof.
  intros Sp Ip Lr Wf E. destruct (nth_error s result) as [r|] eqn:Hr; [|apply nth_error_None in Hr; lia]. exists r. split; [reflexivity|].
  assert (Fr : forall b, (b < length s)%nat -> b <> result -> nth_error s' b = nth_error s b).
  { intros b Lb Nb. destruct (tame_other (length s) (fun a => a = result) spl lin ip other fields pol sh axes pre origin Dx dx result i (or_intror eq_refl) _ _ _ (le_n _) E) as (_ & F & _). now apply F. }
  unfold other_field in E. destruct ((pol - i) mod 3 <? Z.of_nat (length axes))%Z; [|now apply sret_ok in E as [-> _]].
  destruct (field_key other ((pol + i) mod 3)) as [key|] eqn:Hk; [|apply lift_ok in E as [_ E]; discriminate E]. destruct (dget fields key) as [a|] eqn:Ha; [|apply lift_ok in E as [_ E]; discriminate E].
  exists key, a. split; [reflexivity|]. split; [exact Ha|]. split; [|split; [|exact Fr]].
  { unfold deepcopy in E. apply sbind_ok in E as (s1 & b1 & E1 & _). apply sbind_ok in E1 as (s2 & f & E1 & _). apply load_ok in E1 as [_ E1]. exists f. exact E1. }
  clear Fr. apply sbind_ok in E as (s1 & b1 & E1 & E). unfold deepcopy in E1. apply sbind_ok in E1 as (s2 & f & E1 & E2). apply load_ok in E1 as [-> Hf]. apply alloc_ok in E2 as [-> ->].
  assert (Hs1 : forall b, (b < length s)%nat -> nth_error (s ++ [f]) b = nth_error s b) by (intros; now apply nth_app_old).
  assert (Hb1 : nth_error (s ++ [f]) (length s) = Some f) by now rewrite nth_error_app2, Nat.sub_diag by lia. assert (Ls1 : (length s < length (s ++ [f]))%nat) by (rewrite app_length; cbn; lia).
  destruct (ensure_wf spl f true Sp (Wf key a f eq_refl Ha Hf)) as (G & EG & WG & AG & ShG & EG2 & _).
  unfold spectrum. assert (Sp2 : forall idx, spectrum spl s fields key idx = a_at (rf_data G) idx) by (intro idx; unfold spectrum; now rewrite Ha, Hf, EG).
  revert E Hs1 Hb1 Ls1. generalize (s ++ [f]) as s1. intros s1 E Hs1 Hb1 Ls1.
  apply sbind_ok in E as (s2 & f' & E1 & E). apply load_ok in E1 as [-> E1]. rewrite Hb1 in E1. injection E1 as <-.
  apply sbind_ok in E as (s2 & st & E1 & E). apply lift_ok in E1 as [-> _].
  (* the copy g that is worked on becomes G when transformed *)
  apply sbind_ok in E as (s2 & b2 & E1 & E).
  assert (H2 : exists g, nth_error s2 b2 = Some g /\ ensure_domain spl g true = Ok G /\ (length s <= b2)%nat /\ (b2 < length s2)%nat /\ forall b, (b < length s)%nat -> nth_error s2 b = nth_error s b).
  { assert (Hn : st = None -> ensure_at spl true (length s) s1 = (s2, Ok b2)) by (intros ->; destruct ip; [exact E1|congruence|exact E1]). destruct st as [st|].
    - apply sret_ok in E1 as [-> ->]. exists f. auto.
    - specialize (Hn eq_refl). destruct (ensure_at_value spl true _ f _ _ _ Hb1 Hn) as (G' & EG' & N2 & Cs). rewrite EG in EG'. injection EG' as <-. exists G. split; [exact N2|]. split; [exact EG2|].
      destruct Cs as [(-> & -> & _)|(-> & ->)]; [split; [lia|]; split; [exact Ls1|exact Hs1]|]. split; [lia|]. split; [rewrite app_length; cbn; lia|]. intros b Lb. rewrite nth_app_old by lia. now apply Hs1. }
  destruct H2 as (g & Hg & EgG & Lb2 & Lb2' & Hs2). clear E1.
  apply sbind_ok in E as (s3 & g' & E1 & E). apply load_ok in E1 as [-> E1]. rewrite Hg in E1. injection E1 as <-.
  apply sbind_ok in E as (s3 & st2 & E1 & E). apply lift_ok in E1 as [-> _]. apply sbind_ok in E as (s3 & gs & E1 & E). apply lift_ok in E1 as [-> _].
  apply sbind_ok in E as (s3 & fo & E1 & E). apply lift_ok in E1 as [-> _]. apply sbind_ok in E as (s3 & oDx & E1 & E). apply lift_ok in E1 as [-> _].
  destruct (negb _); [apply lift_ok in E as [_ E]; discriminate E|]. destruct (negb _); [apply lift_ok in E as [_ E]; discriminate E|]. destruct (negb _); [apply lift_ok in E as [_ E]; discriminate E|].
  apply sbind_ok in E as (s3 & b3 & E1 & E). assert (Hn : s3 = s2 /\ b3 = b2) by (destruct ip; [now apply sret_ok in E1|congruence|now apply sret_ok in E1]). destruct Hn as [-> ->]. clear E1.
  apply sbind_ok in E as (s3 & b3 & E1 & E). destruct (ensure_at_value spl true _ g _ _ _ Hg E1) as (G' & EG' & N3 & Cs). rewrite EgG in EG'. injection EG' as <-. clear E1.
  assert (H3 : (length s <= b3)%nat /\ (b3 < length s3)%nat /\ (length s2 <= length s3)%nat /\ forall b, (b < length s)%nat -> nth_error s3 b = nth_error s b).
  { destruct Cs as [(-> & -> & _)|(-> & ->)]; [auto|]. rewrite app_length. cbn. split; [lia|]. split; [lia|]. split; [lia|]. intros b Lb. rewrite nth_app_old by lia. now apply Hs2. }
  destruct H3 as (Lb3 & Lb3' & Ls3 & Hs3). clear Cs.
  apply sbind_ok in E as (s4 & u & E1 & E).
  assert (H4 : exists G4, nth_error s4 b3 = Some G4 /\ rf_data G4 = rf_data G /\ (forall b, (b < length s)%nat -> nth_error s4 b = nth_error s b) /\ length s4 = length s3).
  { destruct ip; [apply sret_ok in E1 as [-> _]; exists G; auto|congruence|].
    apply sbind_ok in E1 as (s5 & G5 & E1 & E2). apply load_ok in E1 as [-> E1]. rewrite N3 in E1. injection E1 as <-. apply sbind_ok in E2 as (s5 & tao & E1 & E2). apply lift_ok in E1 as [-> _].
    injection E2 as <- <-. eexists. split; [rewrite nth_error_upd, Nat.eqb_refl; destruct (Nat.ltb_spec b3 (length s3)); [reflexivity|lia]|]. split; [reflexivity|]. split; [|apply upd_length].
    intros b Lb. rewrite nth_error_upd. destruct (Nat.eqb_spec b b3); [lia|now apply Hs3]. }
  destruct H4 as (G4 & N4 & D4 & Hs4 & L4). clear E1.
  apply sbind_ok in E as (s5 & G5 & E1 & E). apply load_ok in E1 as [-> E1]. rewrite N4 in E1. injection E1 as <-. apply sbind_ok in E as (s5 & r' & E1 & E). apply load_ok in E1 as [-> E1]. rewrite Hs4, Hr in E1 by exact Lr. injection E1 as <-.
  injection E as <-. rewrite nth_error_upd, Nat.eqb_refl. destruct (Nat.ltb_spec result (length s4)); [|lia]. f_equal. unfold pure_turn, with_data. f_equal. f_equal.
  rewrite D4, Ha, Hf, EG. reflexivity.
Qed.

Lemma mesh_wave axes j idx : mesh axes (Z.of_nat j) idx = wave_vector axes idx j.
Proof. unfold mesh, wave_vector. rewrite Nat2Z.id. destruct (nth_error axes j); [reflexivity|]. now destruct (Z.to_nat _). Qed.
Lemma wave_none axes j idx : (length axes <= j)%nat -> wave_vector axes idx j = 0.
Proof. intro H. unfold wave_vector. now rewrite (proj2 (nth_error_None _ _) H). Qed.
Lemma axis_comp p : (p < 3)%nat -> exists ax, comp true p = String "E" (String ax "") /\ comp false p = String "B" (String ax "") /\ axis_letter ax = Ok (Z.of_nat p).
Proof. intro H. destruct p as [|[|[|]]]; [| | |lia]; eexists; repeat split. Qed.
Lemma key_comp (el : bool) i j : (j < 3)%nat -> i = Z.of_nat j -> field_key (if el then "E" else "B")%char i = Some (comp el j).
Proof. intros H ->. destruct el, j as [|[|[|]]]; try reflexivity; lia. Qed.
Lemma comp_inj el p el' p' : (p < 3)%nat -> (p' < 3)%nat -> comp el p = comp el' p' -> el = el' /\ p = p'.
Proof. intros H H'. destruct el, el', p as [|[|[|]]], p' as [|[|[|]]]; try lia; intro E; try discriminate E; split; reflexivity. Qed.
Lemma turn_mod p i : (i = 1 \/ i = 2)%nat -> ((Z.of_nat p + Z.of_nat i) mod 3)%Z = Z.of_nat (turn3 p i) /\ ((Z.of_nat p - Z.of_nat i) mod 3)%Z = Z.of_nat (turn3 p (3 - i)).
Proof.
  intro H. unfold turn3. rewrite !Nat2Z.inj_mod, !Nat2Z.inj_add. split; [reflexivity|]. replace (Z.of_nat (3 - i)) with (3 - Z.of_nat i)%Z by lia.
  replace (Z.of_nat p + (3 - Z.of_nat i))%Z with (Z.of_nat p - Z.of_nat i + 1 * 3)%Z by ring. now rewrite Z.mod_add.
Qed.
Lemma turn_lt p i : (turn3 p i < 3)%nat.
Proof. apply Nat.mod_upper_bound. discriminate. Qed.
Lemma turn_value spl lin ip (el : bool) fields p sh axes pre origin Dx dx result i s s' : linear_spline spl -> ip <> ILinear -> (result < length s)%nat -> (i = 1 \/ i = 2)%nat ->
  (forall a f, dget fields (comp (negb el) (turn3 p i)) = Some a -> nth_error s a = Some f -> wellformed f) ->
  other_field spl lin ip (if negb el then "E" else "B")%char fields (Z.of_nat p) sh axes pre origin Dx dx result (Z.of_nat i) s = (s', Ok tt) ->
  exists r r', nth_error s result = Some r /\ nth_error s' result = Some r' /\ rf_axes r' = rf_axes r /\ rf_ats r' = rf_ats r /\ rf_tao r' = rf_tao r /\ a_shape (rf_data r') = a_shape (rf_data r) /\
    (forall idx, a_at (rf_data r') idx = Cadd (a_at (rf_data r) idx) (Cmul (RtoC ((if (i =? 1)%nat then 1 else -1) * pre idx * wave_vector axes idx (turn3 p (3 - i)))) (spectrum spl s fields (comp (negb el) (turn3 p i)) idx))) /\
    (length s <= length s')%nat /\ (forall b, (b < length s)%nat -> b <> result -> nth_error s' b = nth_error s b) /\
    ((turn3 p (3 - i) < length axes)%nat -> exists a, dget fields (comp (negb el) (turn3 p i)) = Some a).
Proof.
  intros Sp Ip Lr Hi Wf E. destruct (turn_mod p i Hi) as [M1 M2].
  assert (Len : (length s <= length s')%nat) by exact (proj1 (tame_other (length s) (fun a => a = result) spl lin ip _ fields _ sh axes pre origin Dx dx result _ (or_intror eq_refl) _ _ _ (le_n _) E)).
  assert (K := key_comp (negb el) _ (turn3 p i) (turn_lt p i) eq_refl). apply other_value in E; [|exact Sp|exact Ip|exact Lr|]; [|intros k a f Hk; rewrite M1, K in Hk; injection Hk as <-; apply Wf].
  destruct E as (r & Hr & E). rewrite M1, M2, K in E. destruct (Z.ltb_spec (Z.of_nat (turn3 p (3 - i))) (Z.of_nat (length axes))).
  - destruct E as (key & a & [= <-] & Ha & _ & Er & Fr). exists r. eexists. split; [exact Hr|]. split; [exact Er|]. do 4 (split; [reflexivity|]). split; [|split; [exact Len|split; [exact Fr|intros _; exists a; exact Ha]]].
    intro idx. cbn [pure_turn with_data rf_data a_at]. rewrite mesh_wave. replace (Z.of_nat i =? 1)%Z with (i =? 1)%nat by (destruct Hi as [-> | ->]; reflexivity). reflexivity.
  - subst s'. exists r, r. split; [exact Hr|]. split; [exact Hr|]. do 4 (split; [reflexivity|]). split; [|split; [lia|split; [reflexivity|lia]]]. intro idx. rewrite wave_none by lia. rewrite Rmult_0_r. change (RtoC 0) with C0. ring.
Qed.
Lemma spectrum_same spl s s' fields key : (forall a, dget fields key = Some a -> nth_error s' a = nth_error s a) -> forall idx, spectrum spl s' fields key idx = spectrum spl s fields key idx.
Proof. intros H idx. unfold spectrum. destruct (dget fields key) as [a|]; [|reflexivity]. now rewrite H. Qed.
Lemma kspace_value spl lin omega ip el p fields s s' a' : linear_spline spl -> ip <> ILinear -> (p < 3)%nat -> distinct fields s -> all_wellformed fields s ->
  kspace spl lin None omega ip (comp el p) fields s = (s', Ok a') ->
  exists a f F r, dget fields (comp el p) = Some a /\ nth_error s a = Some f /\ ensure_domain spl f true = Ok F /\ nth_error s' a' = Some r /\
    rf_axes r = rf_axes F /\ rf_ats r = rf_ats F /\ rf_tao r = rf_tao F /\ a_shape (rf_data r) = a_shape (rf_data F) /\
    (forall idx, a_at (rf_data r) idx = Csub (a_at (rf_data F) idx) (Cmul (RtoC (prefactor el omega (rf_axes F) idx)) (cross (wave_vector (rf_axes F) idx) (fun i => spectrum spl s fields (comp (negb el) i) idx) p))) /\
    (forall i, (i = 1 \/ i = 2)%nat -> (turn3 p (3 - i) < length (rf_axes F))%nat -> exists b, dget fields (comp (negb el) (turn3 p i)) = Some b) /\
    ((in_domain f true = Ok true /\ a' = a) \/ (length s <= a')%nat).
Proof.
  intros Sp Ip Hp [Di Ex] Wf E. destruct (axis_comp p Hp) as (ax & CE & CB & Ax).
  assert (Kp : field_key (if el then "E" else "B")%char (Z.of_nat p) = Some (comp el p)) by now apply key_comp.
  assert (E' : (let turns (a : nat) (f : rfield) (origin Dx dx : list R) : ST nat := st! _ := other_field spl lin ip (if negb el then "E" else "B")%char fields (Z.of_nat p) (a_shape (rf_data f)) (rf_axes f) (prefactor el omega (rf_axes f)) origin Dx dx a 1 in
                 st! _ := other_field spl lin ip (if negb el then "E" else "B")%char fields (Z.of_nat p) (a_shape (rf_data f)) (rf_axes f) (prefactor el omega (rf_axes f)) origin Dx dx a 2 in sret a in
     match dget fields (comp el p) with None => lift (Err ValueError) | Some a =>
       st! a := ensure_at spl true a in st! f := load a in st! gs := lift (spatial_grids f) in st! origin := lift (firsts gs) in st! Dx := lift (lengths gs) in st! dx := lift (spacings gs) in turns a f origin Dx dx end) s = (s', Ok a')).
  { rewrite <- E. destruct el; [rewrite CE in *|rewrite CB in *]; unfold kspace, cut_fields, sbind, sret, lift; rewrite Ax; change (Ascii.eqb "E" "E") with true; change (Ascii.eqb "B" "E") with false; cbv iota beta; rewrite Kp; reflexivity. }
  clear E. cbv zeta in E'. rename E' into E. destruct (dget fields (comp el p)) as [a|] eqn:Ha; [|apply lift_ok in E as [_ E]; discriminate E]. assert (La := Ex _ _ Ha).
  destruct (nth_error s a) as [f|] eqn:Hf; [|apply nth_error_None in Hf; lia].
  apply sbind_ok in E as (s1 & a1 & E1 & E). assert (T1 := tame_ensure (length s) (fun _ => False) spl true a _ _ _ (le_n _) E1). destruct T1 as (Len1 & Fr1 & _).
  destruct (ensure_at_value spl true a f _ _ _ Hf E1) as (F & EF & HF & Cs). exists a, f, F.
  assert (L1 : (a1 < length s1)%nat) by (apply nth_error_Some; congruence).
  assert (Far : forall i b, (i = 1 \/ i = 2)%nat -> dget fields (comp (negb el) (turn3 p i)) = Some b -> (b < length s)%nat /\ b <> a1).
  { intros i b Hi Hb. assert (Lb := Ex _ _ Hb). split; [exact Lb|]. intro. subst b. destruct Cs as [(_ & -> & _)|(_ & ->)]; [|lia].
    specialize (Di _ _ _ Ha Hb). apply comp_inj in Di as [D _]; [destruct el; discriminate D|exact Hp|apply turn_lt]. }
  apply sbind_ok in E as (s2 & f' & E2 & E). apply load_ok in E2 as [-> E2]. rewrite HF in E2. injection E2 as <-.
  do 4 (apply sbind_ok in E as (? & ? & E2 & E); apply lift_ok in E2 as [-> _]).
  apply sbind_ok in E as (s2 & u1 & T1 & E). apply sbind_ok in E as (s3 & u2 & T2 & E). apply sret_ok in E as [-> ->]. destruct u1, u2.
  apply (turn_value spl lin ip el fields p _ _ _ _ _ _ a1 1) in T1; [|exact Sp|exact Ip|exact L1|now left|]; [|intros b g Hb Hg; destruct (Far 1%nat b (or_introl eq_refl) Hb); apply (Wf _ b g Hb); rewrite <- Fr1; auto].
  destruct T1 as (r0 & r1 & R0 & R1 & X1 & X2 & X3 & X4 & V1 & Len2 & Fr2 & N1). rewrite HF in R0. injection R0 as <-.
  apply (turn_value spl lin ip el fields p _ _ _ _ _ _ a1 2) in T2; [|exact Sp|exact Ip|lia|now right|]; [|intros b g Hb Hg; destruct (Far 2%nat b (or_intror eq_refl) Hb); apply (Wf _ b g Hb); rewrite <- Fr1, <- Fr2; auto; lia].
  destruct T2 as (r0 & r2 & R0 & R2 & Y1 & Y2 & Y3 & Y4 & V2 & Len3 & Fr3 & N2). rewrite R1 in R0. injection R0 as <-.
  exists r2. split; [reflexivity|]. split; [exact Hf|]. split; [exact EF|]. split; [exact R2|]. do 4 (split; [congruence|]).
  split; [|split; [intros i [-> | ->]; assumption|destruct Cs as [(_ & -> & _ & D)|(_ & ->)]; [left; auto|right; lia]]]. intro idx. rewrite V2, V1. rewrite (spectrum_same spl s s1), (spectrum_same spl s s2).
  - change (3 - 1)%nat with 2%nat. change (3 - 2)%nat with 1%nat. cbn [Nat.eqb]. unfold cross. assert (RM : forall x y, RtoC (x * y) = Cmul (RtoC x) (RtoC y)) by (intros; unfold RtoC, Cmul; cbn; f_equal; ring). rewrite !RM.
    change (RtoC 1) with C1. replace (RtoC (-1)) with (Copp C1) by (unfold Copp, RtoC, C1; cbn; f_equal; ring). ring.
  - intros b Hb. destruct (Far 2%nat b (or_intror eq_refl) Hb). rewrite Fr2, Fr1; auto; lia.
  - intros b Hb. destruct (Far 1%nat b (or_introl eq_refl) Hb). rewrite Fr1; auto.
Qed.
