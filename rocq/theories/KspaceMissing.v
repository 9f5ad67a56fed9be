(** Missing and superfluous fields in kspace (C86). *)
From Coq Require Import Reals String Ascii List ZArith Lia Lra Bool.
From Verif Require Import PyBase PyBaseFacts NumpyModel NdModel NdFacts FieldModel CplxModel CplxFacts FftModel FftSpec FftAxes FftKernel FftFacts FftLaws FftMore FftShift UnstagFacts KspaceModel KspaceSpec KspaceFrame KspaceFacts KspaceTotal KspaceMatchSpec KspaceMatch.
Import ListNotations.
Local Open Scope R_scope.

Lemma turn_key (el : bool) p i : (p < 3)%nat -> (i = 1 \/ i = 2)%nat -> field_key (if negb el then "E" else "B")%char ((Z.of_nat p + Z.of_nat i) mod 3) = Some (comp (negb el) (turn3 p i)).
Proof. intros Hp Hi. destruct (turn_mod p i Hi) as [M1 _]. rewrite M1. apply key_comp; [apply turn_lt|reflexivity]. Qed.
(** a turn looks at its own name only, and only if the field has the dimension *)
Lemma turn_reads spl lin ip (el : bool) p fields fields' sh axes pre o D d result i s : (p < 3)%nat -> (i = 1 \/ i = 2)%nat ->
  (forall key, In key (tl (needed el p (length axes))) -> dget fields key = dget fields' key) ->
  other_field spl lin ip (if negb el then "E" else "B")%char fields (Z.of_nat p) sh axes pre o D d result (Z.of_nat i) s = other_field spl lin ip (if negb el then "E" else "B")%char fields' (Z.of_nat p) sh axes pre o D d result (Z.of_nat i) s.
Proof.
  intros Hp Hi H. unfold other_field. destruct (turn_mod p i Hi) as [_ M2]. rewrite M2, (turn_key el p i Hp Hi). destruct (Z.ltb_spec (Z.of_nat (turn3 p (3 - i))) (Z.of_nat (length axes))) as [L|L]; [|reflexivity].
  rewrite (H (comp (negb el) (turn3 p i))); [reflexivity|]. apply needed_third; [exact Hp|exact Hi|lia].
Qed.
Lemma turn_misses spl lin ip (el : bool) p fields sh axes pre o D d result i s : (p < 3)%nat -> (i = 1 \/ i = 2)%nat -> (turn3 p (3 - i) < length axes)%nat -> dget fields (comp (negb el) (turn3 p i)) = None ->
  other_field spl lin ip (if negb el then "E" else "B")%char fields (Z.of_nat p) sh axes pre o D d result (Z.of_nat i) s = (s, Err AttributeError).
Proof.
  intros Hp Hi L H. unfold other_field. destruct (turn_mod p i Hi) as [_ M2]. rewrite M2, (turn_key el p i Hp Hi), H. destruct (Z.ltb_spec (Z.of_nat (turn3 p (3 - i))) (Z.of_nat (length axes))); [reflexivity|lia].
Qed.
Lemma turn_skips spl lin ip (el : bool) p fields sh axes pre o D d result i s : (i = 1 \/ i = 2)%nat -> (length axes <= turn3 p (3 - i))%nat ->
  other_field spl lin ip (if negb el then "E" else "B")%char fields (Z.of_nat p) sh axes pre o D d result (Z.of_nat i) s = (s, Ok tt).
Proof. intros Hi L. unfold other_field. destruct (turn_mod p i Hi) as [_ M2]. rewrite M2. destruct (Z.ltb_spec (Z.of_nat (turn3 p (3 - i))) (Z.of_nat (length axes))); [lia|reflexivity]. Qed.
Lemma main_loaded spl a f s : linear_spline spl -> wellformed f -> nth_error s a = Some f ->
  exists s1 a1 F, ensure_at spl true a s = (s1, Ok a1) /\ nth_error s1 a1 = Some F /\ length (rf_axes F) = ndim f /\ ensure_domain spl f true = Ok F.
Proof.
  intros Sp W H. destruct (ensure_at_ok spl true a f s Sp W H) as (s1 & a1 & E). destruct (ensure_at_value spl true a f s s1 a1 H E) as (F & EF & H1 & _). exists s1, a1, F. split; [exact E|]. split; [exact H1|]. split; [|exact EF].
  destruct (ensure_wf spl f true Sp W) as (F' & EF' & WF & _ & Sh & _). assert (F' = F) by congruence. subst F'. rewrite (c_axes F (proj1 WF)). unfold ndim. now rewrite Sh.
Qed.
Lemma kspace_reads spl lin omega ip el p fields fields' s a f : linear_spline spl -> (p < 3)%nat -> wellformed f -> dget fields (comp el p) = Some a -> nth_error s a = Some f ->
  (forall key, In key (needed el p (ndim f)) -> dget fields' key = dget fields key) ->
  kspace spl lin None omega ip (comp el p) fields' s = kspace spl lin None omega ip (comp el p) fields s.
Proof.
  intros Sp Hp W Ha Hf H. rewrite !kspace_unfold by exact Hp. cbv zeta. rewrite (H (comp el p)) by now left. rewrite Ha. destruct (main_loaded spl a f s Sp W Hf) as (s1 & a1 & F & E & H1 & L & _).
  unfold sbind, load, lift, sret. rewrite E, H1.
  assert (T : forall i s0 o D d, (i = 1 \/ i = 2)%nat -> other_field spl lin ip (if negb el then "E" else "B")%char fields' (Z.of_nat p) (a_shape (rf_data F)) (rf_axes F) (prefactor el omega (rf_axes F)) o D d a1 (Z.of_nat i) s0 =
      other_field spl lin ip (if negb el then "E" else "B")%char fields (Z.of_nat p) (a_shape (rf_data F)) (rf_axes F) (prefactor el omega (rf_axes F)) o D d a1 (Z.of_nat i) s0).
  { intros i s0 o D d Hi. apply turn_reads; [exact Hp|exact Hi|]. rewrite L. intros key I. apply H. now right. }
  destruct (spatial_grids F) as [gs|]; [|reflexivity]. destruct (firsts gs) as [o|]; [|reflexivity]. destruct (lengths gs) as [D|]; [|reflexivity]. destruct (spacings gs) as [d|]; [|reflexivity].
  assert (T1 := T 1%nat s1 o D d (or_introl eq_refl)). change (Z.of_nat 1) with 1%Z in T1. rewrite T1. destruct (other_field _ _ _ _ fields _ _ _ _ _ _ _ _ 1 s1) as [s2 [u|e]]; [|reflexivity].
  assert (T2 := T 2%nat s2 o D d (or_intror eq_refl)). change (Z.of_nat 2) with 2%Z in T2. now rewrite T2.
Qed.
Lemma kspace_missing spl lin omega ip el p fields s a f key : linear_spline spl -> (p < 3)%nat -> wellformed f -> dget fields (comp el p) = Some a -> nth_error s a = Some f ->
  In key (needed el p (ndim f)) -> dget fields key = None -> exists s' e, kspace spl lin None omega ip (comp el p) fields s = (s', Err e).
Proof.
  intros Sp Hp W Ha Hf I M. destruct I as [<-|I]; [congruence|]. change (In key (tl (needed el p (ndim f)))) in I. assert (N3 := c_dims f (proj1 W)).
  destruct (needed_inv el p (ndim f) key Hp N3 I) as (i & Hi & -> & Li).
  rewrite kspace_unfold by exact Hp. cbv zeta. rewrite Ha. destruct (main_loaded spl a f s Sp W Hf) as (s1 & a1 & F & E & H1 & L & _). rewrite <- L in Li.
  unfold sbind, load, lift, sret. rewrite E, H1.
  assert (T : forall s0 o D d, other_field spl lin ip (if negb el then "E" else "B")%char fields (Z.of_nat p) (a_shape (rf_data F)) (rf_axes F) (prefactor el omega (rf_axes F)) o D d a1 (Z.of_nat i) s0 = (s0, Err AttributeError)).
  { intros. now apply turn_misses. }
  destruct (spatial_grids F) as [gs|]; [|do 2 eexists; reflexivity]. destruct (firsts gs) as [o|]; [|do 2 eexists; reflexivity]. destruct (lengths gs) as [D|]; [|do 2 eexists; reflexivity]. destruct (spacings gs) as [d|]; [|do 2 eexists; reflexivity].
  destruct Hi as [-> | ->].
  - specialize (T s1 o D d). change (Z.of_nat 1) with 1%Z in T. rewrite T. do 2 eexists. reflexivity.
  - destruct (other_field _ _ _ _ fields _ _ _ _ _ _ _ _ 1 s1) as [s2 [u|e]]; [|do 2 eexists; reflexivity]. specialize (T s2 o D d). change (Z.of_nat 2) with 2%Z in T. rewrite T. do 2 eexists. reflexivity.
Qed.
(** none of the others is there *)
Lemma kspace_alone spl lin omega ip el p fields s a f nd V : linear_spline spl -> (p < 3)%nat -> (0 < nd)%nat -> lives_on f nd V -> dget fields (comp el p) = Some a -> nth_error s a = Some f ->
  (forall i, (i < 3)%nat -> dget fields (comp (negb el) i) = None) -> tl (needed el p nd) <> [] -> exists s', kspace spl lin None omega ip (comp el p) fields s = (s', Err AttributeError).
Proof.
  intros Sp Hp Pn Lf Ha Hf M Ne. assert (W := lives_wf f nd V Pn Lf). assert (Nd : ndim f = nd) by apply Lf.
  rewrite kspace_unfold by exact Hp. cbv zeta. rewrite Ha. destruct (main_loaded spl a f s Sp W Hf) as (s1 & a1 & F & E & H1 & L & EF). rewrite Nd in L.
  unfold sbind at 1. rewrite E. unfold sbind at 1, load at 1. rewrite H1.
  destruct (ensure_lives spl f nd V Sp Pn Lf) as (F' & EF' & LF & AF & _). assert (F' = F) by congruence. subst F'.
  assert (PW : forall a, (a < nd)%nat -> proper (V a)) by (intros c Lc; apply (lives_proper f nd V Lf c Lc)). destruct (grids_data nd V PW) as (D1 & D2 & D3). cbv zeta in D1, D2, D3.
  do 4 (unfold sbind at 1, lift at 1). rewrite (lives_grids F nd V Pn LF AF), D1, D2, D3.
  destruct (Nat.lt_ge_cases (turn3 p 2) nd) as [L2|L2].
  - assert (T := turn_misses spl lin ip el p fields (a_shape (rf_data F)) (rf_axes F) (prefactor el omega (rf_axes F)) (map (fun a => u_x0 (V a)) (seq 0 nd)) (map (fun a => INR (u_n (V a) - 1) * u_dx (V a)) (seq 0 nd)) (map (fun a => u_dx (V a)) (seq 0 nd)) a1 1 s1 Hp (or_introl eq_refl)).
    change (Z.of_nat 1) with 1%Z in T. unfold sbind at 1. rewrite T; [eexists; reflexivity|cbn [Nat.sub]; lia|apply M, turn_lt].
  - assert (T := turn_skips spl lin ip el p fields (a_shape (rf_data F)) (rf_axes F) (prefactor el omega (rf_axes F)) (map (fun a => u_x0 (V a)) (seq 0 nd)) (map (fun a => INR (u_n (V a) - 1) * u_dx (V a)) (seq 0 nd)) (map (fun a => u_dx (V a)) (seq 0 nd)) a1 1 s1 (or_introl eq_refl)).
    change (Z.of_nat 1) with 1%Z in T. unfold sbind at 1. rewrite T by (cbn [Nat.sub]; lia). assert (N3 := c_dims f (proj1 W)). rewrite Nd in N3.
    assert (L1 : (turn3 p 1 < nd)%nat). { destruct (tl (needed el p nd)) as [|k l] eqn:Et; [congruence|]. destruct (needed_inv el p nd k Hp N3) as (i & [-> | ->] & _ & Li); [rewrite Et; now left|cbn [Nat.sub] in Li; lia|exact Li]. }
    assert (T' := turn_misses spl lin ip el p fields (a_shape (rf_data F)) (rf_axes F) (prefactor el omega (rf_axes F)) (map (fun a => u_x0 (V a)) (seq 0 nd)) (map (fun a => INR (u_n (V a) - 1) * u_dx (V a)) (seq 0 nd)) (map (fun a => u_dx (V a)) (seq 0 nd)) a1 2 s1 Hp (or_intror eq_refl)).
    change (Z.of_nat 2) with 2%Z in T'. unfold sbind at 1. rewrite T'; [eexists; reflexivity|cbn [Nat.sub]; lia|apply M, turn_lt].
Qed.
