(** The regular expression of species names. *)
From Coq Require Import Ascii String List Lia.
From Verif Require Import PyBase PyBaseFacts SpeciesModel SpeciesSpec.
Open Scope string_scope.
Open Scope list_scope.

(** * Repetitions of one character *)
Fixpoint tries (p : ascii -> bool) (k : chars -> groups -> option groups) (s : chars) (c : groups) : option groups :=
  match s with
  | [] => k [] c
  | x :: s' => if p x then match tries p k s' c with Some y => Some y | None => k s c end else k s c
  end.
Lemma star_tries p s c k : rmatch (RStar (RChar p)) s c k = tries p k s c.
Proof.
  cbn [rmatch]. assert (G : forall n s, (length s <= n)%nat -> (fix loop (n : nat) (s : list ascii) (c : groups) : option groups := match n with O => k s c | S n' => match (match s with x :: s' => if p x then loop n' s' c else None | [] => None end) with Some x => Some x | None => k s c end end) n s c = tries p k s c).
  { induction n as [|n IH]; intros [|x t] L; cbn in *; try lia; try reflexivity. destruct (p x); [|reflexivity]. rewrite IH by lia. reflexivity. }
  apply G. lia.
Qed.
Lemma tries_all p k rest c y : forall a, all_of p a -> ~ starts p rest -> k rest c = Some y -> tries p k (a ++ rest) c = Some y.
Proof.
  induction a as [|x a IH]; intros A N K; cbn.
  - destruct rest as [|x t]; [exact K|]. cbn. cbn in N. destruct (p x); [congruence|exact K].
  - inversion A as [|x0 a0 Hx Ha]; subst. rewrite Hx. now rewrite (IH Ha N K).
Qed.
Lemma tries_sound p k c y : forall s, tries p k s c = Some y -> exists a t, s = a ++ t /\ all_of p a /\ k t c = Some y.
Proof.
  induction s as [|x s IH]; cbn; intro E; [exists [], []; repeat split; [constructor|exact E]|]. destruct (p x) eqn:Px.
  - destruct (tries p k s c) as [z|] eqn:T; [injection E as ->; destruct (IH eq_refl) as (a & t & -> & A & K); exists (x :: a), t; repeat split; [constructor; assumption|exact K]|]. exists [], (x :: s). repeat split; [constructor|exact E].
  - exists [], (x :: s). repeat split; [constructor|exact E].
Qed.
(** * Words *)
Lemma lits_match w : forall s c k, rmatch (RWord w) (w ++ s) c k = k s c.
Proof. induction w as [|x w IH]; intros s c k; [reflexivity|]. cbn. rewrite Ascii.eqb_refl. apply IH. Qed.
Lemma lits_sound w : forall s c k y, rmatch (RWord w) s c k = Some y -> exists t, s = w ++ t /\ k t c = Some y.
Proof.
  induction w as [|x w IH]; intros s c k y E; cbn in E; [exists s; auto|]. destruct s as [|z s]; [discriminate|]. destruct (Ascii.eqb_spec x z); [|discriminate]. subst z. destruct (IH _ _ _ _ E) as (t & -> & K). exists t. auto.
Qed.
Lemma lits_none w s c k : ~ begins w s -> rmatch (RWord w) s c k = None.
Proof. intro N. destruct (rmatch (RWord w) s c k) eqn:E; [|reflexivity]. destruct (lits_sound _ _ _ _ _ E) as (t & -> & _). exfalso. apply N. now exists t. Qed.
Lemma lit_match w s c k : rmatch (lits w) (txt w ++ s) c k = k s c.
Proof. apply lits_match. Qed.
Lemma lit_none w s c k : ~ begins (txt w) s -> rmatch (lits w) s c k = None.
Proof. apply lits_none. Qed.
Lemma lit_sound w s c k y : rmatch (lits w) s c k = Some y -> exists t, s = txt w ++ t /\ k t c = Some y.
Proof. apply lits_sound. Qed.
(** the text between a position and a later one *)
Lemma taken (a t : chars) : firstn (length (a ++ t) - length t) (a ++ t) = a.
Proof. rewrite app_length, Nat.add_sub, firstn_app, Nat.sub_diag, firstn_all. cbn. apply app_nil_r. Qed.

(** * The end: suffix, electron, plus *)
Definition K0 (s : chars) (c : groups) : option groups := Some c.
Lemma word_not_newline x : is_word x = true -> Ascii.eqb x newline = false.
Proof. intro W. destruct (Ascii.eqb_spec x newline); [subst; discriminate|reflexivity]. Qed.
Lemma suffix_match suf c : all_of is_word suf -> rmatch r_suffix suf c K0 = Some (setgroup "suffix" suf c).
Proof.
  intro A. unfold r_suffix. cbn [rmatch].
  assert (G : forall whole n t c', all_of is_word t -> (length t <= n)%nat ->
    (fix loop (n : nat) (s : list ascii) (c : groups) : option groups :=
         match (match s with [] => K0 s (setgroup "suffix" (firstn (length whole - length s) whole) c) | [x] => if Ascii.eqb x newline then K0 s (setgroup "suffix" (firstn (length whole - length s) whole) c) else None | _ :: _ :: _ => None end) with
         | Some x => Some x
         | None => match n with O => None | S n' => match s with x :: s' => if is_word x then loop n' s' c else None | [] => None end end
         end) n t c' = Some (setgroup "suffix" (firstn (length whole - 0) whole) c')).
  { intros whole. induction n as [|n IH]; intros [|x t] c' At L; cbn in *; try lia; try reflexivity. inversion At as [|x0 t0 Hx Ht]; subst. rewrite (word_not_newline x Hx), Hx. destruct t; apply IH; auto; lia. }
  rewrite G by (assumption || lia). now rewrite Nat.sub_0_r, firstn_all.
Qed.
Definition electron_groups (e : option chars) (c : groups) : groups := match e with Some t => setgroup "electron" t c | None => c end.
Lemma electron_match e suf c k y : match e with Some t => electron_word t | None => forall t, electron_word t -> ~ begins t suf end -> k suf (electron_groups e c) = Some y -> rmatch r_electron (opt_text e ++ suf) c k = Some y.
Proof.
  intros E K. unfold r_electron. destruct e as [t|].
  - assert (L : exists a b, t = [a; "l"; "e"; b]%char /\ (Ascii.eqb a "E" || Ascii.eqb a "e")%bool = true /\ (Ascii.eqb b "c" || Ascii.eqb b "k")%bool = true) by (destruct E as [->|[->|[->| ->]]]; do 2 eexists; repeat split).
    destruct L as (a & b & -> & La & Lb). cbn [opt_text app rmatch lits RWord txt list_ascii_of_string RLit]. rewrite La. rewrite !Ascii.eqb_refl, Lb. assert (F : firstn (length (a :: "l" :: "e" :: b :: suf)%char - length suf) (a :: "l" :: "e" :: b :: suf)%char = [a; "l"; "e"; b]%char) by exact (taken [a; "l"; "e"; b]%char suf).
    rewrite F. cbn [electron_groups] in K. now rewrite K.
  - cbn [opt_text app electron_groups] in *. cbn [rmatch lits RWord list_ascii_of_string RLit].
    destruct suf as [|x1 [|x2 [|x3 [|x4 suf]]]]; cbv beta iota; [exact K| | | |].
    + destruct (Ascii.eqb x1 "E" || Ascii.eqb x1 "e")%bool; exact K.
    + destruct (Ascii.eqb x1 "E" || Ascii.eqb x1 "e")%bool; [|exact K]. destruct (Ascii.eqb "l" x2); exact K.
    + destruct (Ascii.eqb x1 "E" || Ascii.eqb x1 "e")%bool; [|exact K]. destruct (Ascii.eqb "l" x2); [|exact K]. destruct (Ascii.eqb "e" x3); exact K.
    + destruct (Ascii.eqb x1 "E" || Ascii.eqb x1 "e")%bool eqn:E1; [|exact K]. destruct (Ascii.eqb_spec "l" x2); [|exact K]. destruct (Ascii.eqb_spec "e" x3); [|exact K]. destruct (Ascii.eqb x4 "c" || Ascii.eqb x4 "k")%bool eqn:E4; [|exact K]. subst. exfalso. apply (E [x1; "l"; "e"; x4]%char); [|exists suf; reflexivity].
      unfold electron_word. apply orb_prop in E1 as [E1|E1], E4 as [E4|E4]; apply Ascii.eqb_eq in E1, E4; subst; auto.
Qed.
Lemma pluses_S n : pluses (S n) = txt "Plus" ++ pluses n.
Proof. reflexivity. Qed.
Lemma plus_match n rest c k y : ~ begins (txt "Plus") rest -> k rest (setgroup "plus" (pluses n) c) = Some y -> rmatch r_plus (pluses n ++ rest) c k = Some y.
Proof.
  intros N K. unfold r_plus. cbn [rmatch].
  assert (G : forall whole c' n m, (m <= n)%nat -> k rest (setgroup "plus" (firstn (length whole - length rest) whole) c') = Some y ->
    (fix loop (n : nat) (s : list ascii) (c : groups) : option groups :=
         match n with
         | O => k s (setgroup "plus" (firstn (length whole - length s) whole) c)
         | S n' => match rmatch (lits "Plus") s c (loop n') with Some x => Some x | None => k s (setgroup "plus" (firstn (length whole - length s) whole) c) end
         end) n (pluses m ++ rest) c' = Some y).
  { intros whole c'. induction n0 as [|n0 IH]; intros m L K'.
    - assert (m = 0)%nat by lia. subst m. exact K'.
    - destruct m as [|m]; [change (pluses 0 ++ rest) with rest; rewrite lit_none by exact N; exact K'|]. rewrite pluses_S, <- app_assoc. rewrite lit_match. rewrite (IH m); [reflexivity|lia|exact K']. }
  apply G; [rewrite app_length; clear; induction n; [cbn; lia|rewrite pluses_S, app_length; cbn in *; lia]|]. now rewrite taken.
Qed.
Definition tail_groups (p : spelling) (c : groups) : groups := setgroup "suffix" (sp_suffix p) (electron_groups (sp_electron p) (setgroup "plus" (pluses (sp_plus p)) c)).
Definition K1 (s : chars) (c : groups) : option groups := rmatch r_plus s c (fun s c => rmatch r_electron s c (fun s c => rmatch r_suffix s c K0)).
Lemma tail_match p v c : spells p v -> K1 (tail_text p) c = Some (tail_groups p c).
Proof.
  intros (Ev & W & _ & NP & El). unfold K1, tail_text. apply plus_match; [exact NP|]. apply electron_match; [exact El|]. rewrite suffix_match; [reflexivity|]. rewrite Ev in W. unfold tail_text in W. unfold plain_word in W. rewrite !Forall_app in W. destruct W as (_ & _ & _ & W). revert W. apply Forall_impl. tauto.
Qed.

(** * The base *)
Lemma digits1_match ds rest c k y : ds <> [] -> digits ds -> ~ starts is_digit rest -> k rest c = Some y -> rmatch digits1 (ds ++ rest) c k = Some y.
Proof.
  intros N D S K. unfold digits1. cbn [rmatch]. destruct ds as [|x ds]; [congruence|]. inversion D as [|x0 ds0 Hx Hd]; subst. cbn [app]. rewrite Hx. change (rmatch (RStar (RChar is_digit)) (ds ++ rest) c k = Some y). rewrite star_tries. now apply tries_all.
Qed.
Lemma digits1_sound s c k y : rmatch digits1 s c k = Some y -> exists ds t, s = ds ++ t /\ ds <> [] /\ digits ds /\ k t c = Some y.
Proof.
  unfold digits1. intro E. change (match s with x :: s' => if is_digit x then rmatch (RStar (RChar is_digit)) s' c k else None | [] => None end = Some y) in E. destruct s as [|x s]; [discriminate|]. destruct (is_digit x) eqn:Dx; [|discriminate]. rewrite star_tries in E. destruct (tries_sound _ _ _ _ _ E) as (a & t & -> & A & K). exists (x :: a), t. repeat split; [discriminate|constructor; assumption|exact K].
Qed.
Definition base_groups (b : base) (c : groups) : groups :=
  match b with
  | BElem sym ds => setgroup "elem_c" ds (setgroup "elem" sym c)
  | BCharge q m => setgroup "ionmc" (base_text b) (setgroup "m2" m (setgroup "c1" q c))
  | BMass m q => setgroup "ionmc" (base_text b) (setgroup "c2" q (setgroup "m1" m c))
  | BNone => c
  end.
Lemma elem_upper U ds rest c k y : is_upper U = true -> digits ds -> ~ starts is_digit rest -> ~ starts is_lower (ds ++ rest) -> k rest (setgroup "elem_c" ds (setgroup "elem" [U] c)) = Some y -> rmatch r_elem ([U] ++ ds ++ rest) c k = Some y.
Proof.
  intros HU D N NL K. unfold r_elem.
  assert (NE : ~ begins (txt "El") ([U] ++ ds ++ rest)). { intros (t & E). apply NL. cbn in E. injection E as -> E. rewrite E. reflexivity. }
  assert (G : rmatch (RGroup "elem_c" (RStar (RChar is_digit))) (ds ++ rest) (setgroup "elem" [U] c) k = Some y).
  { cbn [rmatch]. change (rmatch (RStar (RChar is_digit)) (ds ++ rest) (setgroup "elem" [U] c) (fun s' c' => k s' (setgroup "elem_c" (firstn (length (ds ++ rest) - length s') (ds ++ rest)) c')) = Some y). rewrite star_tries. apply tries_all; auto. now rewrite taken. }
  cbn [rmatch] in G |- *. rewrite lit_none by exact NE. cbn [app]. rewrite HU.
  assert (F : firstn (length (U :: ds ++ rest) - length (ds ++ rest)) (U :: ds ++ rest) = [U]) by exact (taken [U] (ds ++ rest)). rewrite F. rewrite G.
  destruct (ds ++ rest) as [|x t] eqn:Ed; [reflexivity|]. cbn in NL. destruct (is_lower x); [congruence|reflexivity].
Qed.
Lemma elem_lower U l ds rest c k y : is_upper U = true -> is_lower l = true -> [U; l] <> txt "El" -> digits ds -> ~ starts is_digit rest -> k rest (setgroup "elem_c" ds (setgroup "elem" [U; l] c)) = Some y -> rmatch r_elem ([U; l] ++ ds ++ rest) c k = Some y.
Proof.
  intros HU HL NE D N K. unfold r_elem.
  assert (NB : ~ begins (txt "El") ([U; l] ++ ds ++ rest)). { intros (t & E). apply NE. cbn in E. injection E as -> -> _. reflexivity. }
  assert (G : rmatch (RGroup "elem_c" (RStar (RChar is_digit))) (ds ++ rest) (setgroup "elem" [U; l] c) k = Some y).
  { cbn [rmatch]. change (rmatch (RStar (RChar is_digit)) (ds ++ rest) (setgroup "elem" [U; l] c) (fun s' c' => k s' (setgroup "elem_c" (firstn (length (ds ++ rest) - length s') (ds ++ rest)) c')) = Some y). rewrite star_tries. apply tries_all; auto. now rewrite taken. }
  cbn [rmatch] in G |- *. rewrite lit_none by exact NB. cbn [app]. rewrite HU, HL.
  assert (F : firstn (length (U :: l :: ds ++ rest) - length (ds ++ rest)) (U :: l :: ds ++ rest) = [U; l]) by exact (taken [U; l] (ds ++ rest)). rewrite F. now rewrite G.
Qed.
Lemma elem_none s c k : (~ starts is_upper s \/ begins (txt "El") s) -> rmatch r_elem s c k = None.
Proof.
  intro H. unfold r_elem. cbn [rmatch]. destruct (rmatch (lits "El") s c (fun _ c' => Some c')) eqn:E; [reflexivity|].
  destruct H as [N|(t & ->)]; [|rewrite lit_match in E; discriminate]. destruct s as [|x s]; [reflexivity|]. cbn in N. destruct (is_upper x); [congruence|reflexivity].
Qed.
Lemma charge_match q m rest c k y : q <> [] -> digits q -> m <> [] -> digits m -> ~ starts is_digit rest -> k rest (setgroup "m2" m (setgroup "c1" q c)) = Some y -> rmatch r_ioncm (txt "ionc" ++ q ++ txt "m" ++ m ++ rest) c k = Some y.
Proof.
  intros Nq Dq Nm Dm N K. unfold r_ioncm. change (rmatch (lits "ionc") (txt "ionc" ++ q ++ txt "m" ++ m ++ rest) c (fun s c => rmatch (RSeq (RGroup "c1" digits1) (RSeq (RLit "m") (RGroup "m2" digits1))) s c k) = Some y). rewrite lit_match.
  change (rmatch digits1 (q ++ txt "m" ++ m ++ rest) c (fun s' c' => rmatch (RSeq (RLit "m") (RGroup "m2" digits1)) s' (setgroup "c1" (firstn (length (q ++ txt "m" ++ m ++ rest) - length s') (q ++ txt "m" ++ m ++ rest)) c') k) = Some y).
  apply digits1_match; [exact Nq|exact Dq|intro H; discriminate H|]. rewrite taken.
  change (rmatch digits1 (m ++ rest) (setgroup "c1" q c) (fun s' c' => k s' (setgroup "m2" (firstn (length (m ++ rest) - length s') (m ++ rest)) c')) = Some y). apply digits1_match; auto. now rewrite taken.
Qed.
Lemma mass_match m q rest c k y : m <> [] -> digits m -> q <> [] -> digits q -> ~ starts is_digit rest -> k rest (setgroup "c2" q (setgroup "m1" m c)) = Some y -> rmatch r_ionmc (txt "ionm" ++ m ++ txt "c" ++ q ++ rest) c k = Some y.
Proof.
  intros Nq Dq Nm Dm N K. unfold r_ionmc. change (rmatch (lits "ionm") (txt "ionm" ++ m ++ txt "c" ++ q ++ rest) c (fun s c => rmatch (RSeq (RGroup "m1" digits1) (RSeq (RLit "c") (RGroup "c2" digits1))) s c k) = Some y). rewrite lit_match.
  change (rmatch digits1 (m ++ txt "c" ++ q ++ rest) c (fun s' c' => rmatch (RSeq (RLit "c") (RGroup "c2" digits1)) s' (setgroup "m1" (firstn (length (m ++ txt "c" ++ q ++ rest) - length s') (m ++ txt "c" ++ q ++ rest)) c') k) = Some y).
  apply digits1_match; [exact Nq|exact Dq|intro H; discriminate H|]. rewrite taken.
  change (rmatch digits1 (q ++ rest) (setgroup "m1" m c) (fun s' c' => k s' (setgroup "c2" (firstn (length (q ++ rest) - length s') (q ++ rest)) c')) = Some y). apply digits1_match; auto. now rewrite taken.
Qed.
Lemma char_sound x s c k y : rmatch (RLit x) s c k = Some y -> exists t, s = x :: t /\ k t c = Some y.
Proof. cbn. destruct s as [|z s]; [discriminate|]. destruct (Ascii.eqb_spec x z); [subst; eauto|discriminate]. Qed.
Lemma charge_none s c k : (forall q m t, q <> [] -> digits q -> m <> [] -> digits m -> s <> txt "ionc" ++ q ++ txt "m" ++ m ++ t) -> rmatch r_ioncm s c k = None.
Proof.
  intro N. destruct (rmatch r_ioncm s c k) as [y|] eqn:E; [|reflexivity]. exfalso. unfold r_ioncm in E.
  apply lit_sound in E as (t1 & -> & E). apply digits1_sound in E as (q & t2 & -> & Nq & Dq & E). apply char_sound in E as (t3 & -> & E). apply digits1_sound in E as (m & t4 & -> & Nm & Dm & E). apply (N q m t4); auto.
Qed.
Lemma mass_none s c k : (forall m q t, m <> [] -> digits m -> q <> [] -> digits q -> s <> txt "ionm" ++ m ++ txt "c" ++ q ++ t) -> rmatch r_ionmc s c k = None.
Proof.
  intro N. destruct (rmatch r_ionmc s c k) as [y|] eqn:E; [|reflexivity]. exfalso. unfold r_ionmc in E.
  apply lit_sound in E as (t1 & -> & E). apply digits1_sound in E as (q & t2 & -> & Nq & Dq & E). apply char_sound in E as (t3 & -> & E). apply digits1_sound in E as (m & t4 & -> & Nm & Dm & E). apply (N q m t4); auto.
Qed.
Lemma base_match b rest c k y : base_spelled b rest -> k rest (base_groups b c) = Some y -> rmatch r_base (base_text b ++ rest) c k = Some y.
Proof.
  intros S K. unfold r_base. destruct b as [sym ds|q m|m q|]; cbn [base_spelled base_groups] in *.
  - destruct S as (D & N & [(U & -> & HU & NL)|(U & l & -> & HU & HL & NE)]); cbn [base_text]; rewrite <- app_assoc; cbn [rmatch]; [now rewrite (elem_upper U ds rest c k y HU D N NL K)|now rewrite (elem_lower U l ds rest c k y HU HL NE D N K)].
  - destruct S as (Nq & Dq & Nm & Dm & N). cbn [rmatch]. rewrite elem_none by (left; intro H; discriminate H).
    assert (G : base_text (BCharge q m) ++ rest = txt "ionc" ++ q ++ txt "m" ++ m ++ rest) by (cbn [base_text]; now rewrite <- !app_assoc). rewrite G. rewrite (charge_match q m rest c _ y Nq Dq Nm Dm N); [reflexivity|]. rewrite <- G, taken. exact K.
  - destruct S as (Nq & Dq & Nm & Dm & N). cbn [rmatch]. rewrite elem_none by (left; intro H; discriminate H).
    assert (G : base_text (BMass m q) ++ rest = txt "ionm" ++ m ++ txt "c" ++ q ++ rest) by (cbn [base_text]; now rewrite <- !app_assoc). rewrite G. rewrite charge_none by (intros; discriminate). rewrite (mass_match m q rest c _ y Nq Dq Nm Dm N); [reflexivity|]. rewrite <- G, taken. exact K.
  - destruct S as (H1 & H2 & H3). cbn [base_text app rmatch]. rewrite elem_none by exact H1. rewrite charge_none by exact H2. rewrite mass_none by exact H3. exact K.
Qed.
(** * The prefix *)
Definition K2 (s : chars) (c : groups) : option groups := rmatch r_base s c K1.
Lemma word_match p v c : spells p v -> K2 v c = Some (tail_groups p (base_groups (sp_base p) c)).
Proof. intro S. destruct S as (Ev & R). unfold K2. rewrite Ev. apply base_match; [tauto|]. apply (tail_match p v). split; assumption. Qed.
Lemma prae_match u v c (k : chars -> groups -> option groups) y : (u = [] \/ exists t, u = t ++ ["_"%char]) -> no_char newline u -> no_char "_" v -> k v (setgroup "prae" u c) = Some y -> rmatch r_prae (u ++ v) c k = Some y.
Proof.
  intros U NU NV K. unfold r_prae.
  pose (Kp := fun s' c' => k s' (setgroup "prae" (firstn (length (u ++ v) - length s') (u ++ v)) c')).
  pose (loop := fix loop (n : nat) (s : list ascii) (c : groups) : option groups :=
         match n with
         | O => Kp s c
         | S n' => match rmatch (RSeq (RStar (RChar any_char)) (RLit "_")) s c (loop n') with Some x => Some x | None => Kp s c end
         end).
  change (loop (length (u ++ v)) (u ++ v) c = Some y). assert (Kv : Kp v c = Some y) by (unfold Kp; now rewrite taken).
  assert (NN : forall t c' f, no_char "_" t -> tries any_char (fun s' c' => rmatch (RLit "_") s' c' f) t c' = None).
  { induction t as [|x t IH]; intros c' f A; [reflexivity|]. inversion A as [|x0 t0 Hx Ht]; subst. cbn [tries]. rewrite (IH c' f Ht). cbn [rmatch RLit]. assert (Ef : Ascii.eqb "_" x = false) by (apply Ascii.eqb_neq; congruence). rewrite Ef. now destruct (any_char x). }
  assert (Lv : forall n, loop n v c = Some y).
  { destruct n as [|n]; [exact Kv|]. change (match rmatch (RStar (RChar any_char)) v c (fun s' c' => rmatch (RLit "_") s' c' (loop n)) with Some x => Some x | None => Kp v c end = Some y). rewrite star_tries, NN by exact NV. exact Kv. }
  assert (G : forall t f, no_char newline (t ++ ["_"%char]) -> f v c = Some y -> tries any_char (fun s' c' => rmatch (RLit "_") s' c' f) ((t ++ ["_"%char]) ++ v) c = Some y).
  { clear -NV NN. induction t as [|x t IH]; intros f NU F.
    - cbn [app tries]. change (any_char "_") with true. cbn iota. rewrite NN by exact NV. cbn [rmatch RLit]. change (Ascii.eqb "_" "_") with true. cbn iota. exact F.
    - inversion NU as [|x0 t0 Hx Ht]; subst. cbn [app tries]. rewrite IH by assumption. unfold any_char. apply Ascii.eqb_neq in Hx. rewrite Hx. reflexivity. }
  destruct U as [Eu|(t & Eu)]; [rewrite Eu; apply Lv|]. rewrite Eu at 1 2. rewrite !app_length. cbn [length]. replace (length t + 1 + length v)%nat with (S (length t + length v)) by lia.
  change (match rmatch (RStar (RChar any_char)) ((t ++ ["_"%char]) ++ v) c (fun s' c' => rmatch (RLit "_") s' c' (loop (length t + length v)%nat)) with Some x => Some x | None => Kp ((t ++ ["_"%char]) ++ v) c end = Some y). rewrite star_tries.
  rewrite G; [reflexivity|now rewrite <- Eu|apply Lv].
Qed.
Lemma regex_match p u v c0 : (u = [] \/ exists t, u = t ++ ["_"%char]) -> no_char newline u -> spells p v -> rmatch species_regex (u ++ v) c0 K0 = Some (tail_groups p (base_groups (sp_base p) (setgroup "prae" u c0))).
Proof.
  intros U NU S. unfold species_regex. change (rmatch r_prae (u ++ v) c0 K2 = Some (tail_groups p (base_groups (sp_base p) (setgroup "prae" u c0)))). apply prae_match; auto; [|now apply word_match]. destruct S as (_ & W & _). revert W. apply Forall_impl. tauto.
Qed.
