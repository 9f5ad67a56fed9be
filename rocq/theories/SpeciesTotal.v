(** Every word has a spelling; names with other characters are rejected. *)
From Coq Require Import Ascii String List Lia.
From Verif Require Import PyBase PyBaseFacts SpeciesModel SpeciesSpec SpeciesFacts.
Open Scope string_scope.
Open Scope list_scope.

Lemma span_digits s : exists ds t, s = ds ++ t /\ digits ds /\ ~ starts is_digit t.
Proof.
  induction s as [|x s (ds & t & -> & D & N)]; [exists [], []; repeat split; [constructor|intros []]|]. destruct (is_digit x) eqn:Dx.
  - exists (x :: ds), t. repeat split; [constructor; assumption|exact N].
  - exists [], (x :: ds ++ t). repeat split; [constructor|]. cbn. congruence.
Qed.
Lemma span_unique : forall a b s t, digits a -> digits b -> ~ starts is_digit s -> ~ starts is_digit t -> a ++ s = b ++ t -> a = b /\ s = t.
Proof.
  induction a as [|x a IH]; intros [|z b] s t Da Db Ns Nt E; cbn in E.
  - auto.
  - exfalso. apply Ns. rewrite E. cbn. now inversion Db.
  - exfalso. apply Nt. rewrite <- E. cbn. now inversion Da.
  - injection E as -> E. inversion Da; inversion Db; subst. destruct (IH b s t) as [-> ->]; auto.
Qed.
Lemma begins_dec w s : begins w s \/ ~ begins w s.
Proof.
  revert s. induction w as [|x w IH]; intro s; [left; exists s; reflexivity|]. destruct s as [|z s]; [right; intros (t & E); discriminate|]. destruct (Ascii.eqb_spec x z) as [->|N]; [|right; intros (t & E); injection E; congruence].
  destruct (IH s) as [(t & ->)|N]; [left; now exists t|right; intros (t & E); injection E as E; apply N; now exists t].
Qed.
Lemma starts_dec p s : starts p s \/ ~ starts p s.
Proof. destruct s as [|x s]; [right; intros []|]. cbn. destruct (p x); [now left|right; discriminate]. Qed.
Lemma span_plus : forall n s, (length s <= n)%nat -> exists m t, s = pluses m ++ t /\ ~ begins (txt "Plus") t.
Proof.
  induction n as [|n IH]; intros s L; (destruct (begins_dec (txt "Plus") s) as [(t & ->)|N]; [|exists 0%nat, s; auto]).
  - cbn in L. lia.
  - destruct (IH t) as (m & t' & -> & N); [rewrite app_length in L; cbn in L; lia|]. exists (S m), t'. rewrite pluses_S, <- app_assoc. auto.
Qed.
Lemma electron_dec s : (exists e t, s = e ++ t /\ electron_word e) \/ (forall e, electron_word e -> ~ begins e s).
Proof.
  destruct (begins_dec (txt "Elec") s) as [(t & ->)|N1]; [left; exists (txt "Elec"), t; unfold electron_word; auto|].
  destruct (begins_dec (txt "elec") s) as [(t & ->)|N2]; [left; exists (txt "elec"), t; unfold electron_word; auto|].
  destruct (begins_dec (txt "Elek") s) as [(t & ->)|N3]; [left; exists (txt "Elek"), t; unfold electron_word; auto|].
  destruct (begins_dec (txt "elek") s) as [(t & ->)|N4]; [left; exists (txt "elek"), t; unfold electron_word; auto|].
  right. intros e [->|[->|[->| ->]]]; assumption.
Qed.
Lemma tail_exists s : exists n e suf, s = pluses n ++ opt_text e ++ suf /\ ~ begins (txt "Plus") (opt_text e ++ suf) /\ match e with Some t => electron_word t | None => forall t, electron_word t -> ~ begins t suf end.
Proof.
  destruct (span_plus (length s) s (le_n _)) as (n & t & -> & N). destruct (electron_dec t) as [(e & t' & -> & E)|E]; [exists n, (Some e), t'|exists n, None, t]; auto.
Qed.
Lemma pair_dec w x s : no_char "0" w -> is_digit x = false -> (exists c m t, s = w ++ c ++ [x] ++ m ++ t /\ c <> [] /\ digits c /\ m <> [] /\ digits m /\ ~ starts is_digit t) \/ (forall c m t, c <> [] -> digits c -> m <> [] -> digits m -> s <> w ++ c ++ [x] ++ m ++ t).
Proof.
  intros _ Dx. destruct (begins_dec w s) as [(t1 & ->)|N]; [|right; intros c m t _ _ _ _ ->; apply N; eexists; reflexivity].
  destruct (span_digits t1) as (c & t2 & -> & Dc & Nc).
  assert (Un : forall c' m t, digits c' -> w ++ c ++ t2 = w ++ c' ++ [x] ++ m ++ t -> c = c' /\ t2 = [x] ++ m ++ t). { intros c' m t D' E. apply app_inv_head in E. apply span_unique in E; auto. cbn. congruence. }
  destruct c as [|c1 c]; [right; intros c' m t N' D' _ _ E; apply Un in E as [E _]; [congruence|exact D']|].
  destruct t2 as [|z t2]; [right; intros c' m t N' D' _ _ E; apply Un in E as [_ E]; [discriminate|exact D']|].
  destruct (Ascii.eqb_spec z x) as [->|N]; [|right; intros c' m t N' D' _ _ E; apply Un in E as [_ E]; [injection E; congruence|exact D']].
  destruct (span_digits t2) as (m & t3 & -> & Dm & Nm). destruct m as [|m1 m].
  - right. intros c' m' t N' D' Nm' Dm' E. apply Un in E as [_ E]; [|exact D']. injection E as E. cbn in E. subst t3. destruct m' as [|m1 m']; [congruence|]. apply Nm. cbn. now inversion Dm'.
  - left. exists (c1 :: c), (m1 :: m), t3. repeat split; auto; discriminate.
Qed.
Lemma spelling_exists v : plain_word v -> exists p, spells p v.
Proof.
  intro W.
  assert (Mk : forall b s, v = base_text b ++ s -> base_spelled b s -> exists p, spells p v).
  { intros b s Ev B. destruct (tail_exists s) as (n & e & suf & Es & NP & El). exists (mkspell b n e suf). unfold spells, tail_text. cbn [sp_base sp_plus sp_electron sp_suffix]. rewrite <- Es. repeat split; auto. }
  destruct (starts_dec is_upper v) as [SU|SU]; [destruct (begins_dec (txt "El") v) as [BE|BE]|].
  2:{ destruct v as [|U v']; [destruct SU|]. cbn in SU. destruct (starts_dec is_lower v') as [SL|SL].
      - destruct v' as [|l v'']; [destruct SL|]. cbn in SL. destruct (span_digits v'') as (ds & t & -> & D & N). apply (Mk (BElem [U; l] ds) t); [reflexivity|]. cbn. repeat split; auto. right. exists U, l. repeat split; auto. intro E. injection E as -> ->. apply BE. eexists. reflexivity.
      - destruct (span_digits v') as (ds & t & -> & D & N). apply (Mk (BElem [U] ds) t); [reflexivity|]. cbn. repeat split; auto. left. exists U. auto. }
  all: assert (SB : ~ starts is_upper v \/ begins (txt "El") v) by auto.
  all: destruct (pair_dec (txt "ionc") "m" v) as [(c & m & t & -> & H1 & H2 & H3 & H4 & H5)|N1]; [repeat constructor; discriminate|reflexivity|apply (Mk (BCharge c m) t); [cbn [base_text]; now rewrite <- !app_assoc|cbn; auto]|].
  all: destruct (pair_dec (txt "ionm") "c" v) as [(m & c & t & -> & H1 & H2 & H3 & H4 & H5)|N2]; [repeat constructor; discriminate|reflexivity|apply (Mk (BMass m c) t); [cbn [base_text]; now rewrite <- !app_assoc|cbn; auto]|].
  all: apply (Mk BNone v); [reflexivity|split; [exact SB|split; assumption]].
Qed.

(** * Rejection *)
(** expressions which take only letters, digits and underscores *)
Fixpoint wordy (r : regex) : Prop :=
  match r with
  | REps | REnd => True
  | RChar p => forall x, p x = true -> is_word x = true
  | RSeq a b | RAlt a b => wordy a /\ wordy b
  | ROpt a | RStar a | RLazy a | RGroup _ a => wordy a
  | RNot _ => True
  end.
Lemma wordy_sound r : wordy r -> forall s c k y, rmatch r s c k = Some y -> exists a t c', s = a ++ t /\ all_of is_word a /\ k t c' = Some y.
Proof.
  induction r as [|p|a IHa b IHb|a IHa b IHb|a IHa|a IHa|a IHa|a IHa|g a IHa|]; intros W s c k y E; cbn [wordy rmatch] in *.
  - exists [], s, c. repeat split; [constructor|exact E].
  - destruct s as [|x s]; [discriminate|]. destruct (p x) eqn:P; [|discriminate]. exists [x], s, c. repeat split; [constructor; [auto|constructor]|exact E].
  - apply IHa in E as (a1 & t1 & c1 & -> & A1 & E); [|tauto]. apply IHb in E as (a2 & t2 & c2 & -> & A2 & E); [|tauto]. exists (a1 ++ a2), t2, c2. rewrite app_assoc. repeat split; [apply Forall_app; auto|exact E].
  - destruct (rmatch a s c k) eqn:Ea; [injection E as ->; apply IHa in Ea; tauto|]. apply IHb in E; tauto.
  - destruct (rmatch a s c k) eqn:Ea; [injection E as ->; apply IHa in Ea; tauto|]. exists [], s, c. repeat split; [constructor|exact E].
  - revert E. generalize (length s) at 1. intro n. revert s c. induction n as [|n IH]; intros s c E; [exists [], s, c; repeat split; [constructor|exact E]|].
    match type of E with match ?m with _ => _ end = _ => destruct m as [z|] eqn:Ea end; [injection E as ->|exists [], s, c; repeat split; [constructor|exact E]].
    apply IHa in Ea as (a1 & t1 & c1 & -> & A1 & E); [|exact W]. apply IH in E as (a2 & t2 & c2 & -> & A2 & E). exists (a1 ++ a2), t2, c2. rewrite app_assoc. repeat split; [apply Forall_app; auto|exact E].
  - revert E. generalize (length s) at 1. intro n. revert s c. induction n as [|n IH]; intros s c E; (destruct (k s c) as [z|] eqn:Ek; [injection E as ->; exists [], s, c; repeat split; [constructor|exact Ek]|]); [discriminate|].
    apply IHa in E as (a1 & t1 & c1 & -> & A1 & E); [|exact W]. apply IH in E as (a2 & t2 & c2 & -> & A2 & E). exists (a1 ++ a2), t2, c2. rewrite app_assoc. repeat split; [apply Forall_app; auto|exact E].
  - destruct (rmatch a s c _); [discriminate|]. exists [], s, c. repeat split; [constructor|exact E].
  - apply IHa in E as (a1 & t1 & c1 & -> & A1 & E); [|exact W]. exists a1, t1. eexists. repeat split; [exact A1|exact E].
  - exists [], s, c. repeat split; [constructor|]. destruct s as [|x [|x' s]]; [exact E| |discriminate]. now destruct (Ascii.eqb x newline).
Qed.
Lemma digit_word x : is_digit x = true -> is_word x = true.
Proof. unfold is_word. now intros ->. Qed.
Lemma upper_word x : is_upper x = true -> is_word x = true.
Proof. unfold is_word. intros ->. now destruct (is_digit x). Qed.
Lemma lower_word x : is_lower x = true -> is_word x = true.
Proof. unfold is_word. intros ->. now destruct (is_digit x), (is_upper x). Qed.
Lemma lit_word x : is_word x = true -> forall z, Ascii.eqb x z = true -> is_word z = true.
Proof. intros W z E. apply Ascii.eqb_eq in E. now subst. Qed.
Definition before_end : regex := RSeq r_base (RSeq r_plus (RSeq r_electron (RGroup "suffix" (RLazy (RChar is_word))))).
Lemma before_end_wordy : wordy before_end.
Proof.
  assert (Two : forall a b, is_word a = true -> is_word b = true -> forall x, (Ascii.eqb x a || Ascii.eqb x b)%bool = true -> is_word x = true).
  { intros a b Wa Wb x H. apply orb_prop in H as [H|H]; apply Ascii.eqb_eq in H; now subst. }
  unfold before_end, r_base, r_elem, r_ioncm, r_ionmc, r_plus, r_electron, digits1, lits, RLit. cbn [wordy RWord list_ascii_of_string].
  repeat split; try (apply lit_word; reflexivity); try exact digit_word; try exact upper_word; try exact lower_word; try (apply Two; reflexivity); auto.
  all: unfold RLit; cbn [wordy]; apply lit_word; reflexivity.
Qed.
Lemma K2_sound s c y : K2 s c = Some y -> exists a, all_of is_word a /\ (s = a \/ s = a ++ [newline]).
Proof.
  intro E. change (rmatch before_end s c (fun s c => rmatch REnd s c K0) = Some y) in E. apply (wordy_sound _ before_end_wordy) in E as (a & t & c' & -> & A & E). cbn in E. exists a. split; [exact A|]. destruct t as [|x [|x' t]]; [left; apply app_nil_r| |discriminate]. destruct (Ascii.eqb_spec x newline); [subst; now right|discriminate].
Qed.
Lemma prae_sound s c k y : rmatch r_prae s c k = Some y -> exists u v c', s = u ++ v /\ (u = [] \/ exists t, u = t ++ ["_"%char]) /\ k v c' = Some y.
Proof.
  unfold r_prae.
  assert (G : forall n s0 c (k : chars -> groups -> option groups), (fix loop (n : nat) (s : list ascii) (c : groups) : option groups :=
         match n with
         | O => k s c
         | S n' => match rmatch (RSeq (RStar (RChar any_char)) (RLit "_")) s c (loop n') with Some x => Some x | None => k s c end
         end) n s0 c = Some y -> exists u v c', s0 = u ++ v /\ (u = [] \/ exists t, u = t ++ ["_"%char]) /\ k v c' = Some y).
  { clear. induction n as [|n IH]; intros s c k E; [exists [], s, c; auto|]. match type of E with match ?m with _ => _ end = _ => destruct m as [z|] eqn:Ea end; [injection E as ->|exists [], s, c; auto].
    change (rmatch (RStar (RChar any_char)) s c (fun s' c' => rmatch (RLit "_") s' c' ((fix loop (n : nat) (s : list ascii) (c : groups) : option groups :=
         match n with
         | O => k s c
         | S n' => match rmatch (RSeq (RStar (RChar any_char)) (RLit "_")) s c (loop n') with Some x => Some x | None => k s c end
         end) n)) = Some y) in Ea. rewrite star_tries in Ea. apply tries_sound in Ea as (a & t & -> & _ & Ea). apply char_sound in Ea as (t' & -> & Ea). apply IH in Ea as (u & v & c' & -> & U & K).
    exists (a ++ "_"%char :: u), v, c'. split; [now rewrite <- app_assoc|]. split; [|exact K]. right. destruct U as [->|(t & ->)]; [exists a; reflexivity|]. exists (a ++ "_"%char :: t). now rewrite <- app_assoc. }
  intro E. destruct (G (length s) s c (fun s' c' => k s' (setgroup "prae" (firstn (length s - length s') s) c')) E) as (u & v & c' & Es & U & K). exists u, v. eexists. repeat split; [exact Es|exact U|exact K].
Qed.
(** a character which is neither letter, digit nor underscore, after which no underscore comes and
    which is not the line end at the end of the name *)
Lemma regex_none a x b c : is_word x = false -> no_char "_" b -> (x <> newline \/ b <> []) -> rmatch species_regex (a ++ x :: b) c K0 = None.
Proof.
  intros Wx Nb Nx. destruct (rmatch species_regex (a ++ x :: b) c K0) as [y|] eqn:E; [|reflexivity]. exfalso.
  change (rmatch r_prae (a ++ x :: b) c K2 = Some y) in E. apply prae_sound in E as (u & v & c' & Es & U & K). apply K2_sound in K as (w & W & Ev).
  assert (Xv : exists v1, v = v1 ++ x :: b). 
  { destruct U as [->|(t & ->)]; [exists a; now rewrite Es|]. clear -Es Nb Wx. rewrite <- app_assoc in Es. cbn in Es. revert a Es. induction t as [|z t IH]; intros [|z' a] Es; cbn in Es; injection Es as E1 Es.
    - subst x. discriminate.
    - now exists a.
    - subst x b. exfalso. unfold no_char in Nb; rewrite Forall_forall in Nb. apply (Nb "_"%char); [apply in_or_app; right; now left|reflexivity].
    - exact (IH a Es). }
  destruct Xv as (v1 & ->). destruct Ev as [Ev|Ev].
  - subst w. apply Forall_app in W as [_ W]. inversion W; congruence.
  - destruct b as [|z b] using rev_ind.
    + destruct Nx as [Nx|Nx]; [|congruence]. apply app_inj_tail in Ev as [_ Ev]. congruence.
    + clear IHb. replace (v1 ++ x :: b ++ [z]) with ((v1 ++ x :: b) ++ [z]) in Ev by (rewrite <- app_assoc; reflexivity). apply app_inj_tail in Ev as [<- _]. apply Forall_app in W as [_ W]. inversion W; congruence.
Qed.
