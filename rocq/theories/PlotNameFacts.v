(** Lemmas about the names of saved plots. *)
From Coq Require Import DecimalString DecimalNat Decimal Ascii Lia FinFun.
From Verif Require Import PyBase PlotNameModel PlotNameSpec.
Local Open Scope string_scope.

(** * Texts *)
Lemma app_assoc_s a b c : (a ++ b) ++ c = a ++ b ++ c.
Proof. induction a as [|x a IH]; [reflexivity|]. cbn. now rewrite IH. Qed.
Lemma app_nil_s a : a ++ "" = a.
Proof. induction a as [|x a IH]; [reflexivity|]. cbn. now rewrite IH. Qed.
Lemma app_head a b c : a ++ b = a ++ c -> b = c.
Proof. induction a as [|x a IH]; [auto|]. cbn. intros [= E]. auto. Qed.
Lemma app_length_s a b : String.length (a ++ b) = (String.length a + String.length b)%nat.
Proof. induction a as [|x a IH]; [reflexivity|]. cbn. now rewrite IH. Qed.
Lemma app_tail a b c : a ++ c = b ++ c -> a = b.
Proof.
  revert b. induction a as [|x a IH]; intros [|y b] E; [reflexivity| | |].
  - exfalso. apply (f_equal String.length) in E. cbn in E. rewrite app_length_s in E. lia.
  - exfalso. apply (f_equal String.length) in E. cbn in E. rewrite app_length_s in E. lia.
  - cbn in E. injection E as -> E. f_equal. now apply IH.
Qed.
Lemma without_app c a b : without c (a ++ b) <-> without c a /\ without c b.
Proof. induction a as [|x a IH]; cbn; tauto. Qed.

(** * Decimal numbers *)
Fixpoint only (p : ascii -> Prop) (s : string) : Prop := match s with EmptyString => True | String x r => p x /\ only p r end.
Definition is_dig (c : ascii) : Prop := In c (list_ascii_of_string "0123456789").
Lemma uint_only u : only is_dig (NilEmpty.string_of_uint u).
Proof. induction u; cbn; try exact I; (split; [unfold is_dig; cbn; tauto|assumption]). Qed.
Lemma dec_only n : only is_dig (dec n).
Proof. apply uint_only. Qed.
Lemma dec_inj m n : dec m = dec n -> m = n.
Proof.
  unfold dec. intro E. apply (f_equal NilEmpty.uint_of_string) in E. rewrite !NilEmpty.usu in E. injection E as E. now apply Unsigned.to_uint_inj.
Qed.
Lemma dig_not c x : is_dig x -> ~ is_dig c -> x <> c.
Proof. intros D N ->. contradiction. Qed.
Lemma only_without c s : only is_dig s -> ~ is_dig c -> without c s.
Proof. intros O N. induction s as [|x s IH]; [exact I|]. destruct O as [A B]. split; [now apply dig_not|now apply IH]. Qed.
Lemma no_dig c : forallb (fun d => negb (Ascii.eqb c d)) (list_ascii_of_string "0123456789") = true -> ~ is_dig c.
Proof. intros F D. rewrite forallb_forall in F. specialize (F c D). now rewrite Ascii.eqb_refl in F. Qed.
Lemma split_at a b x y : only is_dig a -> only is_dig b -> a ++ "_" ++ x = b ++ "_" ++ y -> a = b.
Proof.
  assert (U : ~ is_dig "_") by (apply no_dig; reflexivity).
  revert b. induction a as [|c a IH]; intros [|d b] A B E; cbn in E.
  - reflexivity.
  - injection E as <- _. destruct B as [B _]. contradiction.
  - injection E as -> _. destruct A as [A _]. contradiction.
  - injection E as -> E. f_equal. apply IH; [apply A|apply B|exact E].
Qed.

(** * clean *)
Lemma clean_app a b : clean (a ++ b) = clean a ++ clean b.
Proof. induction a as [|x a IH]; [reflexivity|]. cbn. destruct (Ascii.eqb x "/"); [cbn; now rewrite IH|]. destruct (Ascii.eqb x " "); [exact IH|cbn; now rewrite IH]. Qed.
Lemma clean_id s : without "/" s -> without " " s -> clean s = s.
Proof. induction s as [|x s IH]; [reflexivity|]. intros [A A'] [B B']. cbn. destruct (Ascii.eqb_spec x "/"); [contradiction|]. destruct (Ascii.eqb_spec x " "); [contradiction|]. now rewrite IH. Qed.
Lemma clean_dec n : clean (dec n) = dec n.
Proof. apply clean_id; apply only_without; try apply dec_only; apply no_dig; reflexivity. Qed.
Lemma clean_no_slash s : without "/" (clean s).
Proof. induction s as [|x s IH]; [exact I|]. cbn. destruct (Ascii.eqb_spec x "/"); [split; [discriminate|exact IH]|]. destruct (Ascii.eqb x " "); [exact IH|now split]. Qed.
Lemma clean_no_blank s : without " " (clean s).
Proof. induction s as [|x s IH]; [exact I|]. cbn. destruct (Ascii.eqb_spec x "/"); [split; [discriminate|exact IH]|]. destruct (Ascii.eqb_spec x " "); [exact IH|now split]. Qed.
Lemma clean_no_percent s : without "%" s -> without "%" (clean s).
Proof. induction s as [|x s IH]; [auto|]. intros [A B]. cbn. destruct (Ascii.eqb_spec x "/"); [split; [discriminate|now apply IH]|]. destruct (Ascii.eqb x " "); [now apply IH|split; [exact A|now apply IH]]. Qed.

(** * percent *)
Lemma format_skip s r t i : without "%" s -> format Plain t i (s ++ r) = rmap (append s) (format Plain t i r).
Proof.
  induction s as [|x s IH]; intro N.
  - cbn [append]. now destruct (format Plain t i r).
  - destruct N as [A B]. cbn [append format]. destruct (Ascii.eqb_spec x "%"); [contradiction|]. rewrite (IH B). now destruct (format Plain t i r).
Qed.
Lemma percent_plain s i : without "%" s -> percent (s ++ "_%d") i = Ok (s ++ "_" ++ dec i).
Proof. intro N. unfold percent. rewrite (format_skip s _ _ _ N). cbn. now rewrite app_nil_s. Qed.

(** * search *)
Lemma used_in_spec used name : used_in used name = true <-> In name used.
Proof. unfold used_in. rewrite existsb_exists. split; [intros (x & I & E); apply String.eqb_eq in E; now subst|intro I; exists name; split; [exact I|apply String.eqb_refl]]. Qed.
Lemma search_fresh fuel used tmp i name r : search fuel used tmp i name = Ok r -> ~ In r used.
Proof.
  revert i name. induction fuel as [|fuel IH]; intros i name E.
  - cbn in E. destruct (used_in used name) eqn:U; [discriminate|]. injection E as <-. intro I. apply used_in_spec in I. congruence.
  - cbn [search] in E. destruct (used_in used name) eqn:U.
    + destruct (percent tmp (S i)) as [n|e] eqn:P; [cbn [bind] in E; now apply IH in E|discriminate].
    + injection E as <-. intro I. apply used_in_spec in I. congruence.
Qed.
(** the names tried in order *)
Definition tried (s : string) (i : nat) : string := s ++ "_" ++ dec i.
Lemma tried_inj s i j : tried s i = tried s j -> i = j.
Proof. unfold tried. intro E. apply app_head in E. apply (app_head "_") in E. now apply dec_inj. Qed.
Lemma search_err fuel used s i name e : without "%" s -> search fuel used (s ++ "_%d") i name = Err e ->
  e = Diverges /\ In name used /\ forall k, (1 <= k <= fuel)%nat -> In (tried s (i + k)) used.
Proof.
  intro N. revert i name. induction fuel as [|fuel IH]; intros i name E; cbn [search] in E.
  - destruct (used_in used name) eqn:U; [|discriminate]. injection E as <-. apply used_in_spec in U. repeat split; [exact U|intros k K; lia].
  - destruct (used_in used name) eqn:U; [|discriminate]. apply used_in_spec in U. rewrite percent_plain in E by exact N. cbn [bind] in E. destruct (IH _ _ E) as (-> & A & B). repeat split; [exact U|]. intros k K. destruct (Nat.eq_dec k 1) as [->|]; [now replace (i + 1)%nat with (S i) by lia|]. replace (i + k)%nat with (S i + (k - 1))%nat by lia. apply B. lia.
Qed.
Lemma search_total used s name : without "%" s -> exists r, search (S (length used)) used (s ++ "_%d") 0 name = Ok r.
Proof.
  intro N. destruct (search (S (length used)) used (s ++ "_%d") 0 name) as [r|e] eqn:E; [now exists r|]. exfalso. destruct (search_err _ _ _ _ _ _ N E) as (_ & _ & B).
  assert (L : incl (map (tried s) (seq 1 (S (length used)))) used). { intros x I. apply in_map_iff in I. destruct I as (k & <- & K). apply in_seq in K. apply (B k). lia. }
  assert (D : NoDup (map (tried s) (seq 1 (S (length used))))). { apply Injective_map_NoDup; [|apply seq_NoDup]. intros x y. apply tried_inj. }
  pose proof (NoDup_incl_length D L) as Q. rewrite map_length, seq_length in Q. lia.
Qed.
Lemma search_form fuel used s i name r : without "%" s -> search fuel used (s ++ "_%d") i name = Ok r -> r = name \/ exists k, r = tried s k.
Proof.
  intro N. revert i name. induction fuel as [|fuel IH]; intros i name E; cbn [search] in E.
  - destruct (used_in used name); [discriminate|]. injection E as <-. now left.
  - destruct (used_in used name); [|injection E as <-; now left]. rewrite percent_plain in E by exact N. cbn [bind] in E. right. destruct (IH _ _ E) as [-> | (k & ->)]; eexists; reflexivity.
Qed.
Lemma search_first fuel used tmp name : ~ In name used -> search fuel used tmp 0 name = Ok name.
Proof. intro N. assert (U : used_in used name = false) by (destruct (used_in used name) eqn:U; [apply used_in_spec in U; contradiction|reflexivity]). destruct fuel; cbn; now rewrite U. Qed.

(** * savename *)
Lemma savename_cases a key ext used : 
  (exists n, ~ In n used /\ search (S (length used)) used (base_name a used key ++ "_%d") 0 (base_name a used key) = Ok n /\ savename a key ext used = ((used ++ [n])%list, Ok (n ++ "." ++ extension a ext)))
  \/ exists e, savename a key ext used = (used, Err e).
Proof.
  unfold savename. destruct (search _ _ _ _ _) as [n|e] eqn:E; [left; exists n; split; [exact (search_fresh _ _ _ _ _ _ E)|now split]|right; now exists e].
Qed.
Lemma nodup_snoc (l : list string) n : NoDup l -> ~ In n l -> NoDup (l ++ [n]).
Proof.
  intros D N. induction D as [|x l I D IH]; [repeat constructor; auto|]. cbn. constructor.
  - intro J. apply in_app_iff in J. destruct J as [J|[<-|[]]]; [contradiction|]. apply N. now left.
  - apply IH. intro J. apply N. now right.
Qed.
Lemma used_distinct calls used : NoDup used -> NoDup (used_after calls used).
Proof.
  revert used. induction calls as [|[a [key ext]] calls IH]; intros used D; [exact D|]. cbn. apply IH. destruct (savename_cases a key ext used) as [(n & F & _ & ->)|(e & ->)]; cbn; [now apply nodup_snoc|exact D].
Qed.
Lemma used_count calls used : length (used_after calls used) = (length used + length (filter is_file (saved calls used)))%nat.
Proof.
  revert used. induction calls as [|[a [key ext]] calls IH]; intros used; [cbn; lia|]. cbn [used_after fold_left saved fst snd]. change (fold_left _ calls ?u) with (used_after calls u). rewrite IH. destruct (savename_cases a key ext used) as [(n & F & _ & ->)|(e & ->)]; cbn [fst filter is_file length]; [rewrite app_length; cbn|]; lia.
Qed.
(** a file made later is made of a name which was not used before *)
Lemma saved_in calls used i f e : Forall (fun c => extension (fst c) (snd (snd c)) = e) calls -> nth_error (saved calls used) i = Some (Ok f) -> exists n, f = n ++ "." ++ e /\ ~ In n used.
Proof.
  revert used i. induction calls as [|[a [key ext]] calls IH]; intros used i F E; [now destruct i|]. inversion F as [|? ? X Y]; subst. cbn [saved fst snd] in *. destruct (savename_cases a key ext used) as [(n & N & _ & Q)|(x & Q)]; rewrite Q in E.
  - destruct i as [|i]; cbn in E; [injection E as <-; now exists n|]. destruct (IH _ _ Y E) as (m & -> & M). exists m. split; [reflexivity|]. intro I. apply M, in_app_iff. now left.
  - destruct i as [|i]; cbn in E; [discriminate|]. exact (IH _ _ Y E).
Qed.
Lemma files_ext calls used e : Forall (fun c => extension (fst c) (snd (snd c)) = e) calls -> distinct_files (saved calls used).
Proof.
  revert used. induction calls as [|[a [key ext]] calls IH]; intros used F i j f Ei Ej; [now destruct i|]. inversion F as [|? ? X Y]; subst. cbn [saved fst snd] in *. destruct (savename_cases a key ext used) as [(n & N & _ & Q)|(x & Q)]; rewrite Q in Ei, Ej.
  - destruct i as [|i], j as [|j]; cbn in Ei, Ej; [reflexivity| | |].
    + injection Ei as <-. destruct (saved_in _ _ _ _ _ Y Ej) as (m & E & M). exfalso. apply app_tail in E. subst m. apply M, in_app_iff. right. now left.
    + injection Ej as <-. destruct (saved_in _ _ _ _ _ Y Ei) as (m & E & M). exfalso. apply app_tail in E. subst m. apply M, in_app_iff. right. now left.
    + f_equal. exact (IH _ Y _ _ _ Ei Ej).
  - destruct i as [|i], j as [|j]; cbn in Ei, Ej; try discriminate. f_equal. exact (IH _ Y _ _ _ Ei Ej).
Qed.
Lemma files_same calls e : Forall (fun c => snd (snd c) = None /\ p_ext (fst c) = e) calls -> distinct_files (saved calls []).
Proof. intro F. apply (files_ext calls [] e). eapply Forall_impl; [|exact F]. intros c [A B]. unfold extension. now rewrite A. Qed.

(** * a plotter whose attributes stay the same *)
Definition stem (a : attrs) : string := p_outdir a ++ clean (project a) ++ "_" ++ clean (p_reader a) ++ "_".
Lemma base_form a used key : base_name a used key = stem a ++ dec (length used) ++ "_" ++ clean key.
Proof. unfold base_name, stem. rewrite !clean_app, clean_dec, !app_assoc_s. reflexivity. Qed.
Definition counted (a : attrs) (used : list string) : Prop := forall j n, nth_error used j = Some n -> exists k, n = stem a ++ dec j ++ "_" ++ k.
Lemma counted_fresh a used key : counted a used -> ~ In (base_name a used key) used.
Proof.
  intros C I. apply In_nth_error in I. destruct I as (j & J). destruct (C j _ J) as (k & E). rewrite base_form in E. apply app_head in E. apply split_at in E; try apply dec_only. apply dec_inj in E. subst j. assert (nth_error used (length used) <> None) by congruence. apply nth_error_Some in H. lia.
Qed.
Lemma counted_next a used key : counted a used -> counted a (used ++ [base_name a used key]).
Proof.
  intros C j n E. destruct (Nat.lt_ge_cases j (length used)) as [L|G].
  - rewrite nth_error_app1 in E by exact L. now apply C.
  - rewrite nth_error_app2 in E by exact G. destruct (j - length used)%nat as [|d] eqn:D; [|now destruct d]. cbn in E. injection E as <-. exists (clean key). rewrite base_form. now replace j with (length used) by lia.
Qed.
Lemma savename_fixed a key ext used : counted a used -> savename a key ext used = ((used ++ [base_name a used key])%list, Ok (base_name a used key ++ "." ++ extension a ext)).
Proof. intro C. unfold savename. now rewrite search_first by now apply counted_fresh. Qed.
Lemma saved_fixed a calls used i c : counted a used -> nth_error calls i = Some c ->
  nth_error (saved (map (pair a) calls) used) i = Some (Ok (stem a ++ dec (length used + i) ++ "_" ++ clean (fst c) ++ "." ++ extension a (snd c))).
Proof.
  revert used i. induction calls as [|[key ext] calls IH]; intros used i C E; [now destruct i|]. cbn [map saved]. rewrite (savename_fixed a key ext used C). destruct i as [|i]; cbn [nth_error] in *.
  - injection E as <-. cbn [fst snd]. rewrite base_form, Nat.add_0_r, !app_assoc_s. reflexivity.
  - rewrite (IH _ _ (counted_next a used key C) E). rewrite app_length. cbn [length]. do 4 f_equal. f_equal. lia.
Qed.
Lemma saved_length calls used : length (saved calls used) = length calls.
Proof. revert used. induction calls as [|[a [key ext]] calls IH]; intro used; [reflexivity|]. cbn [saved]. destruct (savename a key ext used). cbn. now rewrite IH. Qed.
Lemma counted_nil a : counted a [].
Proof. intros [|j] n E; discriminate. Qed.
Lemma files_fixed a calls : Forall (fun r => exists f, r = Ok f) (saved (map (pair a) calls) []) /\ distinct_files (saved (map (pair a) calls) []).
Proof.
  split.
  - apply Forall_forall. intros r I. apply In_nth_error in I. destruct I as (i & E). assert (L : (i < length calls)%nat). { assert (nth_error (saved (map (pair a) calls) []) i <> None) as H by congruence. apply nth_error_Some in H. now rewrite saved_length, map_length in H. } destruct (nth_error calls i) as [c|] eqn:Q; [|apply nth_error_None in Q; lia]. rewrite (saved_fixed a calls [] i c (counted_nil a) Q) in E. injection E as <-. now eexists.
  - intros i j f Ei Ej. assert (B : forall i, nth_error (saved (map (pair a) calls) []) i = Some (Ok f) -> exists c, f = stem a ++ dec i ++ "_" ++ c).
    { intros k E. assert (L : (k < length calls)%nat). { assert (nth_error (saved (map (pair a) calls) []) k <> None) as H by congruence. apply nth_error_Some in H. now rewrite saved_length, map_length in H. } destruct (nth_error calls k) as [c|] eqn:Q; [|apply nth_error_None in Q; lia]. rewrite (saved_fixed a calls [] k c (counted_nil a) Q) in E. injection E as <-. now eexists. }
    destruct (B i Ei) as (x & Ex). destruct (B j Ej) as (y & Ey). rewrite Ex in Ey. apply app_head in Ey. apply split_at in Ey; try apply dec_only. now apply dec_inj.
Qed.
(** the i-th name of a plotter whose attributes stay the same *)
Lemma file_fixed a calls i key ext : nth_error calls i = Some (key, ext) -> exists f, nth_error (saved (map (pair a) calls) []) i = Some (Ok f) /\ file_in (p_outdir a) (extension a ext) f.
Proof.
  intro E. rewrite (saved_fixed a calls [] i _ (counted_nil a) E). cbn [fst snd length Nat.add]. eexists. split; [reflexivity|]. unfold stem. exists (clean (project a) ++ "_" ++ clean (p_reader a) ++ "_" ++ dec i ++ "_" ++ clean key). split; [now rewrite !app_assoc_s|].
  split; rewrite !without_app; repeat split; try apply clean_no_slash; try apply clean_no_blank; try (cbn; repeat split; discriminate); apply only_without; try apply dec_only; apply no_dig; reflexivity.
Qed.

(** * any attributes, but no percent sign *)
Lemma base_plain a used key : plain_names a key -> without "%" (base_name a used key).
Proof.
  intros (A & B & C & D). rewrite base_form. unfold stem. rewrite !without_app. repeat split; try assumption; try (now apply clean_no_percent); try (cbn; repeat split; discriminate). apply only_without; [apply dec_only|apply no_dig; reflexivity].
Qed.
Lemma savename_plain a key ext used : plain_names a key -> exists n, savename a key ext used = ((used ++ [n])%list, Ok (n ++ "." ++ extension a ext)) /\ ~ In n used /\ file_in (p_outdir a) (extension a ext) (n ++ "." ++ extension a ext).
Proof.
  intro P. assert (N := base_plain a used key P). destruct (search_total used (base_name a used key) (base_name a used key) N) as (n & E). exists n. unfold savename. rewrite E. split; [reflexivity|]. split; [exact (search_fresh _ _ _ _ _ _ E)|].
  assert (G : exists t, n = p_outdir a ++ clean t).
  { destruct (search_form _ _ _ _ _ _ N E) as [-> | (k & ->)]; [now eexists|]. unfold tried, base_name. exists ((project a ++ "_" ++ p_reader a ++ "_" ++ dec (length used) ++ "_" ++ key) ++ "_" ++ dec k). rewrite (clean_app (_ ++ _ ++ _ ++ _ ++ _)), (clean_app "_"), clean_dec, app_assoc_s. reflexivity. }
  destruct G as (t & ->). exists (clean t). split; [now rewrite app_assoc_s|]. split; [apply clean_no_slash|apply clean_no_blank].
Qed.
(** * lastsavename *)
Lemma last_is a key ext used used' f b : savename a key ext used = (used', Ok f) -> exists n, lastsavename b used' = (used', Ok n) /\ f = n ++ "." ++ extension a ext.
Proof.
  intro E. destruct (savename_cases a key ext used) as [(n & _ & _ & Q)|(e & Q)]; rewrite Q in E; [|discriminate]. injection E as <- <-. exists n. unfold lastsavename. rewrite rev_app_distr. now split.
Qed.
Lemma last_first a key : fst (lastsavename a []) = fst (savename a "lastsavename" None []) /\ exists n, snd (lastsavename a []) = Ok (n ++ "." ++ p_ext a) /\ lastsavename a (fst (lastsavename a [])) = (fst (lastsavename a []), Ok n) /\ n <> key ++ n ++ "." ++ p_ext a.
Proof.
  split; [reflexivity|]. unfold lastsavename at 1 2 3 4. cbn [rev]. rewrite (savename_fixed a _ _ [] (counted_nil a)). cbn [app fst snd extension]. eexists. split; [reflexivity|]. split; [reflexivity|].
  intro E. apply (f_equal String.length) in E. rewrite !app_length_s in E. cbn in E. lia.
Qed.
Lemma last_first_case a : exists f n, snd (lastsavename a []) = Ok f /\ snd (lastsavename a (fst (lastsavename a []))) = Ok n /\ f = n ++ "." ++ p_ext a /\ f <> n.
Proof.
  destruct (last_first a "") as (_ & n & E1 & E2 & D). exists (n ++ "." ++ p_ext a), n. split; [exact E1|]. split; [now rewrite E2|]. split; [reflexivity|]. intro C. apply D. cbn. now symmetry.
Qed.
