(** Facts about what dumps list. *)
From Coq Require Import Ascii Sorting Permutation Lia.
From Verif Require Import PyBase PyBaseFacts NdModel NdFacts NumpyModel ReaderModel ReaderFacts IoModel ListModel ListSpec.
Local Open Scope string_scope.

(** * Characters *)
Lemma letters_dec c : is_word c = existsb (Ascii.eqb c) letters.
Proof. destruct c as [[] [] [] [] [] [] [] []]; reflexivity. Qed.
Lemma existsb_in c l : existsb (Ascii.eqb c) l = true <-> In c l.
Proof. rewrite existsb_exists. split; [intros (x & I & E); apply Ascii.eqb_eq in E; now subst|intros I; exists c; split; [exact I|apply Ascii.eqb_refl]]. Qed.
Lemma word_in c : is_word c = true <-> In c letters.
Proof. rewrite letters_dec. apply existsb_in. Qed.
Lemma name_in c : is_name c = true <-> In c ("-"%char :: letters).
Proof. unfold is_name. rewrite Bool.orb_true_iff, word_in, Ascii.eqb_eq. cbn [In]. intuition congruence. Qed.
Lemma derived_in c : is_derived c = true <-> In c ("/"%char :: " "%char :: letters).
Proof. unfold is_derived. rewrite !Bool.orb_true_iff, word_in, !Ascii.eqb_eq. cbn [In]. intuition congruence. Qed.
Definition all (p : ascii -> bool) (s : string) : Prop := forall c, In c (chars s) -> p c = true.
Lemma chars_app a b : chars (a ++ b) = (chars a ++ chars b)%list.
Proof. induction a as [|c a IH]; [reflexivity|]. cbn. now rewrite IH. Qed.
Lemma app_assoc a b c : (a ++ b) ++ c = a ++ b ++ c.
Proof. induction a as [|x a IH]; [reflexivity|]. cbn. now rewrite IH. Qed.
Lemma app_nil a : a ++ "" = a.
Proof. induction a as [|x a IH]; [reflexivity|]. cbn. now rewrite IH. Qed.
Lemma app_inj a b c : a ++ b = a ++ c -> b = c.
Proof. induction a as [|x a IH]; [auto|]. cbn. intros H. injection H. exact IH. Qed.
Lemma app_len a b : String.length (a ++ b) = (String.length a + String.length b)%nat.
Proof. induction a as [|x a IH]; [reflexivity|]. cbn. now rewrite IH. Qed.
Lemma same_start a b c d : String.length a = String.length b -> a ++ c = b ++ d -> a = b.
Proof. revert b. induction a as [|x a IH]; intros [|y b] L E; try discriminate L; [reflexivity|]. cbn in E. injection E. injection L. intros L' E' ->. f_equal. now apply IH. Qed.
(** * run and strip *)
Lemma run_spec p s : s = fst (run p s) ++ snd (run p s) /\ all p (fst (run p s)).
Proof.
  induction s as [|c s [IH A]]; cbn; [split; [reflexivity|intros c []]|]. destruct (p c) eqn:E; cbn.
  - destruct (run p s) as [a b]. cbn [fst snd append] in *. split; [now rewrite <- IH|]. intros d [->|I]; [exact E|now apply A].
  - split; [reflexivity|intros d []].
Qed.
Lemma run_app p a r : all p a -> run p (a ++ r) = (a ++ fst (run p r), snd (run p r)).
Proof.
  induction a as [|c a IH]; intros A; cbn; [now destruct (run p r)|]. rewrite (A c (or_introl eq_refl)). rewrite IH by (intros d I; apply A; now right). reflexivity.
Qed.
Lemma strip_eq p s r : strip p s = Some r <-> s = p ++ r.
Proof.
  revert s. induction p as [|a p IH]; intros s; cbn; [split; congruence|]. destruct s as [|b s]; [split; discriminate|].
  destruct (Ascii.eqb a b) eqn:E.
  - apply Ascii.eqb_eq in E. subst b. rewrite IH. split; [now intros ->|intros H; now injection H].
  - split; [discriminate|]. intros H. injection H. intros _ ->. now rewrite Ascii.eqb_refl in E.
Qed.
Lemma strip_app p r : strip p (p ++ r) = Some r.
Proof. now apply strip_eq. Qed.
Lemma prefix_strip p s : String.prefix p s = true <-> exists r, strip p s = Some r.
Proof.
  revert s. induction p as [|a p IH]; intros s; cbn; [split; [intros _; now exists s|now destruct s]|]. destruct s as [|b s]; [split; [discriminate|intros [r H]; discriminate H]|].
  destruct (ascii_dec a b) as [<-|N].
  - rewrite Ascii.eqb_refl. rewrite <- IH. change (String.prefix (String a p) (String a s)) with (if ascii_dec a a then String.prefix p s else false). destruct (ascii_dec a a) as [_|N]; [reflexivity|destruct (N eq_refl)].
  - assert (E : Ascii.eqb a b = false) by now apply Ascii.eqb_neq. rewrite E. change (String.prefix (String a p) (String b s)) with (if ascii_dec a b then String.prefix p s else false). destruct (ascii_dec a b) as [->|_]; [now elim N|]. split; [discriminate|intros [r H]; discriminate H].
Qed.
Lemma prefix_app p s : String.prefix p s = true <-> exists r, s = p ++ r.
Proof. rewrite prefix_strip. split; intros [r H]; exists r; now apply strip_eq. Qed.
(** * Names of species *)
Lemma text_all l p s : (forall c, p c = true <-> In c l) -> (text_of l s <-> s <> "" /\ all p s).
Proof. intros H. unfold text_of, all. split; intros [N A]; (split; [exact N|]); intros c I; apply H; now apply A. Qed.
Lemma word_all s : word s <-> s <> "" /\ all is_word s.
Proof. apply text_all, word_in. Qed.
Lemma part_all s : part s <-> s <> "" /\ all is_name s.
Proof. apply text_all, name_in. Qed.
Definition tail_of (x : string) : option string :=
  let (a, r) := run is_name x in
  if String.eqb a "" then None
  else match strip "/" r with
       | None => Some a
       | Some r => let (b, _) := run is_name r in if String.eqb b "" then Some a else Some (a ++ "/" ++ b)
       end.
Lemma tail_sound x t : tail_of x = Some t -> species_name t /\ exists r, x = t ++ r.
Proof.
  unfold tail_of. destruct (run_spec is_name x) as [E A]. destruct (run is_name x) as [a r]. cbn [fst snd] in E, A. destruct (String.eqb a "") eqn:N; [discriminate|]. apply String.eqb_neq in N.
  assert (P : part a) by (apply part_all; now split).
  destruct (strip "/" r) as [r'|] eqn:S.
  - apply strip_eq in S. destruct (run_spec is_name r') as [E' A']. destruct (run is_name r') as [b r'']. cbn [fst snd] in E', A'. destruct (String.eqb b "") eqn:N'.
    + intros H. injection H. intros <-. split; [now left|]. now exists r.
    + apply String.eqb_neq in N'. intros H. injection H. intros <-. split; [right; exists a, b; repeat split; try apply P; try exact N'; intros c I; apply name_in; now apply A'|].
      exists r''. rewrite E, S, E'. now rewrite !app_assoc.
  - intros H. injection H. intros <-. split; [now left|]. now exists r.
Qed.
Lemma tail_longest s r : species_name s -> exists t, tail_of (s ++ r) = Some t /\ (String.length s <= String.length t)%nat.
Proof.
  intros [P|(a & b & Pa & Pb & ->)]; unfold tail_of.
  - apply part_all in P. destruct P as [N A]. rewrite run_app by exact A. destruct (String.eqb (s ++ fst (run is_name r)) "") eqn:E.
    { apply String.eqb_eq in E. destruct s; [congruence|discriminate E]. }
    destruct (strip "/" (snd (run is_name r))) as [r'|]; [destruct (run is_name r') as [b q]; destruct (String.eqb b "")|]; eexists; (split; [reflexivity|]); rewrite !app_len; lia.
  - apply part_all in Pa, Pb. destruct Pa as [Na Aa], Pb as [Nb Ab]. rewrite !app_assoc. rewrite run_app by exact Aa. cbn [run append]. replace (is_name "/") with false by reflexivity. cbn [fst snd]. rewrite app_nil.
    destruct (String.eqb a "") eqn:E; [apply String.eqb_eq in E; congruence|]. cbn [strip]. rewrite Ascii.eqb_refl. rewrite run_app by exact Ab.
    destruct (String.eqb (b ++ fst (run is_name r)) "") eqn:E'. { apply String.eqb_eq in E'. destruct b; [congruence|discriminate E']. }
    eexists; split; [reflexivity|]. rewrite !app_len. cbn [String.length]. rewrite app_len. lia.
Qed.
Lemma species_of_word w x : word w -> species_of ("Particles/" ++ w ++ "/" ++ x) = tail_of x.
Proof.
  intros W. apply word_all in W. destruct W as [N A]. unfold species_of. rewrite strip_app. rewrite run_app by exact A. cbn [run append]. replace (is_word "/") with false by reflexivity. cbn [fst snd]. rewrite app_nil.
  destruct (String.eqb w "") eqn:E; [apply String.eqb_eq in E; congruence|]. cbn [strip]. rewrite Ascii.eqb_refl. reflexivity.
Qed.
Lemma species_of_inv key s : species_of key = Some s -> exists w x, word w /\ key = "Particles/" ++ w ++ "/" ++ x.
Proof.
  unfold species_of. destruct (strip "Particles/" key) as [r|] eqn:E; [|discriminate]. apply strip_eq in E. destruct (run_spec is_word r) as [E' A]. destruct (run is_word r) as [w q]. cbn [fst snd] in E', A.
  destruct (String.eqb w "") eqn:N; [discriminate|]. apply String.eqb_neq in N. destruct (strip "/" q) as [x|] eqn:S; [|discriminate]. intros _. apply strip_eq in S. exists w, x. split; [apply word_all; now split|].
  rewrite E, E', S. reflexivity.
Qed.
Lemma same_word w w' x x' : word w -> word w' -> "Particles/" ++ w ++ "/" ++ x = "Particles/" ++ w' ++ "/" ++ x' -> x = x'.
Proof.
  intros W W' E. apply word_all in W, W'. destruct W as [_ A], W' as [_ A']. apply app_inj in E. apply (f_equal (fun s => snd (run is_word s))) in E. rewrite (run_app _ w), (run_app _ w') in E by assumption. cbn [run append] in E. replace (is_word "/") with false in E by reflexivity. cbn [fst snd] in E. injection E. auto.
Qed.
Lemma species_of_named key s : species_of key = Some s <-> named key s.
Proof.
  assert (L : forall t, fits key t -> exists u, species_of key = Some u /\ (String.length t <= String.length u)%nat).
  { intros t (w & r & W & P & ->). rewrite species_of_word by exact W. now apply tail_longest. }
  assert (F : forall t, species_of key = Some t -> fits key t).
  { intros t H. destruct (species_of_inv _ _ H) as (w & x & W & ->). rewrite species_of_word in H by exact W. destruct (tail_sound _ _ H) as [P [r ->]]. now exists w, r. }
  split.
  - intros H. split; [now apply F|]. intros s' H'. destruct (L _ H') as (u & U & Le). congruence.
  - intros [H M]. destruct (L _ H) as (u & U & Le). specialize (M u (F _ U)). rewrite U. f_equal.
    destruct (F _ U) as (w & r & W & _ & E). destruct H as (w' & r' & W' & _ & E'). rewrite E' in E. apply same_word in E; [|assumption..].
    symmetry in E. apply same_start in E; [exact E|lia].
Qed.
Lemma named_self q s : word q -> species_name s -> named (particle_key q s) s.
Proof.
  intros W P. unfold particle_key. split; [exists q, ""; split; [exact W|]; split; [exact P|]; now rewrite app_nil|].
  intros s' (w & r & W' & _ & E). apply same_word in E; [|assumption..]. subst s. rewrite app_len. lia.
Qed.
(** * Lists *)
Lemma in_somes {X} (l : list (option X)) x : In x (somes l) <-> In (Some x) l.
Proof. induction l as [|[y|] l IH]; cbn; [reflexivity| |]; rewrite IH; intuition congruence. Qed.
Lemma increasing_of l : ascending l -> NoDup l -> increasing l.
Proof.
  induction 1 as [|x l S IH F]; intros N; [constructor|]. inversion N as [|? ? NI N']; subst. constructor; [now apply IH|].
  rewrite Forall_forall in *. intros y I. specialize (F y I). unfold lt_str. destruct (String.compare x y) eqn:E; [|reflexivity|congruence]. apply String.compare_eq_iff in E. now subst.
Qed.
Lemma list_species_increasing keys : increasing (list_species keys).
Proof.
  unfold list_species. apply increasing_of; [apply sort_str_sorted|]. eapply Permutation_NoDup; [symmetry; apply sort_str_perm|]. apply NoDup_nodup.
Qed.
Lemma list_species_in keys s : In s (list_species keys) <-> exists key, In key keys /\ named key s.
Proof.
  unfold list_species. transitivity (In s (nodup string_dec (somes (map species_of keys)))).
  { split; apply Permutation_in; [|symmetry]; apply sort_str_perm. }
  rewrite nodup_In, in_somes, in_map_iff. split; intros (k & H); exists k; rewrite <- species_of_named in *; tauto.
Qed.
Lemma lt_irrefl x : ~ lt_str x x.
Proof. unfold lt_str. rewrite cmp_refl. discriminate. Qed.
Lemma lt_trans x y z : lt_str x y -> lt_str y z -> lt_str x z.
Proof. unfold lt_str. apply cmp_trans. Qed.
Lemma increasing_eq l : forall m, increasing l -> increasing m -> (forall x, In x l <-> In x m) -> l = m.
Proof.
  induction l as [|x l IH]; intros m S1 S2 H.
  - destruct m as [|y m]; [reflexivity|]. exfalso. apply (H y). now left.
  - destruct m as [|y m]; [exfalso; apply (H x); now left|]. inversion S1 as [|? ? S1' F1]; inversion S2 as [|? ? S2' F2]; subst. rewrite Forall_forall in F1, F2.
    assert (E : x = y).
    { destruct (proj1 (H x) (or_introl eq_refl)) as [->|I]; [reflexivity|]. destruct (proj2 (H y) (or_introl eq_refl)) as [->|J]; [reflexivity|].
      exfalso. apply (lt_irrefl x). exact (lt_trans _ _ _ (F1 y J) (F2 x I)). }
    subst y. f_equal. apply IH; [assumption..|]. intros z. split; intros I.
    + destruct (proj1 (H z) (or_intror I)) as [<-|J]; [exfalso; now apply (lt_irrefl x), F1|exact J].
    + destruct (proj2 (H z) (or_intror I)) as [<-|J]; [exfalso; now apply (lt_irrefl x), F2|exact J].
Qed.
Lemma list_species_set keys keys' : (forall k, In k keys <-> In k keys') -> list_species keys = list_species keys'.
Proof.
  intros H. apply increasing_eq; [apply list_species_increasing..|]. intros x. rewrite !list_species_in. split; intros (k & I & N); exists k; (split; [now apply H|exact N]).
Qed.
Lemma list_species_sound keys species : sound_keys keys species -> forall s, In s (list_species keys) <-> In s species.
Proof.
  intros [A B] s. rewrite list_species_in. split.
  - intros (k & I & N). destruct N as [F M]. destruct (B k I) as (q & s' & W & I' & ->).
    { destruct F as (w & r & _ & _ & ->). apply prefix_app. now eexists. }
    destruct (A s' I') as [P _]. assert (N' := named_self q s' W P). apply species_of_named in N'. assert (N : named (particle_key q s') s) by now split. apply species_of_named in N. congruence.
  - intros I. destruct (A s I) as [P (q & W & K)]. exists (particle_key q s). split; [exact K|now apply named_self].
Qed.
(** * Derived quantities *)
Lemma derived_of_some k d : derived_of k = Some d <-> exists r, k = "Derived/" ++ r /\ d = "Derived/" ++ fst (run is_derived r).
Proof.
  unfold derived_of. destruct (strip "Derived/" k) as [r|] eqn:E.
  - apply strip_eq in E. subst k. split; [intros H; injection H; intros <-; now exists r|]. intros (r' & E & ->). apply app_inj in E. now subst.
  - split; [discriminate|]. intros (r & -> & _). rewrite strip_app in E. discriminate E.
Qed.
Lemma derived_of_clean k : clean_derived k -> derived_of k = Some k.
Proof.
  intros (s & -> & A). apply derived_of_some. exists s. split; [reflexivity|]. f_equal. rewrite <- (app_nil s) at 2. rewrite run_app by (intros c I; apply derived_in; now apply A). cbn [run fst]. now rewrite app_nil.
Qed.
Lemma list_derived_ascending keys : ascending (list_derived keys).
Proof. apply sort_str_sorted. Qed.
Lemma list_derived_in keys d : In d (list_derived keys) <-> In (Some d) (map derived_of keys).
Proof. unfold list_derived. rewrite <- in_somes. split; apply Permutation_in; [|symmetry]; apply sort_str_perm. Qed.
Lemma list_derived_start keys d : In d (list_derived keys) -> exists k r, In k keys /\ k = d ++ r /\ clean_derived d.
Proof.
  rewrite list_derived_in, in_map_iff. intros (k & E & I). apply derived_of_some in E. destruct E as (r & -> & ->). destruct (run_spec is_derived r) as [E A].
  exists ("Derived/" ++ r), (snd (run is_derived r)). split; [exact I|]. split; [rewrite app_assoc, <- E; reflexivity|]. exists (fst (run is_derived r)). split; [reflexivity|]. intros c J. apply derived_in. now apply A.
Qed.
Lemma list_derived_all keys : (forall k, In k keys -> String.prefix "Derived/" k = true -> clean_derived k) ->
  Permutation (list_derived keys) (filter (String.prefix "Derived/") keys).
Proof.
  intros H. unfold list_derived. rewrite sort_str_perm. induction keys as [|k keys IH]; [reflexivity|]. cbn [map somes filter].
  assert (IH' := IH (fun k I => H k (or_intror I))). destruct (String.prefix "Derived/" k) eqn:E.
  - rewrite derived_of_clean by (apply H; [now left|exact E]). now constructor.
  - destruct (derived_of k) as [d|] eqn:D; [|exact IH']. apply derived_of_some in D. destruct D as (r & -> & _). assert (T : String.prefix "Derived/" ("Derived/" ++ r) = true) by (apply prefix_app; now exists r). congruence.
Qed.
Lemma pmd_derived_in names x : In x (pmd_derived names) <-> exists n, In (n, true) names /\ (forall r, n <> "E" ++ r) /\ (forall r, n <> "B" ++ r) /\ x = "fields/" ++ n.
Proof.
  unfold pmd_derived. transitivity (In x (map (fun n : string * bool => "fields/" ++ fst n) (filter (fun n => negb (String.prefix "E" (fst n) || String.prefix "B" (fst n)) && snd n) names))).
  { split; apply Permutation_in; [|symmetry]; apply sort_str_perm. }
  rewrite in_map_iff. split.
  - intros ([n v] & <- & I). apply filter_In in I. cbn [fst snd] in *. destruct I as [I C]. apply andb_prop in C. destruct C as [C ->]. apply Bool.negb_true_iff, Bool.orb_false_iff in C. destruct C as [C1 C2].
    exists n. repeat split; [exact I| |]; intros r ->; [assert (T : String.prefix "E" ("E" ++ r) = true)|assert (T : String.prefix "B" ("B" ++ r) = true)]; try (apply prefix_app; now exists r); congruence.
  - intros (n & I & E & B & ->). exists (n, true). split; [reflexivity|]. apply filter_In. split; [exact I|]. cbn [fst snd]. rewrite Bool.andb_true_r. apply Bool.negb_true_iff, Bool.orb_false_iff.
    split; apply Bool.not_true_is_false; intros T; apply prefix_app in T; destruct T as [r ->]; [now apply (E r)|now apply (B r)].
Qed.
Lemma pmd_derived_ascending names : ascending (pmd_derived names).
Proof. apply sort_str_sorted. Qed.
Lemma pmd_derived_none names : (forall n, In n names -> snd n = false) -> pmd_derived names = [].
Proof.
  intros H. destruct (pmd_derived names) as [|x l] eqn:E; [reflexivity|]. assert (I : In x (pmd_derived names)) by (rewrite E; now left). apply pmd_derived_in in I. destruct I as (n & I & _). specialize (H _ I). discriminate H.
Qed.
(** * Reading *)
Lemma lookup_error {A} (d : list (akey * A)) k e : lookup d k = Err e -> e = KeyError.
Proof. induction d as [|[k' v] d IH]; cbn; [congruence|]. destruct (akey_eqb k k'); [discriminate|exact IH]. Qed.
Lemma getidx_error {A} (l : list A) i e : getidx l i = Err e -> e = IndexError.
Proof. unfold getidx. destruct (_ && _)%bool; [|congruence]. destruct (nth_error _ _); congruence. Qed.
Lemma get_species_errors {X} scalar (grid : string -> res (list X)) s a e :
  (forall k e, scalar k = Err e -> e = KeyError) -> (forall k e, grid k = Err e -> e = KeyError) -> get_species scalar grid s a = Err e -> e = KeyError.
Proof.
  intros S G. unfold get_species. destruct (attribid a) as [id|e'] eqn:A; cbn [bind].
  - destruct (assoc scalars id) as [w|].
    + destruct (scalar _) as [x|e'] eqn:E; [discriminate|]. specialize (S _ _ E). subst e'. intros H. now injection H.
    + destruct ((0 <=? id) && (id <=? 2))%Z; [|intros H; now injection H]. destruct (grid _) as [l|e'] eqn:E; cbn [bind].
      * destruct (getidx l id) as [x|e''] eqn:E'; [discriminate|]. rewrite (getidx_error _ _ _ E'). intros H; now injection H.
      * specialize (G _ _ E). subst e'. intros H. now injection H.
  - intros H. injection H. intros ->. exact (lookup_error _ _ _ A).
Qed.
