(** identifyspecies on names of the grammar. *)
From Coq Require Import Ascii String List Lia QArith Qfield.
From Verif Require Import PyBase PyBaseFacts SpeciesModel SpeciesSpec SpeciesFacts SpeciesTotal.
Open Scope string_scope.
Open Scope list_scope.

Lemma get_app {A} k (l : list (string * A)) n v : dict_get k (l ++ [(n, v)]) = if String.eqb k n then Some v else dict_get k l.
Proof. induction l as [|[n' v'] l IH]; cbn [app dict_get]; [destruct (String.eqb k n); reflexivity|]. rewrite IH. destruct (String.eqb k n); reflexivity. Qed.
Lemma get_put k n v d : dict_get k (put n v d) = if String.eqb k n then Some v else dict_get k d.
Proof. apply get_app. Qed.
(** ** Separators *)
Definition joined (ps : list (chars * bool)) : chars := List.concat (map (fun p : chars * bool => fst p ++ ["_"%char]) ps).
Lemma no_slash_id w : Forall (fun x => x <> "/"%char) w -> replace_char "/" "_" w = w.
Proof. intro H. induction H as [|x w Hx Hw IH]; [reflexivity|]. cbn [replace_char map]. apply Ascii.eqb_neq in Hx. rewrite Hx. fold (replace_char "/" "_" w). now rewrite IH. Qed.
Lemma replaced ps v : proper_prefixes ps -> plain_word v -> replace_char "/" "_" (prefix_text ps ++ v) = joined ps ++ v.
Proof.
  intros P W. unfold replace_char. rewrite map_app. f_equal.
  - induction P as [|[w b] ps Hw Hp IH]; [reflexivity|]. unfold prefix_text, joined in *. cbn [map List.concat fst snd]. rewrite !map_app, IH. f_equal. f_equal; [|destruct b; reflexivity]. apply no_slash_id. revert Hw. apply Forall_impl. tauto.
  - apply no_slash_id. revert W. apply Forall_impl. intros x [H _] ->. discriminate.
Qed.
Lemma joined_end ps : joined ps = [] \/ exists t, joined ps = t ++ ["_"%char].
Proof.
  induction ps as [|[w b] ps IH]; [now left|]. right. unfold joined in *. cbn [map List.concat fst]. destruct IH as [->|(t & ->)]; [exists w; now rewrite app_nil_r|]. exists ((w ++ ["_"%char]) ++ t). now rewrite app_assoc.
Qed.
Lemma joined_lines ps : proper_prefixes ps -> no_char newline (joined ps).
Proof.
  intro P. induction P as [|[w b] ps Hw Hp IH]; [constructor|]. unfold joined in *. cbn [map List.concat fst]. apply Forall_app. split; [|exact IH]. apply Forall_app. split; [|repeat constructor; discriminate]. revert Hw. apply Forall_impl. tauto.
Qed.
Lemma split_word w rest : no_char "_" w -> split_on "_" (w ++ "_"%char :: rest) = w :: split_on "_" rest.
Proof.
  intro N. induction N as [|x w Hx Hw IH]; [reflexivity|]. cbn [app split_on]. apply Ascii.eqb_neq in Hx. rewrite Hx. now rewrite IH.
Qed.
Lemma split_joined ps : proper_prefixes ps -> split_on "_" (joined ps) = map fst ps ++ [[]].
Proof.
  intro P. induction P as [|[w b] ps Hw Hp IH]; [reflexivity|]. unfold joined in *. cbn [map List.concat fst app]. rewrite <- app_assoc. cbn [app]. rewrite split_word; [now rewrite IH|]. revert Hw. apply Forall_impl. tauto.
Qed.
Lemma remove_id w : no_char "_" w -> remove_char "_" w = w.
Proof. intro N. induction N as [|x w Hx Hw IH]; [reflexivity|]. cbn [remove_char filter]. apply Ascii.eqb_neq in Hx. rewrite Hx. cbn [negb]. unfold remove_char in IH. now rewrite IH. Qed.
Lemma str_nonempty w : nonempty w = false <-> str w = "".
Proof. destruct w; cbn; split; congruence. Qed.
Definition word_in (k : string) (ws : list chars) : bool := existsb (fun w => nonempty w && String.eqb k (str w)) ws.
Lemma prefixes_get k : forall ws d, dict_get k (fold_left (fun d w => if nonempty w then put (str w) (SBool true) d else d) ws d) = if word_in k ws then Some (SBool true) else dict_get k d.
Proof.
  induction ws as [|w ws IH]; intro d; [reflexivity|]. cbn [fold_left word_in existsb]. rewrite IH. fold (word_in k ws). destruct (nonempty w); cbn [andb orb]; [|reflexivity]. rewrite get_put. destruct (String.eqb k (str w)), (word_in k ws); reflexivity.
Qed.
Lemma word_in_prefix k ps : word_in k (map fst ps) = true <-> has_prefix k ps.
Proof.
  unfold word_in, has_prefix. rewrite existsb_exists. split.
  - intros (w & I & E). apply andb_prop in E as [N E]. apply String.eqb_eq in E. subst k. split; [intro Z; apply str_nonempty in Z; congruence|]. apply in_map_iff in I as (p & <- & I). apply in_map_iff. now exists p.
  - intros (N & I). apply in_map_iff in I as (p & E & I). exists (fst p). split; [apply in_map_iff; now exists p|]. fold (str (fst p)) in E. rewrite <- E. rewrite String.eqb_refl. destruct (nonempty (fst p)) eqn:Z; [reflexivity|]. apply str_nonempty in Z. congruence.
Qed.
Lemma add_prefixes_get k ps d : proper_prefixes ps -> dict_get k (add_prefixes (joined ps) d) = if word_in k (map fst ps) then Some (SBool true) else dict_get k d.
Proof.
  intro P. unfold add_prefixes. rewrite split_joined by exact P. rewrite map_app. assert (E : map (remove_char "_") (map fst ps) = map fst ps). { induction P as [|[w b] ps Hw Hp IH]; [reflexivity|]. cbn [map fst]. rewrite IH. f_equal. apply remove_id. revert Hw. apply Forall_impl. tauto. }
  unfold chars in *. rewrite E, prefixes_get. unfold word_in. rewrite existsb_app. cbn [map remove_char filter existsb nonempty andb orb]. now rewrite orb_false_r.
Qed.
(** ** The groups of a match *)
Definition the_groups (p : spelling) (u : chars) : groups := tail_groups p (base_groups (sp_base p) (setgroup "prae" u [])).
Lemma text_prae p u : text "prae" (the_groups p u) = u.
Proof. destruct p as [[]  n [e|] suf]; reflexivity. Qed.
Lemma text_plus p u : text "plus" (the_groups p u) = pluses (sp_plus p).
Proof. destruct p as [[]  n [e|] suf]; reflexivity. Qed.
Lemma text_electron p u : text "electron" (the_groups p u) = opt_text (sp_electron p).
Proof. destruct p as [[]  n [e|] suf]; reflexivity. Qed.
Lemma elec_nonempty p v : spells p v -> nonempty (opt_text (sp_electron p)) = match sp_electron p with Some _ => true | None => false end.
Proof. intros (_ & _ & _ & _ & H). destruct (sp_electron p) as [e|]; [|reflexivity]. destruct H as [->|[->|[->| ->]]]; reflexivity. Qed.
Lemma pluses_nonempty n : nonempty (pluses n) = negb (Nat.eqb n 0).
Proof. destruct n; reflexivity. Qed.
Lemma pluses_length n : length (pluses n) = (4 * n)%nat.
Proof. induction n as [|n IH]; [reflexivity|]. rewrite pluses_S, app_length, IH. cbn. lia. Qed.
Lemma number_value ds : number ds = inject_Z (value_of_digits ds).
Proof. reflexivity. Qed.
(** pluses need a base: a word which starts with a capital letter starts with an element *)
Lemma plus_base p v : spells p v -> sp_plus p <> 0%nat -> sp_base p <> BNone.
Proof.
  intros (_ & _ & B & _) N E. rewrite E in B. destruct B as (H & _). unfold tail_text in H. destruct (sp_plus p) as [|n]; [congruence|]. rewrite pluses_S in H. destruct H as [H|(t & H)]; [apply H; reflexivity|discriminate].
Qed.
Lemma match_name ps v p : proper_prefixes ps -> spells p v -> re_match species_regex (str (replace_char "/" "_" (list_ascii_of_string (name_of ps v)))) = Some (the_groups p (joined ps)).
Proof.
  intros P S. unfold name_of, re_match, str. rewrite !list_ascii_of_string_of_list_ascii. rewrite (replaced ps v P (proj1 (proj2 S))). apply regex_match; [apply joined_end|now apply joined_lines|exact S].
Qed.
Definition start (species : string) : sdict := [("tracer", SBool false); ("ejected", SBool false); ("name", SStr species)].
Lemma identify_unfold me qe ps v p : proper_prefixes ps -> spells p v -> ~ is_default (name_of ps v) ->
  identifyspecies me qe (name_of ps v) =
    let! d := add_base me qe (the_groups p (joined ps)) (add_prefixes (joined ps) (start (name_of ps v))) in
    let! d := add_plus qe (the_groups p (joined ps)) d in
    let d := add_electron me qe (the_groups p (joined ps)) d in
    if has "mass" d && has "charge" d && has "ision" d then Ok d else Err BareException.
Proof.
  intros P S N. unfold identifyspecies. unfold is_default in N. destruct (dict_get _ defaults) as [x|] eqn:D; [exfalso; apply N; unfold str in D; try rewrite D; discriminate|]. rewrite (match_name ps v p P S). rewrite text_prae. reflexivity.
Qed.
Lemma start_get k ps species : proper_prefixes ps -> dict_get k (add_prefixes (joined ps) (start species)) = if word_in k (map fst ps) then Some (SBool true) else dict_get k (start species).
Proof. apply add_prefixes_get. Qed.
Lemma unknown_element me qe ps v p sym ds : proper_prefixes ps -> spells p v -> ~ is_default (name_of ps v) -> sp_base p = BElem sym ds -> dict_get (str sym) masslist = None -> identifyspecies me qe (name_of ps v) = Err KeyError.
Proof.
  intros P S N B U. rewrite (identify_unfold me qe ps v p P S N). unfold add_base. assert (Te : text "elem" (the_groups p (joined ps)) = sym) by (destruct p as [b n [e|] suf]; cbn [sp_base] in B; subst b; reflexivity). rewrite Te.
  assert (Ne : nonempty sym = true). { destruct S as (_ & _ & S & _). rewrite B in S. destruct S as (_ & _ & [(x & -> & _)|(x & l & -> & _)]); reflexivity. } rewrite Ne, U. reflexivity.
Qed.
(** mass, charge and ision after the base and the pluses *)
Definition based (b : base) (n : nat) (me qe : Q) (d0 d : sdict) : Prop :=
  exists m q, dict_get "mass" d = Some (SNum m) /\ dict_get "charge" d = Some (SNum q) /\ dict_get "ision" d = Some (SBool true) /\ (forall k, k <> "mass" -> k <> "charge" -> k <> "ision" -> dict_get k d = dict_get k d0) /\
    (exists m', spelled_mass (mkspell b n None []) = Some m' /\ m == m' * me) /\ (exists q', spelled_charge (mkspell b n None []) = Some q' /\ q == inject_Z q' * qe).
Lemma other_put k n v d : k <> n -> dict_get k (put n v d) = dict_get k d.
Proof. intro N. rewrite get_put. apply String.eqb_neq in N. now rewrite N. Qed.
Lemma three me qe m q b0 d : dict_get "mass" (put "ision" (SBool b0) (put "charge" (SNum (q * qe)) (put "mass" (SNum (m * me)) d))) = Some (SNum (m * me)) /\ dict_get "charge" (put "ision" (SBool b0) (put "charge" (SNum (q * qe)) (put "mass" (SNum (m * me)) d))) = Some (SNum (q * qe)).
Proof. rewrite !get_put. cbn [String.eqb Ascii.eqb Bool.eqb]. auto. Qed.
Lemma plus_step b n me qe d0 m m' q0 ds d c : dict_get "mass" d = Some (SNum m) -> dict_get "charge" d = Some (SNum q0) -> dict_get "ision" d = Some (SBool true) -> (forall k, k <> "mass" -> k <> "charge" -> k <> "ision" -> dict_get k d = dict_get k d0) ->
  spelled_mass (mkspell b n None []) = Some m' -> m == m' * me -> q0 == inject_Z (value_of_digits ds) * qe -> spelled_charge (mkspell b n None []) = Some (if (value_of_digits ds =? 0)%Z then Z.of_nat n else value_of_digits ds) -> text "plus" c = pluses n -> exists d', add_plus qe c d = Ok d' /\ based b n me qe d0 d'.
Proof.
  intros Gm Gq Gi Go Sm Em Eq Sq Tp. unfold add_plus. rewrite Tp, pluses_nonempty, Gq. destruct (Nat.eqb_spec n 0) as [->|Nn]; cbn [negb].
  - exists d. split; [reflexivity|]. exists m, q0. repeat (split; [assumption|]). split; [eauto|]. eexists. split; [exact Sq|]. destruct (Z.eqb_spec (value_of_digits ds) 0) as [Z0|Z0]; [rewrite Z0 in Eq; exact Eq|exact Eq].
  - cbn [is_zero]. destruct (Qeqb_spec q0 0) as [Q0|Q0].
    + eexists. split; [reflexivity|]. exists m. eexists. rewrite !get_put. cbn [String.eqb Ascii.eqb Bool.eqb]. split; [exact Gm|]. split; [reflexivity|]. split; [exact Gi|]. split; [intros k N1 N2 N3; rewrite other_put by exact N2; auto|]. split; [eauto|]. eexists. split; [exact Sq|].
      rewrite pluses_length. assert (F : inject_Z (Z.of_nat (4 * n)) / 4 * qe == inject_Z (Z.of_nat n) * qe). { rewrite Nat2Z.inj_mul, inject_Z_mult. change (inject_Z (Z.of_nat 4)) with 4. field. } rewrite F. destruct (Z.eqb_spec (value_of_digits ds) 0) as [Z0|Z0]; [reflexivity|].
      rewrite Eq in Q0. apply Qmult_integral in Q0 as [Q0|Q0]; [exfalso; apply Z0; unfold Qeq in Q0; cbn in Q0; lia|]. rewrite Q0. ring.
    + exists d. split; [reflexivity|]. exists m, q0. repeat (split; [assumption|]). split; [eauto|]. eexists. split; [exact Sq|]. destruct (Z.eqb_spec (value_of_digits ds) 0) as [Z0|Z0]; [exfalso; apply Q0; rewrite Eq, Z0; ring|exact Eq].
Qed.
Lemma base_step me qe p v u d0 : spells p v -> known_base (sp_base p) -> sp_base p <> BNone -> exists d1 d2, add_base me qe (the_groups p u) d0 = Ok d1 /\ add_plus qe (the_groups p u) d1 = Ok d2 /\ based (sp_base p) (sp_plus p) me qe d0 d2.
Proof.
  intros S Kb NB. assert (Tp := text_plus p u). destruct S as (_ & _ & S & _). unfold add_base.
  destruct (sp_base p) as [sym ds|q m|m q|] eqn:B; [| | |congruence]; cbn [base_spelled known_base] in *.
  - assert (Te : text "elem" (the_groups p u) = sym) by (destruct p as [b n [e|] suf]; cbn [sp_base] in B; subst b; reflexivity). assert (Td : text "elem_c" (the_groups p u) = ds) by (destruct p as [b n [e|] suf]; cbn [sp_base] in B; subst b; reflexivity).
    rewrite Te, Td. assert (Ne : nonempty sym = true) by (destruct S as (_ & _ & [(x & -> & _)|(x & l & -> & _)]); reflexivity). rewrite Ne. fold (str sym) in Kb. destruct (dict_get (str sym) masslist) as [mm|] eqn:Mm; [|congruence].
    eexists. 
    edestruct (plus_step (BElem sym ds) (sp_plus p) me qe d0 (mm * mp * me) (mm * mp) (if nonempty ds then number ds * qe else 0) ds) as (d2 & E2 & B2); cycle 9; [exists d2; split; [reflexivity|]; split; [exact E2|exact B2]|..].
    + rewrite !get_put. reflexivity.
    + rewrite !get_put. reflexivity.
    + rewrite !get_put. reflexivity.
    + intros k N1 N2 N3. now rewrite !other_put.
    + cbn [spelled_mass sp_electron sp_base]. fold (str sym). rewrite Mm. reflexivity.
    + reflexivity.
    + rewrite number_value. destruct ds; cbn [nonempty]; [cbn; ring|reflexivity].
    + reflexivity.
    + exact Tp.
  - assert (Te : text "elem" (the_groups p u) = []) by (destruct p as [b n [e|] suf]; cbn [sp_base] in B; subst b; reflexivity). assert (Ti : nonempty (text "ionmc" (the_groups p u)) = true) by (destruct p as [b n [e|] suf]; cbn [sp_base] in B; subst b; reflexivity).
    assert (T1 : text "c1" (the_groups p u) = q /\ text "m2" (the_groups p u) = m /\ text "c2" (the_groups p u) = []) by (destruct p as [b n [e|] suf]; cbn [sp_base] in B; subst b; repeat split). destruct T1 as (T1 & T2 & T3).
    rewrite Te, Ti, T1, T2, T3. cbn [nonempty]. assert (Nq : nonempty q = true) by (destruct q; [tauto|reflexivity]). rewrite Nq. eexists.
    edestruct (plus_step (BCharge q m) (sp_plus p) me qe d0 (number m * mp * me) (number m * mp) (number q * qe) q) as (d2 & E2 & B2); cycle 9; [exists d2; split; [reflexivity|]; split; [exact E2|exact B2]|..].
    + rewrite !get_put. reflexivity.
    + rewrite !get_put. reflexivity.
    + rewrite !get_put. reflexivity.
    + intros k N1 N2 N3. now rewrite !other_put.
    + reflexivity.
    + reflexivity.
    + reflexivity.
    + reflexivity.
    + exact Tp.
  - assert (Te : text "elem" (the_groups p u) = []) by (destruct p as [b n [e|] suf]; cbn [sp_base] in B; subst b; reflexivity). assert (Ti : nonempty (text "ionmc" (the_groups p u)) = true) by (destruct p as [b n [e|] suf]; cbn [sp_base] in B; subst b; reflexivity).
    assert (T1 : text "c2" (the_groups p u) = q /\ text "m1" (the_groups p u) = m /\ text "c1" (the_groups p u) = []) by (destruct p as [b n [e|] suf]; cbn [sp_base] in B; subst b; repeat split). destruct T1 as (T1 & T2 & T3).
    rewrite Te, Ti, T1, T2, T3. cbn [nonempty]. assert (Nq : nonempty q = true) by (destruct q; [tauto|reflexivity]). rewrite Nq. eexists.
    edestruct (plus_step (BMass m q) (sp_plus p) me qe d0 (number m * mp * me) (number m * mp) (number q * qe) q) as (d2 & E2 & B2); cycle 9; [exists d2; split; [reflexivity|]; split; [exact E2|exact B2]|..].
    + rewrite !get_put. reflexivity.
    + rewrite !get_put. reflexivity.
    + rewrite !get_put. reflexivity.
    + intros k N1 N2 N3. now rewrite !other_put.
    + reflexivity.
    + reflexivity.
    + reflexivity.
    + reflexivity.
    + exact Tp.
Qed.
Lemma none_step me qe p v u d0 : spells p v -> sp_base p = BNone -> add_base me qe (the_groups p u) d0 = Ok d0 /\ add_plus qe (the_groups p u) d0 = Ok d0.
Proof.
  intros S B. assert (Tp := text_plus p u). assert (N : sp_plus p = 0%nat) by (destruct (Nat.eq_dec (sp_plus p) 0) as [E|E]; [exact E|exfalso; exact (plus_base p v S E B)]). rewrite N in Tp. unfold add_base, add_plus.
  assert (Te : text "elem" (the_groups p u) = []) by (destruct p as [b n [e|] suf]; cbn [sp_base] in B; subst b; reflexivity). assert (Ti : text "ionmc" (the_groups p u) = []) by (destruct p as [b n [e|] suf]; cbn [sp_base] in B; subst b; reflexivity). now rewrite Te, Ti, Tp.
Qed.
(** what was before the base *)
Lemma rest_decoded me qe ps v p d : proper_prefixes ps -> (exists m, spelled_mass p = Some m /\ field_is d "mass" (num_is (m * me))) -> (exists q, spelled_charge p = Some q /\ field_is d "charge" (num_is (inject_Z q * qe))) -> dict_get "ision" d = Some (SBool (spelled_ion p)) ->
  (forall k, k <> "mass" -> k <> "charge" -> k <> "ision" -> dict_get k d = dict_get k (add_prefixes (joined ps) (start (name_of ps v)))) -> decoded me qe ps v p d.
Proof.
  intros P M Q I O. unfold decoded. split; [exact M|]. split; [exact Q|]. split; [exact I|].
  assert (No : forall k, ~ has_prefix k ps -> word_in k (map fst ps) = false) by (intros k N; destruct (word_in k (map fst ps)) eqn:E; [apply word_in_prefix in E; contradiction|reflexivity]).
  split; [intros k H N1 N2 N3; rewrite O by assumption; rewrite start_get by exact P; apply word_in_prefix in H; now rewrite H|].
  split; [intro H; rewrite O by discriminate; rewrite start_get by exact P; now rewrite No|]. split; [intro H; rewrite O by discriminate; rewrite start_get by exact P; now rewrite No|]. split; [intro H; rewrite O by discriminate; rewrite start_get by exact P; now rewrite No|].
  intros k H N. cbn [In] in N. rewrite O by (intros ->; apply N; auto). rewrite start_get by exact P. rewrite No by exact H. cbn [start dict_get]. 
  assert (E1 : String.eqb k "name" = false) by (apply String.eqb_neq; intros ->; apply N; tauto). assert (E2 : String.eqb k "ejected" = false) by (apply String.eqb_neq; intros ->; apply N; tauto). assert (E3 : String.eqb k "tracer" = false) by (apply String.eqb_neq; intros ->; apply N; tauto). now rewrite E1, E2, E3.
Qed.
Lemma decodes me qe ps v p : proper_prefixes ps -> spells p v -> ~ is_default (name_of ps v) -> known_base (sp_base p) -> (sp_base p <> BNone \/ sp_electron p <> None) -> exists d, identifyspecies me qe (name_of ps v) = Ok d /\ decoded me qe ps v p d.
Proof.
  intros P S N Kb H. rewrite (identify_unfold me qe ps v p P S N). set (d0 := add_prefixes (joined ps) (start (name_of ps v))).
  assert (El := elec_nonempty p v S).
  destruct (sp_electron p) as [e|] eqn:Ee.
  - assert (G : exists d2, (let! d := add_base me qe (the_groups p (joined ps)) d0 in add_plus qe (the_groups p (joined ps)) d) = Ok d2 /\ forall k, k <> "mass" -> k <> "charge" -> k <> "ision" -> dict_get k d2 = dict_get k d0).
    { destruct (sp_base p) eqn:B; try (rewrite <- B in Kb; destruct (base_step me qe p v (joined ps) d0 S Kb) as (d1 & d2 & E1 & E2 & ? & ? & _ & _ & _ & O & _); [congruence|]; rewrite E1; exists d2; split; [exact E2|exact O]).
      destruct (none_step me qe p v (joined ps) d0 S B) as [E1 E2]. rewrite E1. exists d0. split; [exact E2|auto]. }
    destruct G as (d2 & E & O). destruct (add_base me qe (the_groups p (joined ps)) d0) as [d1|]; [|discriminate]. cbn [bind] in *. rewrite E. cbn [bind]. unfold add_electron. rewrite text_electron, Ee, El. unfold has. rewrite !get_put. cbn [String.eqb Ascii.eqb Bool.eqb andb]. eexists. split; [reflexivity|]. apply rest_decoded; [exact P| | | |].
    + exists 1. unfold spelled_mass. rewrite Ee. split; [reflexivity|]. eexists. rewrite !get_put. split; [reflexivity|]. cbn. ring.
    + exists (-1)%Z. unfold spelled_charge. rewrite Ee. split; [reflexivity|]. eexists. rewrite !get_put. split; [reflexivity|]. cbn. reflexivity.
    + rewrite !get_put. unfold spelled_ion. now rewrite Ee.
    + intros k N1 N2 N3. rewrite !other_put by assumption. now apply O.
  - destruct H as [NB|H]; [|congruence]. destruct (base_step me qe p v (joined ps) d0 S Kb NB) as (d1 & d2 & E1 & E2 & m & q & Gm & Gq & Gi & O & (m' & Sm & Em) & (q' & Sq & Eq)). rewrite E1. cbn [bind]. rewrite E2. cbn [bind]. unfold add_electron. rewrite text_electron, Ee. cbn [opt_text nonempty]. unfold has. rewrite Gm, Gq, Gi. cbn [andb]. exists d2. split; [reflexivity|]. apply rest_decoded; [exact P| | | |exact O].
    + exists m'. split; [unfold spelled_mass in *; rewrite Ee; exact Sm|]. exists (SNum m). split; [exact Gm|exact Em].
    + exists q'. split; [unfold spelled_charge in *; rewrite Ee; exact Sq|]. exists (SNum q). split; [exact Gq|exact Eq].
    + rewrite Gi. unfold spelled_ion. now rewrite Ee.
Qed.
Lemma nothing me qe ps v p : proper_prefixes ps -> spells p v -> ~ is_default (name_of ps v) -> sp_base p = BNone -> sp_electron p = None -> ~ (has_prefix "mass" ps /\ has_prefix "charge" ps /\ has_prefix "ision" ps) -> identifyspecies me qe (name_of ps v) = Err BareException.
Proof.
  intros P S N B Ee H. rewrite (identify_unfold me qe ps v p P S N). set (d0 := add_prefixes (joined ps) (start (name_of ps v))). destruct (none_step me qe p v (joined ps) d0 S B) as [E1 E2]. rewrite E1. cbn [bind]. rewrite E2. cbn [bind]. unfold add_electron. rewrite text_electron, Ee. cbn [opt_text nonempty]. unfold has. subst d0. rewrite !start_get by exact P. cbn [start dict_get String.eqb Ascii.eqb Bool.eqb].
  destruct (word_in "mass" (map fst ps)) eqn:Wm; [|reflexivity]. destruct (word_in "charge" (map fst ps)) eqn:Wc; [|reflexivity]. destruct (word_in "ision" (map fst ps)) eqn:Wi; [|reflexivity]. apply word_in_prefix in Wm, Wc, Wi. exfalso. tauto.
Qed.
Lemma rejects me qe name a x b : replace_char "/" "_" (list_ascii_of_string name) = a ++ x :: b -> is_word x = false -> no_char "_" b -> (x <> newline \/ b <> []) -> ~ is_default name -> identifyspecies me qe name = Err BareException.
Proof.
  intros E W Nb Nx N. unfold identifyspecies. unfold is_default in N. destruct (dict_get _ defaults) as [z|] eqn:D; [exfalso; apply N; unfold str in D; try rewrite D; discriminate|]. unfold re_match, str. rewrite list_ascii_of_string_of_list_ascii, E.
  assert (R : rmatch species_regex (a ++ x :: b) [] (fun _ c => Some c) = None) by exact (regex_none a x b [] W Nb Nx). now rewrite R.
Qed.
Lemma default_value me qe name m q i : dict_get (string_of_list_ascii (replace_char "/" "_" (list_ascii_of_string name))) defaults = Some (m, q, i) -> exists d, identifyspecies me qe name = Ok d /\ dict_get "mass" d = Some (SNum (m * me)) /\ dict_get "charge" d = Some (SNum (q * qe)) /\ dict_get "ision" d = Some (SBool i) /\ dict_get "tracer" d = Some (SBool false) /\ dict_get "ejected" d = Some (SBool false) /\ dict_get "name" d = Some (SStr name).
Proof. intro E. unfold identifyspecies, str. rewrite E. eexists. split; [reflexivity|]. rewrite !get_put. repeat split. Qed.
Lemma tries_some (k : chars -> groups -> option groups) s c : (forall s' c', exists y, k s' c' = Some y) -> exists y, tries any_char k s c = Some y.
Proof.
  intro K. induction s as [|x s IH]; cbn [tries]; [apply K|]. destruct (any_char x); [|apply K]. destruct IH as (y & IH). rewrite IH. eauto.
Qed.
Lemma ejected_spec name : isejected name = true <-> begins (txt "ejected_") (remove_char "/" (list_ascii_of_string name)).
Proof.
  unfold isejected, re_match, str. rewrite list_ascii_of_string_of_list_ascii. set (s := remove_char "/" (list_ascii_of_string name)).
  change (match rmatch (lits "ejected_") s [] (fun s' c' => rmatch (RStar (RChar any_char)) s' (setgroup "1" (firstn (length s - length s') s) c') (fun s2 c2 => Some (setgroup "2" (firstn (length s' - length s2) s') c2))) with Some _ => true | None => false end = true <-> begins (txt "ejected_") s).
  split.
  - destruct (rmatch _ _ _ _) as [y|] eqn:E; [|discriminate]. intros _. apply lit_sound in E as (t & -> & _). now exists t.
  - intros (t & ->). rewrite lit_match. rewrite star_tries.
    match goal with |- context [tries any_char ?k t ?c] => destruct (tries_some k t c) as (y & T); [intros; eexists; reflexivity|] end.
    now rewrite T.
Qed.
(** ** Names which are not read as one would expect *)
Lemma elements_missing : exists name, In name ["Fe2"; "Sn4"; "Re1"; "Cf"] /\ forall me qe, identifyspecies me qe "Fe2" = Err KeyError /\ identifyspecies me qe "Sn4" = Err KeyError /\ identifyspecies me qe "Re1" = Err KeyError /\ identifyspecies me qe "Cf" = Err KeyError.
Proof. exists "Fe2". split; [now left|]. intros me qe. repeat split; reflexivity. Qed.
Lemma documented_fail me qe : identifyspecies me qe "ejected_c6b" = Err BareException /\ identifyspecies me qe "tracer_proton" = Err BareException /\ identifyspecies me qe "protonb" = Err BareException /\
  exists d, identifyspecies me qe "c6" = Ok d /\ dict_get "charge" d = Some (SNum (1 * qe)).
Proof. repeat split; try reflexivity. eexists. split; reflexivity. Qed.
Lemma prefixes_mixed me qe : (exists d, identifyspecies me qe "name_C6" = Ok d /\ dict_get "name" d = Some (SBool true)) /\ (exists d, identifyspecies me qe "mass_charge_ision_x" = Ok d /\ dict_get "mass" d = Some (SBool true)).
Proof. split; eexists; split; reflexivity. Qed.
Lemma helium me qe : exists d, identifyspecies me qe "Helectron" = Ok d /\ dict_get "ision" d = Some (SBool true) /\ dict_get "mass" d = Some (SNum ((4003 # 1000) * (9181 # 5) * me)).
Proof. eexists. split; [reflexivity|]. split; reflexivity. Qed.
Lemma ejected_differs me qe : exists d, identifyspecies me qe "ejected/electron" = Ok d /\ dict_get "ejected" d = Some (SBool true) /\ isejected "ejected/electron" = false.
Proof. eexists. split; [reflexivity|]. split; reflexivity. Qed.
(** the characters *)
Lemma char_classes c : (is_digit c = true <-> In c (txt "0123456789")) /\ (is_upper c = true <-> In c (txt "ABCDEFGHIJKLMNOPQRSTUVWXYZ")) /\ (is_lower c = true <-> In c (txt "abcdefghijklmnopqrstuvwxyz")) /\
  (is_word c = true <-> is_digit c = true \/ is_upper c = true \/ is_lower c = true \/ c = "_"%char).
Proof.
  assert (T : forall l b, existsb (Ascii.eqb c) l = b -> (b = true <-> In c l)).
  { intros l b <-. rewrite existsb_exists. split; [intros (x & I & E); apply Ascii.eqb_eq in E; now subst x|]. intro I. exists c. split; [exact I|apply Ascii.eqb_refl]. }
  split; [apply T; destruct c as [[] [] [] [] [] [] [] []]; reflexivity|]. split; [apply T; destruct c as [[] [] [] [] [] [] [] []]; reflexivity|]. split; [apply T; destruct c as [[] [] [] [] [] [] [] []]; reflexivity|].
  destruct c as [[] [] [] [] [] [] [] []]; vm_compute; intuition (try discriminate; try reflexivity).
Qed.
Lemma ision_spelled me qe ps v p : proper_prefixes ps -> spells p v -> ~ is_default (name_of ps v) -> known_base (sp_base p) -> (sp_base p <> BNone \/ sp_electron p <> None) -> ision me qe (name_of ps v) = Ok (SBool (spelled_ion p)).
Proof.
  intros A B D K E. destruct (decodes me qe ps v p A B D K E) as (d & I & _ & _ & H & _). unfold ision. rewrite I. cbn [bind]. now rewrite H.
Qed.
Lemma ision_default me qe name m q i : dict_get (string_of_list_ascii (replace_char "/" "_" (list_ascii_of_string name))) defaults = Some (m, q, i) -> ision me qe name = Ok (SBool i).
Proof.
  intro E. destruct (default_value me qe name m q i E) as (d & I & _ & _ & H & _). unfold ision. rewrite I. cbn [bind]. now rewrite H.
Qed.
Lemma ision_fails me qe name e : identifyspecies me qe name = Err e -> ision me qe name = Err e.
Proof. intro E. unfold ision. now rewrite E. Qed.
