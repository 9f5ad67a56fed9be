(** Proofs about collections of species and the boxes of their simulations. *)
From Coq Require Import Permutation Lia Ascii.
From Verif Require Import PyBase PyBaseFacts NumpyModel NdModel NdFacts AxisModel AxisSpec FieldModel FieldSpec ParticleModel SpeciesModel SpeciesLaws DepModel DepSpec HistddModel HistddFacts CollectModel CollectSpec.

(** * The entries of the dictionary are truth values *)
Definition is_bool (k : string) (d : sdict) : Prop := forall v, dict_get k d = Some v -> exists b, v = SBool b.
Lemma bool_put k n b d : is_bool k d -> is_bool k (put n (SBool b) d).
Proof. intros H v. rewrite get_put. destruct (String.eqb k n); [intros [= <-]; now exists b|apply H]. Qed.
Lemma bool_other k n v d : k <> n -> is_bool k d -> is_bool k (put n v d).
Proof. intros N H u. rewrite get_put. apply String.eqb_neq in N. rewrite N. apply H. Qed.
Lemma has_put k n v d : has k d = true -> has k (put n v d) = true.
Proof. unfold has. rewrite get_put. destruct (String.eqb k n); [reflexivity|easy]. Qed.
Lemma truths me qe s d k : k = "ision"%string \/ k = "ejected"%string -> identifyspecies me qe s = Ok d -> exists b, dict_get k d = Some (SBool b).
Proof.
  intros K E. assert (Nm : k <> "mass"%string) by (destruct K as [-> | ->]; discriminate). assert (Nc : k <> "charge"%string) by (destruct K as [-> | ->]; discriminate).
  unfold identifyspecies in E. set (ret := [("tracer"%string, SBool false); ("ejected"%string, SBool false); ("name"%string, SStr s)]) in E.
  assert (B0 : is_bool k ret) by (intros v; unfold ret; destruct K as [-> | ->]; cbn; [discriminate|intros [= <-]; now exists false]).
  assert (H0 : k = "ejected"%string -> has k ret = true) by (intros ->; reflexivity).
  destruct (dict_get _ defaults) as [[[m q] i]|].
  - injection E as <-. destruct K as [-> | ->]; rewrite !get_put; cbn [String.eqb Ascii.eqb Bool.eqb]; eexists; reflexivity.
  - destruct (re_match species_regex _) as [c|]; [|discriminate].
    set (d1 := add_prefixes (text "prae" c) ret) in E.
    assert (B1 : is_bool k d1).
    { unfold d1, add_prefixes. generalize (map (remove_char "_"%char) (split_on "_"%char (text "prae" c))). intro ws. revert B0. generalize ret. induction ws as [|x ws IH]; intros r B; [exact B|]. cbn [fold_left]. apply IH. destruct (nonempty x); [now apply bool_put|exact B]. }
    assert (H1 : has k ret = true -> has k d1 = true).
    { unfold d1, add_prefixes. generalize (map (remove_char "_"%char) (split_on "_"%char (text "prae" c))). intro ws. generalize ret. induction ws as [|x ws IH]; intros r B; [exact B|]. cbn [fold_left]. apply IH. destruct (nonempty x); [now apply has_put|exact B]. }
    destruct (add_base me qe c d1) as [d2|] eqn:E2; [|discriminate]. cbn [bind] in E.
    assert (B2 : is_bool k d2 /\ (has k d1 = true -> has k d2 = true)).
    { unfold add_base in E2. destruct (nonempty (text "elem" c)).
      - destruct (dict_get _ masslist); [|discriminate]. injection E2 as <-. split; [apply bool_put, bool_other, bool_other; assumption|intros; now repeat apply has_put].
      - destruct (nonempty (text "ionmc" c)); [|injection E2 as <-; split; [exact B1|easy]]. injection E2 as <-.
        destruct (nonempty (text "c1" c)), (nonempty (text "c2" c)); (split; [repeat (apply bool_put || apply bool_other); assumption|intros; repeat apply has_put; assumption]). }
    destruct B2 as [B2 H2]. destruct (add_plus qe c d2) as [d3|] eqn:E3; [|discriminate]. cbn [bind] in E.
    assert (B3 : is_bool k d3 /\ (has k d2 = true -> has k d3 = true)).
    { unfold add_plus in E3. destruct (nonempty (text "plus" c)); [|injection E3 as <-; split; [exact B2|easy]]. destruct (dict_get "charge" d2); [|discriminate]. injection E3 as <-. destruct (is_zero s0); [split; [now apply bool_other|apply has_put]|split; [exact B2|easy]]. }
    destruct B3 as [B3 H3]. set (d4 := add_electron me qe c d3) in E. cbv zeta in E.
    assert (B4 : is_bool k d4 /\ (has k d3 = true -> has k d4 = true)).
    { unfold d4, add_electron. destruct (nonempty (text "electron" c)); [|split; [exact B3|easy]]. split; [apply bool_put, bool_other, bool_other; assumption|intros; now repeat apply has_put]. }
    destruct B4 as [B4 H4]. destruct (has "mass" d4 && has "charge" d4 && has "ision" d4) eqn:Eh; [|discriminate]. injection E as <-. apply andb_prop in Eh. destruct Eh as [_ Eh].
    assert (Hk : has k d4 = true) by (destruct K as [-> | ->]; [exact Eh|auto 10]).
    unfold has in Hk. destruct (dict_get k d4) as [v|] eqn:Ev; [|discriminate]. destruct (B4 v Ev) as [b ->]. now exists b.
Qed.
Lemma told_any me qe s k : k = "ision"%string \/ k = "ejected"%string -> understood me qe s -> exists b, told me qe k s b.
Proof. intros K [d E]. destruct (truths me qe s d k K E) as [b H]. exists b, d. now split. Qed.

(** * add *)
Lemma flag_told me qe k s b : told me qe k s b -> flag me qe k s = Ok b.
Proof. intros (d & E & H). unfold flag. rewrite E. cbn [bind]. now rewrite H. Qed.
Lemma flag_not me qe k s : ~ understood me qe s -> exists e, flag me qe k s = Err e.
Proof. intro N. unfold flag. destruct (identifyspecies me qe s) as [d|e] eqn:E; [destruct N; now exists d|]. now exists e. Qed.
Lemma collection_of me qe key k want : stands_for key k want -> exists p, collection me qe key = Some p /\ (forall s b, told me qe k s b -> p s = Ok (Bool.eqb b want)) /\ (forall s, ~ understood me qe s -> exists e, p s = Err e).
Proof.
  intros []; (eexists; split; [reflexivity|]; split; [intros s b T; rewrite (flag_told _ _ _ _ _ T); now destruct b|intros s N; destruct (flag_not me qe "ision" s N) as [e1 E1]; destruct (flag_not me qe "ejected" s N) as [e2 E2]; rewrite ?E1, ?E2; eexists; reflexivity]).
Qed.
Lemma collection_none me qe s : ~ reserved s -> collection me qe s = None.
Proof.
  intro N. unfold collection. destruct (String.eqb_spec s "_ions") as [->|]; [destruct N; cbn; tauto|]. destruct (String.eqb_spec s "_nonions") as [->|]; [destruct N; cbn; tauto|]. destruct (String.eqb_spec s "_ejected") as [->|]; [destruct N; cbn; tauto|].
  destruct (String.eqb_spec s "_noejected") as [->|]; [destruct N; cbn; tauto|]. destruct (String.eqb_spec s "_all") as [->|]; [destruct N; cbn; tauto|]. reflexivity.
Qed.
Lemma filterM_ok {A} (p : A -> res bool) (q : A -> bool) l : (forall x, In x l -> p x = Ok (q x)) -> filterM p l = Ok (filter q l).
Proof. induction l as [|x l IH]; intro H; [reflexivity|]. cbn [filterM filter]. rewrite (H x (or_introl eq_refl)), IH by (intros; apply H; now right). reflexivity. Qed.
Lemma filterM_err {A} (p : A -> res bool) l x : In x l -> (exists e, p x = Err e) -> exists e, filterM p l = Err e.
Proof.
  intros I [e E]. induction l as [|y l IH]; [destruct I|]. cbn [filterM]. destruct (p y) as [b|e'] eqn:Ey; [|now exists e']. cbn [bind]. destruct I as [->|I]; [congruence|]. destruct (IH I) as [e'' ->]. now exists e''.
Qed.
Lemma new_listed d s w : In s (d_names d) -> new_single d s w = (mkworld (w_bools w) (w_ids w) (w_objs w ++ [mksingle d s SNone []]) (w_ms w), Ok (length (w_objs w))).
Proof. intro I. unfold new_single. replace (existsb (String.eqb s) (d_names d)) with true; [reflexivity|]. symmetry. apply existsb_exists. exists s. split; [exact I|apply String.eqb_refl]. Qed.
Lemma new_missing d s w : ~ In s (d_names d) -> new_single d s w = (w, Err KeyError).
Proof. intro N. unfold new_single. replace (existsb (String.eqb s) (d_names d)) with false; [reflexivity|]. symmetry. apply not_true_is_false. intro H. apply existsb_exists in H. destruct H as (x & I & E). apply String.eqb_eq in E. now subst. Qed.
Lemma upd_same_pos {A} (l : list A) i x y : upd (upd l i x) i y = upd l i y.
Proof. revert i. induction l as [|z l IH]; intros [|i]; cbn; try reflexivity. now rewrite IH. Qed.
Lemma nth_upd_eq {A} (l : list A) i x : nth_error l i <> None -> nth_error (upd l i x) i = Some x.
Proof. revert i. induction l as [|y l IH]; intros [|i] H; cbn in *; try easy. now apply IH. Qed.
Lemma appended_nil m d w is : nth_error (w_ms w) m = Some is -> appended m d [] w w.
Proof.
  intro H. exists is. split; [exact H|]. cbn [map length seq]. rewrite !app_nil_r. destruct w as [b i o ms]. cbn [w_bools w_ids w_objs w_ms] in *. f_equal. revert m H. induction ms as [|x ms IH]; intros [|m] H; cbn in *; try discriminate; [now injection H as <-|]. f_equal. now apply IH.
Qed.
Lemma appended_app m d l1 l2 w w1 w2 : appended m d l1 w w1 -> appended m d l2 w1 w2 -> appended m d (l1 ++ l2) w w2.
Proof.
  intros (is & H & ->) (is1 & H1 & ->). cbn [w_ms w_objs w_bools w_ids] in *. rewrite nth_upd_eq in H1 by congruence. injection H1 as <-. exists is. split; [exact H|].
  rewrite upd_same_pos, map_app, !app_length, map_length, <- !app_assoc, seq_app. reflexivity.
Qed.
Lemma add_plain fuel me qe m d s ign w is : ~ reserved s -> In s (d_names d) -> nth_error (w_ms w) m = Some is -> exists w', add_named (S fuel) me qe m d s ign w = (w', Ok tt) /\ appended m d [s] w w'.
Proof.
  intros N I H. cbn [add_named]. rewrite (collection_none _ _ _ N), (new_listed _ _ _ I). unfold append, mbind, get_ms. cbn [w_ms]. rewrite H. unfold put_ms. cbn [w_bools w_ids w_objs w_ms]. eexists. split; [reflexivity|]. exists is. now split.
Qed.
Lemma add_missing fuel me qe m d s ign w : ~ reserved s -> ~ In s (d_names d) -> add_named (S fuel) me qe m d s ign w = (w, if ign then Ok tt else Err KeyError).
Proof. intros N I. cbn [add_named]. rewrite (collection_none _ _ _ N), (new_missing _ _ _ I). now destruct ign. Qed.
Lemma each_adds fuel me qe m d l : forall w is, (forall s, In s l -> ~ reserved s /\ In s (d_names d)) -> nth_error (w_ms w) m = Some is ->
  exists w', each (fun s => add_named (S fuel) me qe m d s false) l w = (w', Ok tt) /\ appended m d l w w'.
Proof.
  induction l as [|s l IH]; intros w is H E; [exists w; split; [reflexivity|]; now apply (appended_nil m d w is)|].
  destruct (H s (or_introl eq_refl)) as [N I]. destruct (add_plain fuel me qe m d s false w is N I E) as (w1 & E1 & A1).
  assert (E1' : nth_error (w_ms w1) m <> None) by (destruct A1 as (is1 & H1 & ->); cbn [w_ms]; rewrite nth_upd_eq by congruence; discriminate). destruct (nth_error (w_ms w1) m) as [is1|] eqn:Em; [|congruence].
  destruct (IH w1 is1) as (w2 & E2 & A2); [intros; apply H; now right|exact Em|]. exists w2. split; [cbn [each]; unfold mbind; now rewrite E1|]. exact (appended_app m d [s] l w w1 w2 A1 A2).
Qed.
Lemma add_collection fuel me qe m d key k want ign w f : stands_for key k want -> (forall s, In s (d_names d) -> ~ reserved s) -> (forall s, In s (d_names d) -> told me qe k s (f s)) -> nth_error (w_ms w) m <> None ->
  exists w', add_named (S (S fuel)) me qe m d key ign w = (w', Ok tt) /\ appended m d (filter (fun s => Bool.eqb (f s) want) (d_names d)) w w'.
Proof.
  intros S R T H. destruct (nth_error (w_ms w) m) as [is|] eqn:E; [|congruence]. destruct (collection_of me qe key k want S) as (p & Ep & P & _).
  destruct (each_adds fuel me qe m d (filter (fun s => Bool.eqb (f s) want) (d_names d)) w is) as (w' & Ew & A); [intros s I; apply filter_In in I; split; [apply R|]; apply I|exact E|].
  exists w'. split; [|exact A]. remember (Datatypes.S fuel) as n eqn:En. cbn [add_named]. rewrite Ep. unfold mbind, mlift. rewrite (filterM_ok p (fun s => Bool.eqb (f s) want)) by (intros s I; apply P, T, I). subst n. exact Ew.
Qed.
Lemma add_all fuel me qe m d ign w : (forall s, In s (d_names d) -> ~ reserved s) -> nth_error (w_ms w) m <> None -> exists w', add_named (S (S fuel)) me qe m d "_all" ign w = (w', Ok tt) /\ appended m d (d_names d) w w'.
Proof.
  intros R H. destruct (nth_error (w_ms w) m) as [is|] eqn:E; [|congruence].
  destruct (each_adds fuel me qe m d (d_names d) w is) as (w' & Ew & A); [intros s I; split; [now apply R|exact I]|exact E|].
  exists w'. split; [|exact A]. remember (S fuel) as n eqn:En. cbn [add_named]. change (collection me qe "_all") with (Some (fun _ : string => Ok true)). unfold mbind, mlift. rewrite (filterM_ok (fun _ => Ok true) (fun _ => true)) by (intros; reflexivity). assert (Ef : filter (fun _ : string => true) (d_names d) = d_names d) by (clear; induction (d_names d) as [|x l IH]; [reflexivity|cbn; now rewrite IH]). rewrite Ef. subst n. exact Ew.
Qed.
Lemma add_unknown fuel me qe m d key k want ign w s : stands_for key k want -> In s (d_names d) -> ~ understood me qe s -> exists e, add_named (S fuel) me qe m d key ign w = (w, Err e).
Proof.
  intros S I N. destruct (collection_of me qe key k want S) as (p & Ep & _ & P). destruct (filterM_err p (d_names d) s I (P s N)) as [e E]. exists e. cbn [add_named]. rewrite Ep. unfold mbind, mlift. now rewrite E.
Qed.
(** a species which bears a reserved name *)
Lemma add_loops fuel me qe m d ign w : d_names d = ["_all"%string] -> add_named fuel me qe m d "_all" ign w = (w, Err Diverges).
Proof.
  intro E. revert ign w. induction fuel as [|fuel IH]; intros ign w; [reflexivity|]. cbn [add_named]. change (collection me qe "_all") with (Some (fun _ : string => Ok true)). unfold mbind at 1, mlift. rewrite E. cbn [filterM bind each]. unfold mbind. now rewrite IH.
Qed.
(** * Together they are all of them *)
Lemma appended_members m d l w w' l0 : appended m d l w w' -> members w m l0 -> members w' m (l0 ++ map (fun s => mksingle d s SNone []) l).
Proof.
  intros (is & H & ->) (is0 & H0 & F). rewrite H in H0. injection H0 as <-. cbn [w_ms w_objs]. eexists. cbn [w_ms w_objs]. split; [apply nth_upd_eq; congruence|]. apply Forall2_app.
  - clear - F. induction F as [|i s is0 l0 E F IH]; constructor; [rewrite nth_error_app1; [exact E|apply nth_error_Some; congruence]|exact IH].
  - assert (G : forall l pre, Forall2 (fun i s => nth_error (pre ++ map (fun s => mksingle d s SNone []) l) i = Some s) (seq (length pre) (length l)) (map (fun s => mksingle d s SNone []) l)).
    { intros l1. induction l1 as [|s l1 IH]; intro pre; [constructor|]. cbn [length seq map]. constructor; [rewrite nth_error_app2, Nat.sub_diag by lia; reflexivity|]. specialize (IH (pre ++ [mksingle d s SNone []])). rewrite app_length, Nat.add_1_r, <- app_assoc in IH. exact IH. }
    apply G.
Qed.
Lemma filter_split {A} (f : A -> bool) l : Permutation (filter (fun x => Bool.eqb (f x) true) l ++ filter (fun x => Bool.eqb (f x) false) l) l.
Proof. induction l as [|x l IH]; [constructor|]. cbn [filter]. destruct (f x); cbn [Bool.eqb app]; [now constructor|]. symmetry. apply Permutation_cons_app. now symmetry. Qed.
Lemma appended_defined m d l w w' : appended m d l w w' -> nth_error (w_ms w') m <> None.
Proof. intros (is & H & ->). cbn [w_ms]. rewrite nth_upd_eq; congruence. Qed.
Lemma init_two fuel me qe d key1 key2 k w : stands_for key1 k true -> stands_for key2 k false -> (forall s, In s (d_names d) -> ~ reserved s) -> (forall s, In s (d_names d) -> understood me qe s) ->
  exists w1 m1 l1 w2 m2 l2, ms_init (S (S fuel)) me qe d [key1; key2] false w = (w1, Ok m1) /\ members w1 m1 l1 /\ ms_init (S (S fuel)) me qe d ["_all"%string] false w = (w2, Ok m2) /\ members w2 m2 l2 /\ Permutation l1 l2.
Proof.
  intros S1 S2 R T. assert (K : k = "ision"%string \/ k = "ejected"%string) by (inversion S1; subst; tauto).
  set (f := fun s => match flag me qe k s with Ok b => b | _ => true end).
  assert (Tf : forall s, In s (d_names d) -> told me qe k s (f s)) by (intros s I; destruct (told_any me qe s k K (T s I)) as [b B]; unfold f; now rewrite (flag_told _ _ _ _ _ B)).
  set (w0 := mkworld (w_bools w) (w_ids w) (w_objs w) (w_ms w ++ [[]])). assert (H0 : nth_error (w_ms w0) (length (w_ms w)) = Some []) by (cbn [w_ms w0]; rewrite nth_error_app2, Nat.sub_diag by lia; reflexivity).
  assert (M0 : members w0 (length (w_ms w)) []) by (exists []; split; [exact H0|constructor]).
  destruct (add_collection fuel me qe (length (w_ms w)) d key1 k true false w0 f S1 R Tf ltac:(congruence)) as (wa & Ea & Aa).
  destruct (add_collection fuel me qe (length (w_ms w)) d key2 k false false wa f S2 R Tf (appended_defined _ _ _ _ _ Aa)) as (wb & Eb & Ab).
  destruct (add_all fuel me qe (length (w_ms w)) d false w0 R ltac:(congruence)) as (wc & Ec & Ac).
  exists wb, (length (w_ms w)). eexists. exists wc, (length (w_ms w)). eexists.
  remember (S (S fuel)) as n eqn:En. assert (Ei : forall names, ms_init n me qe d names false w = (do! _ := each (fun s => add_named n me qe (length (w_ms w)) d s false) names in mret (length (w_ms w))) w0) by reflexivity.
  split; [rewrite Ei; cbn [each]; unfold mbind; rewrite Ea, Eb; reflexivity|]. split; [exact (appended_members _ _ _ _ _ _ Ab (appended_members _ _ _ _ _ _ Aa M0))|].
  split; [rewrite Ei; cbn [each]; unfold mbind; rewrite Ec; reflexivity|]. split; [exact (appended_members _ _ _ _ _ _ Ac M0)|].
  cbn [app]. rewrite <- map_app. apply Permutation_map, filter_split.
Qed.
(** * Names given to the constructor *)
Lemma each_named fuel me qe m d l ign : forall w is, (forall s, In s l -> ~ reserved s) -> (ign = true \/ forall s, In s l -> In s (d_names d)) -> nth_error (w_ms w) m = Some is ->
  exists w', each (fun s => add_named (S fuel) me qe m d s ign) l w = (w', Ok tt) /\ appended m d (filter (fun s => existsb (String.eqb s) (d_names d)) l) w w'.
Proof.
  induction l as [|s l IH]; intros w is R P E; [exists w; split; [reflexivity|]; now apply (appended_nil m d w is)|].
  assert (N : ~ reserved s) by (apply R; now left). assert (P' : ign = true \/ forall s, In s l -> In s (d_names d)) by (destruct P as [P|P]; [now left|right; intros; apply P; now right]). assert (R' : forall s, In s l -> ~ reserved s) by (intros; apply R; now right).
  cbn [filter each]. unfold mbind. destruct (existsb (String.eqb s) (d_names d)) eqn:X.
  - assert (I : In s (d_names d)) by (apply existsb_exists in X; destruct X as (y & Y & Q); apply String.eqb_eq in Q; now subst). destruct (add_plain fuel me qe m d s ign w is N I E) as (w1 & E1 & A1). rewrite E1.
    assert (D := appended_defined m d [s] w w1 A1). destruct (nth_error (w_ms w1) m) as [is1|] eqn:Em; [|congruence]. destruct (IH w1 is1 R' P' Em) as (w2 & E2 & A2). exists w2. split; [exact E2|]. exact (appended_app m d [s] _ w w1 w2 A1 A2).
  - assert (I : ~ In s (d_names d)) by (intro I; rewrite (proj2 (existsb_exists _ _)) in X; [discriminate|exists s; split; [exact I|apply String.eqb_refl]]). destruct P as [->|P]; [|exfalso; apply I, P; now left]. rewrite (add_missing fuel me qe m d s true w N I). exact (IH w is R' P' E).
Qed.
Lemma init_named fuel me qe d l ign w : (forall s, In s l -> ~ reserved s) -> (ign = true \/ forall s, In s l -> In s (d_names d)) ->
  exists w' m, ms_init (S fuel) me qe d l ign w = (w', Ok m) /\ members w' m (map (fun s => mksingle d s SNone []) (filter (fun s => existsb (String.eqb s) (d_names d)) l)).
Proof.
  intros R P. set (w0 := mkworld (w_bools w) (w_ids w) (w_objs w) (w_ms w ++ [[]])). assert (H0 : nth_error (w_ms w0) (length (w_ms w)) = Some []) by (cbn [w_ms w0]; rewrite nth_error_app2, Nat.sub_diag by lia; reflexivity).
  destruct (each_named fuel me qe (length (w_ms w)) d l ign w0 [] R P H0) as (w1 & E1 & A1). exists w1, (length (w_ms w)). split.
  - change (ms_init (S fuel) me qe d l ign w) with ((do! _ := each (fun s => add_named (S fuel) me qe (length (w_ms w)) d s ign) l in mret (length (w_ms w))) w0). unfold mbind. now rewrite E1.
  - apply (appended_members _ _ _ _ _ [] A1). exists []. split; [exact H0|constructor].
Qed.
Lemma init_refused fuel me qe d l1 s l2 w : (forall x, In x (l1 ++ [s]) -> ~ reserved x) -> (forall x, In x l1 -> In x (d_names d)) -> ~ In s (d_names d) ->
  exists w', ms_init (S fuel) me qe d (l1 ++ s :: l2) false w = (w', Err KeyError).
Proof.
  intros R P N. set (w0 := mkworld (w_bools w) (w_ids w) (w_objs w) (w_ms w ++ [[]])). assert (H0 : nth_error (w_ms w0) (length (w_ms w)) = Some []) by (cbn [w_ms w0]; rewrite nth_error_app2, Nat.sub_diag by lia; reflexivity).
  destruct (each_named fuel me qe (length (w_ms w)) d l1 false w0 [] (fun x I => R x (in_or_app _ _ _ (or_introl I))) (or_intror P) H0) as (w1 & E1 & _).
  assert (G : forall f (a b : list string) w w', each f a w = (w', Ok tt) -> each f (a ++ b) w = each f b w').
  { clear. intros f a b. induction a as [|x a IH]; intros w w' E; [cbn in E; now injection E as <-|]. cbn [each app] in *. unfold mbind in *. destruct (f x w) as [w1 [u|e]]; [now apply IH|discriminate]. }
  exists w1. change (ms_init (S fuel) me qe d (l1 ++ s :: l2) false w) with ((do! _ := each (fun s => add_named (S fuel) me qe (length (w_ms w)) d s false) (l1 ++ s :: l2) in mret (length (w_ms w))) w0). unfold mbind. rewrite (G _ _ _ _ _ E1). cbn [each]. unfold mbind. rewrite (add_missing fuel me qe _ d s false w1); [reflexivity| |exact N]. apply R, in_or_app. right. now left.
Qed.
