(** Lemmas about the index file. *)
From Coq Require Import Permutation Ascii FinFun Lia.
From Verif Require Import PyBase IoModel IndexModel IndexSpec.
Local Open Scope string_scope.

Lemma find_In {X} k (l : list (string * X)) x : find k l = Some x -> In (k, x) l.
Proof. induction l as [|[k' y] l IH]; cbn; [discriminate|]. destruct (String.eqb_spec k k') as [->|]; [intros [= ->]; now left|right; auto]. Qed.
Lemma In_find {X} k (l : list (string * X)) x : NoDup (map fst l) -> In (k, x) l -> find k l = Some x.
Proof.
  induction l as [|[k' y] l IH]; cbn; [tauto|]. intro N. inversion N as [|? ? N1 N2]; subst. intros [[= -> ->]|I]; [now rewrite String.eqb_refl|]. destruct (String.eqb_spec k k') as [->|]; [|auto]. exfalso. apply N1. apply in_map_iff. exists (k', x). auto.
Qed.
Lemma find_none {X} k (l : list (string * X)) : find k l = None -> forall x, ~ In (k, x) l.
Proof. induction l as [|[k' y] l IH]; cbn; [auto|]. destruct (String.eqb_spec k k') as [->|]; [discriminate|]. intros N x [[= E _]|I]; [congruence|]. eapply IH; eauto. Qed.
Lemma find_app {X} k (l : list (string * X)) k' x : find k (l ++ [(k', x)]) = match find k l with Some y => Some y | None => if String.eqb k k' then Some x else None end.
Proof. induction l as [|[a b] l IH]; cbn; [reflexivity|]. destruct (String.eqb k a); [reflexivity|exact IH]. Qed.
Lemma endswith_spec s t : endswith s t = true <-> exists p, s = p ++ t.
Proof.
  split.
  - induction s as [|c s IH]; cbn [endswith].
    + destruct (String.eqb_spec "" t) as [<-|]; [exists ""; reflexivity|discriminate].
    + destruct (String.eqb_spec (String c s) t) as [<-|]; [exists ""; reflexivity|]. intro H. destruct (IH H) as (p & ->). exists (String c p). reflexivity.
  - intros (p & ->). induction p as [|c p IH]; cbn [append].
    + destruct t; cbn [endswith]; now rewrite String.eqb_refl.
    + cbn [endswith]. destruct (String.eqb _ _); [reflexivity|exact IH].
Qed.
Lemma left_out_dec k : endswith k "latest_IDs" = true <-> left_out k.
Proof. apply endswith_spec. Qed.
Lemma prefix_slash k k' : String.prefix (k ++ "/") k' = true -> exists t, k' = k ++ "/" ++ t.
Proof.
  revert k'. induction k as [|c k IH]; intros k' H; cbn [append] in *.
  - destruct k' as [|c' k']; [discriminate|]. cbn [String.prefix append] in H. destruct (ascii_dec "/" c') as [<-|]; [|discriminate]. exists k'. reflexivity.
  - destruct k' as [|c' k']; [discriminate|]. cbn [String.prefix append] in H. destruct (ascii_dec c c') as [<-|]; [|discriminate]. destruct (IH k' H) as (t & ->). exists t. reflexivity.
Qed.
Lemma app_longer k t : k <> k ++ "/" ++ t.
Proof. induction k as [|c k IH]; cbn; [discriminate|]. intros [= E]. exact (IH E). Qed.

Local Open Scope list_scope.
(** * The index after some visits *)
Definition entry_of {D A} (f k : string) (o : obj D A) : entry A := match o with Group a => Grp a | _ => Link f k end.
Lemma fill_app {D A} (p q : list (string * (string * obj D A))) ih : fill (p ++ q) ih = match fill p ih with (ih', Ok _) => fill q ih' | r => r end.
Proof. revert ih. induction p as [|[f ko] p IH]; intro ih; [reflexivity|]. cbn [app fill]. destruct (visit f ih ko); [apply IH|reflexivity]. Qed.
Lemma visits_in {D A} (files : list (string * h5 D A)) f k o : In (f, (k, o)) (visits files) <-> in_file files f k o.
Proof.
  unfold visits, in_file. rewrite in_flat_map. split.
  - intros ([g objs] & G & I). cbn in I. apply in_map_iff in I as ([k2 o2] & [= -> -> ->] & I). eauto.
  - intros (objs & F & I). exists (f, objs). split; [exact F|]. apply in_map_iff. exists (k, o). auto.
Qed.
(** everything in the index was visited *)
Definition comes_from {D A} (p : list (string * (string * obj D A))) (ih : index A) : Prop :=
  forall k e, In (k, e) ih -> exists f o, In (f, (k, o)) p /\ ~ left_out k /\ e = entry_of f k o.
Definition covers {D A} (p : list (string * (string * obj D A))) (ih : index A) : Prop :=
  forall f k o, In (f, (k, o)) p -> ~ left_out k -> find k ih <> None.
Lemma visit_grows {D A} f ih (ko : string * obj D A) ih' : visit f ih ko = Ok ih' -> ih' = ih \/ ih' = ih ++ [(fst ko, entry_of f (fst ko) (snd ko))] /\ ~ left_out (fst ko) /\ find (fst ko) ih = None.
Proof.
  destruct ko as [k o]. unfold visit. destruct (endswith k "latest_IDs"%string) eqn:E; [intros [= <-]; now left|]. assert (N : ~ left_out k) by (intro L; apply left_out_dec in L; congruence). unfold taken.
  destruct o; cbn [fst snd entry_of]; destruct (find k ih); cbn [orb]; try discriminate; try (intros [= <-]; now left); destruct (below_link ih k); try discriminate; intros [= <-]; right; auto.
Qed.
Lemma visit_taken {D A} f ih k (o : obj D A) ih' : visit f ih (k, o) = Ok ih' -> ~ left_out k -> find k ih' <> None.
Proof.
  intros V N. pose proof V as V2. unfold visit in V. destruct (endswith k "latest_IDs"%string) eqn:E; [apply left_out_dec in E; contradiction|]. apply visit_grows in V2 as [->|(-> & _ & F)]; cbn [fst snd] in *.
  - unfold taken in V. assert (G : forall e, Ok (ih ++ [(k, e)]) = Ok ih -> False) by (intros e [= Q]; apply (f_equal (@length _)) in Q; rewrite app_length in Q; cbn in Q; rewrite Nat.add_comm in Q; cbn in Q; exact (n_Sn _ (eq_sym Q))). destruct (find k ih) as [e|]; [discriminate|]. exfalso. destruct o; cbn [orb] in V; destruct (below_link ih k); try discriminate V; eapply G; exact V.
  - rewrite find_app, F, String.eqb_refl. discriminate.
Qed.
Lemma visit_keeps {D A} f ih (ko : string * obj D A) ih' k e : visit f ih ko = Ok ih' -> find k ih = Some e -> find k ih' = Some e.
Proof. intros V F. apply visit_grows in V as [->|(-> & _)]; [exact F|]. now rewrite find_app, F. Qed.
Lemma fill_keeps {D A} (p : list (string * (string * obj D A))) ih ih' r k e : fill p ih = (ih', r) -> find k ih = Some e -> find k ih' = Some e.
Proof. revert ih. induction p as [|[f ko] p IH]; intros ih E F; cbn [fill] in E; [now injection E as <- _|]. destruct (visit f ih ko) as [i|] eqn:V; [|now injection E as <- _]. eapply IH; [exact E|]. eapply visit_keeps; eauto. Qed.
Lemma fill_covers {D A} (p : list (string * (string * obj D A))) ih ih' : fill p ih = (ih', Ok tt) -> covers p ih'.
Proof.
  revert ih. induction p as [|[f [k o]] p IH]; intros ih E f2 k2 o2 I N; [destruct I|]. cbn [fill] in E. destruct (visit f ih (k, o)) as [i|] eqn:V; [|discriminate]. destruct I as [[= <- <- <-]|I]; [|eapply IH; eauto].
  pose proof (visit_taken _ _ _ _ _ V N) as T. destruct (find k i) as [e|] eqn:F; [|congruence]. rewrite (fill_keeps _ _ _ _ _ _ E F). discriminate.
Qed.
Lemma fill_from {D A} (q p : list (string * (string * obj D A))) ih ih' r : comes_from q ih -> fill p ih = (ih', r) -> comes_from (q ++ p) ih'.
Proof.
  revert q ih. induction p as [|[f ko] p IH]; intros q ih C E; cbn [fill] in E; [injection E as <- _; now rewrite app_nil_r|]. destruct (visit f ih ko) as [i|er] eqn:V.
  - replace (q ++ (f, ko) :: p) with ((q ++ [(f, ko)]) ++ p) by (rewrite <- app_assoc; reflexivity). eapply IH; [|exact E]. intros k e I. apply visit_grows in V as [->|(-> & N & _)].
    + destruct (C k e I) as (f2 & o2 & P & N & Q). exists f2, o2. split; [apply in_or_app; now left|auto].
    + apply in_app_or in I as [I|[[= <- <-]|[]]].
      * destruct (C k e I) as (f2 & o2 & P & N2 & Q). exists f2, o2. split; [apply in_or_app; now left|auto].
      * destruct ko as [k o]. exists f, o. split; [apply in_or_app; right; now left|auto].
  - injection E as <- _. intros k e I. destruct (C k e I) as (f2 & o2 & P & N2 & Q). exists f2, o2. split; [apply in_or_app; now left|auto].
Qed.
Lemma from_nil {D A} : @comes_from D A [] [].
Proof. intros k e []. Qed.
Lemma nodup_app {X} (a b : list X) : NoDup a -> NoDup b -> (forall x, In x a -> In x b -> False) -> NoDup (a ++ b).
Proof. induction a as [|x a IH]; cbn; [auto|]. intros N M H. inversion N; subst. constructor; [rewrite in_app_iff; intros [?|?]; [auto|eapply H; eauto]|]. apply IH; auto. intros; eapply H; eauto. Qed.
Lemma visits_nodup {D A} (files : list (string * h5 D A)) : proper_files files -> NoDup (map (fun v => (fst v, fst (snd v))) (visits files)).
Proof.
  intros [N F]. induction files as [|[f objs] files IH]; [constructor|]. inversion N as [|? ? N1 N2]; subst. inversion F as [|? ? F1 F2]; subst. unfold visits. cbn [flat_map fst snd]. rewrite map_app, map_map. apply nodup_app.
  - rewrite <- (map_map fst (pair f)). apply Injective_map_NoDup; [intros x y [= ->]; reflexivity|exact F1].
  - exact (IH N2 F2).
  - intros [g k] I J. apply in_map_iff in I as (x & [= <- <-] & _). apply in_map_iff in J as ([g [k o]] & [= -> _] & J). apply (visits_in files) in J as (ob & J & _). apply N1. apply in_map_iff. exists (f, ob). auto.
Qed.
Definition clashless {D A} (p : list (string * (string * obj D A))) : Prop :=
  forall f g k k' o o', In (f, (k, o)) p -> In (g, (k', o')) p -> ~ left_out k -> ~ left_out k' -> has_data o -> at_or_below k k' -> f = g /\ k' = k.
Lemma fill_ok {D A} (p q : list (string * (string * obj D A))) ih : NoDup (map (fun v => (fst v, fst (snd v))) (q ++ p)) -> clashless (q ++ p) -> comes_from q ih -> exists ih', fill p ih = (ih', Ok tt).
Proof.
  revert q ih. induction p as [|[f [k o]] p IH]; intros q ih N C F; [cbn; eauto|]. cbn [fill]. assert (V : exists i, visit f ih (k, o) = Ok i).
  { unfold visit. destruct (endswith k "latest_IDs"%string) eqn:E; [eauto|]. assert (Nk : ~ left_out k) by (intro L; apply left_out_dec in L; congruence).
    assert (B : below_link ih k = false).
    { destruct (below_link ih k) eqn:B; [|reflexivity]. unfold below_link in B. apply existsb_exists in B as ([k2 e] & I & P). cbn [fst snd] in P. destruct e as [f2 k3|]; [|discriminate]. destruct (F _ _ I) as (g & o2 & J & N2 & Q). apply prefix_slash in P as (t & ->). destruct (C g f k2 (k2 ++ "/" ++ t)%string o2 o) as [_ X]; [apply in_or_app; now left|apply in_or_app; right; now left|exact N2|exact Nk|destruct o2; [exact Logic.I|exact Logic.I|discriminate Q]|right; eauto|]. symmetry in X. now apply app_longer in X. }
    assert (T : has_data o -> find k ih = None).
    { intro H. destruct (find k ih) as [e|] eqn:E2; [|reflexivity]. apply find_In in E2. destruct (F _ _ E2) as (g & o2 & J & N2 & Q). destruct (C f g k k o o2) as [-> _]; [apply in_or_app; right; now left|apply in_or_app; now left|exact Nk|exact Nk|exact H|now left|]. exfalso. rewrite map_app in N. cbn in N. apply NoDup_remove_2 in N. apply N. apply in_or_app. left. apply in_map_iff. exists (g, (k, o2)). auto. }
    unfold taken. rewrite B. destruct o; [rewrite (T Logic.I); cbn; eauto|rewrite (T Logic.I); cbn; eauto|destruct (find k ih); eauto]. }
  destruct V as (i & V). rewrite V. apply (IH (q ++ [(f, (k, o))]) i); [now rewrite <- app_assoc|now rewrite <- app_assoc|]. apply (fill_from q [(f, (k, o))] ih i (Ok tt) F). cbn [fill]. now rewrite V.
Qed.
Lemma in_file_perm {D A} (l m : list (string * h5 D A)) : Permutation l m -> forall f k o, in_file l f k o <-> in_file m f k o.
Proof. intros P f k o. split; intros (ob & I & J); exists ob; (split; [|exact J]); [now apply (Permutation_in _ P)|now apply (Permutation_in _ (Permutation_sym P))]. Qed.
Lemma proper_perm {D A} (l m : list (string * h5 D A)) : Permutation l m -> proper_files l -> proper_files m.
Proof. intros P [N F]. split; [apply (Permutation_NoDup (Permutation_map fst P) N)|]. apply Forall_forall. intros x X. rewrite Forall_forall in F. apply F. now apply (Permutation_in _ (Permutation_sym P)). Qed.
Lemma lookup_file {D A} (files : list (string * h5 D A)) f k o : proper_files files -> in_file files f k o -> exists objs, find f files = Some objs /\ find k objs = Some o.
Proof. intros [N F] (ob & I & J). exists ob. split; [now apply In_find|]. apply In_find; [|exact J]. rewrite Forall_forall in F. exact (F _ I). Qed.
Lemma in_file_same {D A} (files : list (string * h5 D A)) f k o o' : proper_files files -> in_file files f k o -> in_file files f k o' -> o = o'.
Proof. intros P I J. destruct (lookup_file _ _ _ _ P I) as (a & E1 & E2). destruct (lookup_file _ _ _ _ P J) as (b & E3 & E4). congruence. Qed.
Lemma index_complete {D A} (listing : list (string * h5 D A)) d : d_index d = None -> Permutation (d_files d) listing -> proper_files (d_files d) -> no_clash (d_files d) -> groups_agree (d_files d) ->
  exists d', getindex listing d = (d', Ok tt) /\ d_files d' = d_files d /\ forall k o, lookup d' k = Ok o <-> present (d_files d) k o.
Proof.
  intros I P W C G. unfold getindex. rewrite I. pose proof (proper_perm _ _ P W) as W2. pose proof (in_file_perm _ _ P) as Q.
  destruct (fill_ok (visits listing) [] []) as (ih & E); [exact (visits_nodup _ W2)| |exact from_nil|].
  { intros f g k k' o o' H1 H2. cbn [app] in *. apply visits_in, Q in H1, H2. now apply (C f g k k' o o'). }
  rewrite E. eexists. split; [reflexivity|]. split; [reflexivity|]. pose proof (fill_covers _ _ _ E) as Cv. pose proof (fill_from [] _ _ _ _ from_nil E) as Fr. cbn [app] in Fr. intros k o. unfold lookup. cbn [d_index d_files]. split.
  - destruct (find k ih) as [e|] eqn:F; [|discriminate]. apply find_In in F. destruct (Fr _ _ F) as (f & o' & H1 & N & ->). apply visits_in, Q in H1. destruct (lookup_file _ _ _ _ W H1) as (ob & E1 & E2). destruct o' as [x|x|a]; cbn [entry_of]; try rewrite E1, E2; intros [= <-]; exists f; auto.
  - intros (f & H1 & N). assert (H2 : In (f, (k, o)) (visits listing)) by now apply visits_in, Q. specialize (Cv _ _ _ H2 N). destruct (find k ih) as [e|] eqn:F; [|congruence]. apply find_In in F. destruct (Fr _ _ F) as (g & o' & H3 & _ & ->). apply visits_in, Q in H3. destruct (lookup_file _ _ _ _ W H3) as (ob & E1 & E2).
    assert (S : o = o').
    { destruct o as [x|x|a]; [| |destruct o' as [y|y|b]].
      - destruct (C f g k k _ _ H1 H3 N N Logic.I (or_introl eq_refl)) as [-> _]. exact (in_file_same _ _ _ _ _ W H1 H3).
      - destruct (C f g k k _ _ H1 H3 N N Logic.I (or_introl eq_refl)) as [-> _]. exact (in_file_same _ _ _ _ _ W H1 H3).
      - destruct (C g f k k _ _ H3 H1 N N Logic.I (or_introl eq_refl)) as [-> _]. exact (in_file_same _ _ _ _ _ W H1 H3).
      - destruct (C g f k k _ _ H3 H1 N N Logic.I (or_introl eq_refl)) as [-> _]. exact (in_file_same _ _ _ _ _ W H1 H3).
      - now rewrite (G f g k a b H1 H3). }
    subst o'. destruct o; cbn [entry_of]; try rewrite E1, E2; reflexivity.
Qed.
(** data of the same name in two files *)
Lemma fill_two {D A} (p : list (string * (string * obj D A))) ih ih' f g k o o' : fill p ih = (ih', Ok tt) -> has_data o -> has_data o' -> ~ left_out k -> NoDup (map (fun v => (fst v, fst (snd v))) p) -> In (f, (k, o)) p -> In (g, (k, o')) p -> f = g.
Proof.
  intros E H H' N U I J. destruct (string_dec f g) as [|X]; [assumption|exfalso].
  assert (G : forall a b (x y : obj D A), has_data y -> forall p1 p2, p = p1 ++ (b, (k, y)) :: p2 -> In (a, (k, x)) p1 -> False).
  { intros a b x y Hy p1 p2 -> I1. rewrite fill_app in E. destruct (fill p1 ih) as [i [[]|]] eqn:E1; [|discriminate]. pose proof (fill_covers _ _ _ E1 _ _ _ I1 N) as T. cbn [fill] in E. unfold visit, taken in E. destruct (endswith k "latest_IDs"%string) eqn:L; [apply left_out_dec in L; contradiction|]. destruct (find k i); [|congruence]. destruct y; [discriminate|discriminate|exact Hy]. }
  destruct (in_split _ _ I) as (p1 & p2 & S). assert (J2 : In (g, (k, o')) p1 \/ In (g, (k, o')) p2).
  { rewrite S in J. apply in_app_or in J as [J|[[= Q _]|J]]; [now left|congruence|now right]. }
  destruct J2 as [J1|J2]; [exact (G g f o' o H p1 p2 S J1)|]. destruct (in_split _ _ J2) as (p3 & p4 & S2). apply (G f g o o' H' (p1 ++ (f, (k, o)) :: p3) p4).
  - rewrite S, S2, <- app_assoc. reflexivity.
  - apply in_or_app. right. now left.
Qed.
Lemma index_clash {D A} (listing : list (string * h5 D A)) d f g k o o' : d_index d = None -> Permutation (d_files d) listing -> proper_files (d_files d) -> in_file (d_files d) f k o -> in_file (d_files d) g k o' -> has_data o -> has_data o' -> ~ left_out k -> f <> g -> exists e, snd (getindex listing d) = Err e.
Proof.
  intros I P W F G H H' N X. unfold getindex. rewrite I. destruct (fill (visits listing) []) as [ih [[]|e]] eqn:E; [|cbn; eauto]. exfalso. apply X. eapply (fill_two (visits listing)); [exact E|exact H|exact H'|exact N|exact (visits_nodup _ (proper_perm _ _ P W))| |]; apply visits_in, (in_file_perm _ _ P); eassumption.
Qed.
(** * Histories *)
Lemma index_forever {D A} (es : list (event D A)) d ih : d_index d = Some ih -> d_index (after es d) = Some ih.
Proof.
  revert d. induction es as [|e es IH]; intros d I; [exact I|]. unfold after in *. cbn [fold_left]. apply IH. destruct e; cbn [happen]; [exact I|unfold getindex; now rewrite I|unfold interrupted; now rewrite I].
Qed.
Lemma missing_forever {D A} (es : list (event D A)) d ih k : d_index d = Some ih -> lookup d k = Err KeyError -> find k ih = None -> lookup (after es d) k = Err KeyError.
Proof. intros I L F. unfold lookup. rewrite (index_forever es d ih I), F. reflexivity. Qed.
Definition own_keys {A} (ih : index A) : Prop := forall k f k', In (k, Link f k') ih -> k' = k.
Lemma fill_own {D A} (p : list (string * (string * obj D A))) ih r : fill p [] = (ih, r) -> own_keys ih.
Proof. intros E k f k' I. destruct (fill_from [] p [] ih r from_nil E _ _ I) as (g & o & _ & _ & Q). destruct o; cbn in Q; congruence. Qed.
Lemma index_own {D A} (es : list (event D A)) d : (forall ih, d_index d = Some ih -> own_keys ih) -> forall ih, d_index (after es d) = Some ih -> own_keys ih.
Proof.
  revert d. induction es as [|e es IH]; intros d H; [exact H|]. unfold after in *. cbn [fold_left]. apply IH. intros ih E. destruct e as [f k o|order|n order]; cbn [happen] in E.
  - exact (H ih E).
  - unfold getindex in E. destruct (d_index d) eqn:Q; [cbn [fst] in E; rewrite Q in E; exact (H ih E)|]. destruct (fill (visits (order (d_files d))) []) as [i r] eqn:F. cbn in E. injection E as <-. eapply fill_own; eauto.
  - unfold interrupted in E. destruct (d_index d) eqn:Q; [rewrite Q in E; exact (H ih E)|]. cbn in E. injection E as <-. destruct (fill (firstn n (visits (order (d_files d)))) []) as [i r] eqn:F. eapply fill_own; eauto.
Qed.
Lemma data_current {D A} (es : list (event D A)) files k o : lookup (after es (mkdir files None)) k = Ok o -> has_data o -> exists f, in_file (d_files (after es (mkdir files None))) f k o.
Proof.
  intros L H. unfold lookup in L. destruct (d_index (after es (mkdir files None))) as [ih|] eqn:E; [|discriminate]. destruct (find k ih) as [[f k'|a]|] eqn:F; [|injection L as <-; destruct H|discriminate].
  pose proof (index_own es (mkdir files None) ltac:(discriminate) ih E) as Ow. apply find_In in F. rewrite (Ow _ _ _ F) in *. destruct (find f (d_files (after es (mkdir files None)))) as [ob|] eqn:F1; [|discriminate]. destruct (find k ob) as [o'|] eqn:F2; [|discriminate]. injection L as ->. exists f, ob. split; apply find_In; assumption.
Qed.
Lemma visit_link {D A} f ih k (o : obj D A) ih' : visit f ih (k, o) = Ok ih' -> has_data o -> ~ left_out k -> find k ih' = Some (Link f k).
Proof.
  unfold visit. destruct (endswith k "latest_IDs"%string) eqn:E; [intros _ _ N; apply left_out_dec in E; contradiction|]. unfold taken. intros V H _.
  destruct o as [x|x|a]; [| |destruct H]; (destruct (find k ih) eqn:F; [discriminate V|]); cbn [orb] in V; (destruct (below_link ih k); [discriminate V|]); injection V as <-; rewrite find_app, F; now rewrite String.eqb_refl.
Qed.
Lemma fill_link {D A} (p : list (string * (string * obj D A))) ih ih' f k o : fill p ih = (ih', Ok tt) -> In (f, (k, o)) p -> has_data o -> ~ left_out k -> find k ih' = Some (Link f k).
Proof.
  revert ih. induction p as [|[g ko] p IH]; intros ih E I H N; [destruct I|]. cbn [fill] in E. destruct (visit g ih ko) as [i|] eqn:V; [|discriminate E].
  destruct I as [[= -> ->]|I]; [|eapply IH; eauto]. eapply fill_keeps; [exact E|]. eapply visit_link; eauto.
Qed.
Lemma slash_prefix k t : String.prefix (k ++ "/")%string (k ++ "/" ++ t)%string = true.
Proof. induction k as [|c k IH]; cbn; [now destruct t|]. destruct (Ascii.ascii_dec c c) as [_|N]; [exact IH|now elim N]. Qed.
Lemma visit_below {D A} g ih k t (o : obj D A) f k0 : find k ih = Some (Link f k0) -> has_data o -> ~ left_out (k ++ "/" ++ t)%string -> exists e, visit g ih ((k ++ "/" ++ t)%string, o) = Err e.
Proof.
  intros F H N. unfold visit. destruct (endswith _ "latest_IDs"%string) eqn:E; [apply left_out_dec in E; contradiction|].
  assert (B : below_link ih (k ++ "/" ++ t)%string = true) by (unfold below_link; apply existsb_exists; exists (k, Link f k0); split; [now apply find_In|]; cbn [fst snd]; apply slash_prefix).
  rewrite B, Bool.orb_true_r. destruct o; [eauto|eauto|destruct H].
Qed.
Lemma fill_below {D A} (p : list (string * (string * obj D A))) ih f k0 g k t o : find k ih = Some (Link f k0) -> In (g, ((k ++ "/" ++ t)%string, o)) p -> has_data o -> ~ left_out (k ++ "/" ++ t)%string -> exists e, snd (fill p ih) = Err e.
Proof.
  revert ih. induction p as [|[h ko] p IH]; intros ih F I H N; [destruct I|]. destruct I as [E|I].
  - pose proof (f_equal fst E) as E1. pose proof (f_equal snd E) as E2. cbn [fst snd] in E1, E2. subst h ko. destruct (visit_below g ih k t o f k0 F H N) as [e V]. cbn [fill]. rewrite V. now exists e.
  - cbn [fill]. destruct (visit h ih ko) as [i|e] eqn:V; [|now exists e]. apply IH; auto. eapply visit_keeps; eauto.
Qed.
Lemma index_below {D A} (first later : list (string * h5 D A)) d f g k t o o' : d_index d = None -> in_file first f k o -> in_file later g (k ++ "/" ++ t)%string o' -> has_data o -> has_data o' -> ~ left_out k -> ~ left_out (k ++ "/" ++ t)%string ->
  exists e, snd (getindex (first ++ later) d) = Err e.
Proof.
  intros I F G H H' N N'. unfold getindex. rewrite I. assert (V : visits (first ++ later) = visits first ++ visits later) by apply flat_map_app. rewrite V, fill_app. destruct (fill (visits first) []) as [ih [[]|e]] eqn:E; [|exists e; reflexivity].
  apply visits_in in F, G. pose proof (fill_link _ _ _ _ _ _ E F H N) as L. destruct (fill_below _ _ _ _ _ _ _ _ L G H' N') as [e E']. exists e. destruct (fill (visits later) ih). exact E'.
Qed.
Lemma find_put {X} k (x : X) l k' : find k' (put k x l) = if String.eqb k' k then Some x else find k' l.
Proof.
  induction l as [|[a b] l IH]; cbn; [now destruct (String.eqb k' k)|]. destruct (String.eqb_spec k a) as [->|N]; cbn; [now destruct (String.eqb k' a)|].
  rewrite IH. destruct (String.eqb_spec k' a) as [->|M]; [|reflexivity]. destruct (String.eqb_spec a k) as [->|]; [now elim N|reflexivity].
Qed.
Lemma write_follows {D A} (es : list (event D A)) files f k o : let d := after es (mkdir files None) in
  (forall k2, k2 <> k -> lookup (happen d (Write f k o)) k2 = lookup d k2) /\
  (forall o1, lookup d k = Ok o1 -> has_data o1 -> (forall f' o', in_file (d_files d) f' k o' -> f' = f) -> lookup (happen d (Write f k o)) k = Ok o).
Proof.
  intro d. assert (W : forall ih, d_index d = Some ih -> own_keys ih) by (apply index_own; discriminate). split.
  - intros k2 N. unfold lookup. cbn [happen d_index d_files]. destruct (d_index d) as [ih|] eqn:I; [|reflexivity]. destruct (find k2 ih) as [[f' k'|a]|] eqn:F; [|reflexivity..].
    pose proof (W ih eq_refl _ _ _ (find_In _ _ _ F)) as ->. rewrite find_put. destruct (String.eqb_spec f' f) as [->|]; [|reflexivity].
    rewrite find_put. destruct (String.eqb_spec k2 k) as [|_]; [contradiction|]. destruct (find f (d_files d)); reflexivity.
  - intros o1 L H U. unfold lookup in *. cbn [happen d_index d_files]. destruct (d_index d) as [ih|] eqn:I; [|discriminate L]. destruct (find k ih) as [[f' k'|a]|] eqn:F; [|injection L as <-; destruct H|discriminate L].
    pose proof (W ih eq_refl _ _ _ (find_In _ _ _ F)) as ->. assert (f' = f) as ->.
    { destruct (find f' (d_files d)) as [ob|] eqn:F1; [|discriminate L]. destruct (find k ob) as [o2|] eqn:F2; [|discriminate L]. apply (U f' o2). exists ob. split; now apply find_In. }
    rewrite find_put, String.eqb_refl, find_put, String.eqb_refl. reflexivity.
Qed.
