(** Proofs about the registry and the resolution of names. *)
From Coq Require Import Lia.
From Verif Require Import PyBase PyBaseFacts NumpyModel NdModel RegistryModel RegistrySpec.
Open Scope string_scope.

Lemma key_eqb_spec a b : reflect (a = b) (key_eqb a b).
Proof.
  destruct a as [a|], b as [b|]; cbn [key_eqb]; try (constructor; congruence).
  destruct (String.eqb_spec a b); constructor; congruence.
Qed.
Lemma reg_get_set r k p j : reg_get (reg_set r k p) j = if key_eqb k j then Some p else reg_get r j.
Proof.
  induction r as [|[i q] r IH]; cbn [reg_set reg_get]; [reflexivity|].
  destruct (key_eqb_spec i k) as [->|N]; cbn [reg_get].
  - destruct (key_eqb k j); reflexivity.
  - rewrite IH. destruct (key_eqb_spec i j) as [->|]; [|reflexivity]. destruct (key_eqb_spec k j); [congruence|reflexivity].
Qed.
Definition keys_ok (r : registry) : Prop := NoDup (map fst r) /\ ~ In None (map fst r).
Lemma reg_get_none r k : reg_get r k = None <-> ~ In k (map fst r).
Proof.
  induction r as [|[i q] r IH]; cbn [reg_get map fst]; [split; auto|]. destruct (key_eqb_spec i k) as [->|N].
  - split; [discriminate|]. intro H. exfalso. apply H. now left.
  - rewrite IH. split; intros H; [intros [K|K]; auto|]. intro K. apply H. now right.
Qed.
Lemma reg_get_del r k j : NoDup (map fst r) -> reg_get (reg_del r k) j = if key_eqb k j then None else reg_get r j.
Proof.
  induction r as [|[i q] r IH]; intro ND; cbn [reg_del reg_get].
  - destruct (key_eqb k j); reflexivity.
  - cbn [map fst] in ND. inversion ND as [|a b NI ND']; subst. destruct (key_eqb_spec i k) as [->|N]; cbn [reg_get].
    + destruct (key_eqb_spec k j) as [->|]; [now apply reg_get_none|reflexivity].
    + rewrite (IH ND'). destruct (key_eqb_spec i j) as [->|]; [|reflexivity]. destruct (key_eqb_spec k j); [congruence|reflexivity].
Qed.
Lemma set_keys r k p : reg_get r k = None -> map fst (reg_set r k p) = (map fst r ++ [k])%list.
Proof.
  induction r as [|[i q] r IH]; cbn [reg_set reg_get map fst]; [reflexivity|]. destruct (key_eqb_spec i k) as [->|N]; [discriminate|].
  intro H. cbn [map fst app]. now rewrite IH.
Qed.
Lemma del_keys r k : NoDup (map fst r) -> map fst (reg_del r k) = filter (fun j => negb (key_eqb j k)) (map fst r).
Proof.
  induction r as [|[i q] r IH]; intro ND; cbn [reg_del map fst filter]; [reflexivity|]. cbn [map fst] in ND. inversion ND as [|a b NI ND']; subst.
  destruct (key_eqb_spec i k) as [->|N]; cbn [negb].
  - assert (F : forall l, ~ In k l -> filter (fun j => negb (key_eqb j k)) l = l).
    { clear. induction l as [|x l IH]; intro N; [reflexivity|]. cbn [filter]. destruct (key_eqb_spec x k) as [->|]; [exfalso; apply N; now left|].
      cbn [negb]. f_equal. apply IH. intro K. apply N. now right. }
    symmetry. apply F, NI.
  - cbn [map fst]. now rewrite IH.
Qed.
Lemma symbol_same p : sp_symbol p = symbol_of p.
Proof. unfold sp_symbol, symbol_of. destruct (sp_symbol0 p); reflexivity. Qed.

(** ** invariant *)
Definition agrees (r : registry) (t : table * list string) : Prop :=
  keys_ok r /\ (forall s, reg_get r (Some s) = fst t s) /\ map fst r = map Some (snd t).
Lemma mem_none r : keys_ok r -> reg_get r None = None.
Proof. intros [_ N]. now apply reg_get_none. Qed.
Lemma filter_Some (s : string) l : filter (fun j => negb (key_eqb j (Some s))) (map Some l) = map Some (filter (fun k => negb (String.eqb k s)) l).
Proof. induction l as [|x l IH]; [reflexivity|]. cbn [map filter key_eqb]. destruct (String.eqb x s); cbn [negb map]; now rewrite IH. Qed.
Lemma filter_absent (s : string) l : ~ In s l -> filter (fun k => negb (String.eqb k s)) l = l.
Proof.
  induction l as [|x l IH]; intro N; [reflexivity|]. cbn [filter]. destruct (String.eqb_spec x s) as [->|]; [exfalso; apply N; now left|].
  cbn [negb]. f_equal. apply IH. intro K. apply N. now right.
Qed.
Lemma reg_step_ok r t o : agrees r t -> agrees (reg_step r o) (order_step t o).
Proof.
  intros (KO & G & O). destruct KO as [ND NN]. destruct o as [p|[s|]]; cbn [reg_step].
  - unfold add. rewrite symbol_same. unfold reg_mem. unfold order_step. cbn [table_step fst snd].
    destruct (symbol_of p) as [s|] eqn:S.
    + rewrite G. destruct (fst t s) as [q|] eqn:T; cbn [fst]; [split; [split|split]; assumption|].
      assert (GN : reg_get r (Some s) = None) by (now rewrite G). unfold agrees, keys_ok. rewrite (set_keys _ _ _ GN), O. cbn [fst snd]. rewrite map_app. cbn [map].
      assert (NI : ~ In (Some s) (map fst r)) by (now apply reg_get_none).
      split; [split|split]; [|..|reflexivity].
      * rewrite <- O. clear -ND NI. induction (map fst r) as [|x l IH]; cbn [app]; [repeat constructor; auto|]. inversion ND; subst. constructor.
        { rewrite in_app_iff. intros [K|[K|[]]]; [contradiction|]. apply NI. now left. } apply IH; [assumption|]. intro K. apply NI. now right.
      * rewrite in_app_iff. intros [K|[K|[]]]; [rewrite <- O in K; contradiction|discriminate K].
      * intro s'. rewrite reg_get_set. cbn [key_eqb]. rewrite String.eqb_sym. destruct (String.eqb s' s); [reflexivity|apply G].
    + rewrite (mem_none r (conj ND NN)). cbn [fst]. split; [split|split]; assumption.
  - unfold remove, reg_mem. rewrite G. unfold order_step. cbn [table_step fst snd]. destruct (fst t s) as [q|] eqn:T; cbn [fst].
    + unfold agrees, keys_ok. rewrite (del_keys _ _ ND). cbn [fst snd].
      split; [split|split].
      * apply NoDup_filter, ND.
      * intro K. apply filter_In in K. tauto.
      * intro s'. rewrite (reg_get_del _ _ _ ND). cbn [key_eqb]. rewrite String.eqb_sym. destruct (String.eqb s' s); [reflexivity|apply G].
      * rewrite O. apply filter_Some.
    + assert (NI : ~ In (Some s) (map fst r)) by (apply reg_get_none; now rewrite G).
      split; [split|split]; cbn [fst snd]; auto.
      * intro s'. rewrite G. destruct (String.eqb_spec s' s) as [->|]; [exact T|reflexivity].
      * rewrite filter_absent; [exact O|]. intro K. apply NI. rewrite O. now apply in_map.
  - unfold remove, reg_mem. rewrite (mem_none r (conj ND NN)). cbn [fst]. split; [split|split]; assumption.
Qed.
Lemma fold_fst l : forall t, fst (fold_left order_step l t) = fold_left table_step l (fst t).
Proof. induction l as [|o l IH]; intro t; [reflexivity|]. cbn [fold_left]. rewrite IH. reflexivity. Qed.
Lemma reg_run_ok l : agrees (reg_run l []) (table_run l, order_run l).
Proof.
  assert (H : forall r t, agrees r t -> agrees (reg_run l r) (fold_left order_step l t)).
  { induction l as [|o l IH]; intros r t H; [exact H|]. cbn [reg_run fold_left]. apply IH, reg_step_ok, H. }
  specialize (H [] (fun _ => None, [])%list). unfold order_run, table_run.
  rewrite <- (fold_fst l (fun _ => None, []) : _ = fold_left table_step l (fun _ => None)). rewrite <- surjective_pairing. apply H.
  split; [split; [constructor|auto]|]. split; reflexivity.
Qed.

(** ** C42 *)
Lemma lookup_ok l s : getitem (reg_run l []) (Some s) = match table_run l s with Some p => Ok p | None => Err KeyError end.
Proof. destruct (reg_run_ok l) as (_ & G & _). unfold getitem. cbn [fst] in G. now rewrite G. Qed.
Lemma iter_ok l : reg_iter (reg_run l []) = map Some (order_run l) /\ reg_len (reg_run l []) = length (order_run l) /\ NoDup (order_run l) /\
  forall s, In s (order_run l) <-> table_run l s <> None.
Proof.
  destruct (reg_run_ok l) as ((ND & _) & G & O). cbn [fst snd] in *. unfold reg_iter, reg_len. split; [exact O|]. split; [now rewrite <- (map_length fst), O, map_length|].
  rewrite O in ND. split; [now apply NoDup_map_inv in ND|]. intro s. rewrite <- G. split.
  - intros I K. apply reg_get_none in K. apply K. rewrite O. now apply in_map.
  - intro K. destruct (in_dec string_dec s (order_run l)) as [I|N]; [exact I|]. exfalso. apply K, reg_get_none. rewrite O. intro J. apply in_map_iff in J.
    destruct J as (x & E & J). injection E as ->. contradiction.
Qed.
Lemma run_app l o : reg_run (l ++ [o])%list [] = reg_step (reg_run l []) o.
Proof. unfold reg_run. now rewrite fold_left_app. Qed.
Lemma add_ok l p :
  add (reg_run l []) p =
  match symbol_of p with
  | None => (reg_run l [], Err ValueError)
  | Some s => if match table_run l s with Some _ => true | None => false end then (reg_run l [], Err KeyError)
              else (reg_run (l ++ [RAdd p])%list [], Ok tt)
  end.
Proof.
  destruct (reg_run_ok l) as (KO & G & _). cbn [fst] in G. rewrite run_app. cbn [reg_step].
  unfold add. rewrite symbol_same. unfold reg_mem. destruct (symbol_of p) as [s|].
  - rewrite G. destruct (table_run l s); reflexivity.
  - now rewrite (mem_none _ KO).
Qed.
Lemma remove_ok l s :
  remove (reg_run l []) (Some s) =
  match table_run l s with None => (reg_run l [], Err KeyError) | Some _ => (reg_run (l ++ [RRemove (Some s)])%list [], Ok tt) end.
Proof.
  destruct (reg_run_ok l) as (KO & G & _). cbn [fst] in G. rewrite run_app. cbn [reg_step].
  unfold remove, reg_mem. rewrite G. destruct (table_run l s); reflexivity.
Qed.
Lemma find_first {A} (P : A -> bool) l x : find P l = Some x -> exists a b, l = (a ++ x :: b)%list /\ P x = true /\ forall y, In y a -> P y = false.
Proof.
  induction l as [|y l IH]; cbn [find]; [discriminate|]. destruct (P y) eqn:E.
  - intro H. injection H as <-. exists [], l. split; [reflexivity|]. split; [exact E|intros z []].
  - intro H. destruct (IH H) as (a & b & -> & K & F). exists (y :: a), b. split; [reflexivity|]. split; [exact K|]. intros z [<-|I]; auto.
Qed.
Lemma identify_ok l expr :
  match table_run l expr with
  | Some p => identify (reg_run l []) expr = p
  | None =>
      (exists a s b p, order_run l = (a ++ s :: b)%list /\ table_run l s = Some p /\ sp_expr p = expr /\ identify (reg_run l []) expr = p /\
         forall s' p', In s' a -> table_run l s' = Some p' -> sp_expr p' <> expr) \/
      ((forall s p, table_run l s = Some p -> sp_expr p <> expr) /\ identify (reg_run l []) expr = anonymous expr)
  end.
Proof.
  destruct (reg_run_ok l) as (KO & G & O). cbn [fst snd] in *. unfold identify. rewrite G. destruct (table_run l expr) as [p|] eqn:T; [reflexivity|].
  unfold reg_iter. rewrite O. set (P := fun k => match reg_get (reg_run l []) k with Some p => String.eqb (sp_expr p) expr | None => false end).
  destruct (find P (map Some (order_run l))) as [k|] eqn:F.
  - left. apply find_first in F. destruct F as (a & b & E & K & N). unfold P in K. destruct (reg_get (reg_run l []) k) as [p|] eqn:GK; [|discriminate K].
    apply String.eqb_eq in K.
    assert (X : exists a' s b', order_run l = (a' ++ s :: b')%list /\ a = map Some a' /\ k = Some s).
    { clear -E. revert a E. induction (order_run l) as [|x o IH]; intros a E; [destruct a; discriminate E|]. cbn [map] in E. destruct a as [|y a].
      - injection E as <- <-. exists [], x, o. auto.
      - cbn [app] in E. injection E as <- E. destruct (IH a E) as (a' & s & b' & -> & -> & ->). exists (x :: a'), s, b'. auto. }
    destruct X as (a' & s & b' & E' & -> & ->). exists a', s, b', p. split; [exact E'|]. split; [rewrite <- G; exact GK|]. split; [exact K|]. split; [reflexivity|].
    intros s' p' I T' Q. specialize (N (Some s') (in_map Some _ _ I)). unfold P in N. rewrite G, T', Q, String.eqb_refl in N. discriminate N.
  - right. split; [|reflexivity]. intros s p T' Q. assert (I : In s (order_run l)) by (apply (proj2 (proj2 (proj2 (iter_ok l)))); congruence).
    assert (N := find_none _ _ F (Some s) (in_map Some _ _ I)). unfold P in N. rewrite G, T', Q, String.eqb_refl in N. discriminate N.
Qed.

(** ** C73: resolution *)
Scheme means_mut := Induction for means Sort Prop with mean_all_mut := Induction for mean_all Sort Prop.
Section Resolve.
Context {V : Type} (E : outside V) (r : registry).

Lemma means_fun : forall name v, means E r name v -> forall v', means E r name v' -> v = v'.
Proof.
  apply (means_mut V E r (fun name v _ => forall v', means E r name v' -> v = v') (fun names vs _ => forall vs', mean_all E r names vs' -> vs = vs')).
  - intros name full v A O v' H. inversion H; subst; congruence.
  - intros name p vs v A G M IH O v' H. inversion H as [? ? ? A' O'|? ? ? ? A' G' M' O'|? ? A' G' O'|? ? A' G' O' O'']; subst; try congruence.
    rewrite G in G'. injection G' as <-. rewrite (IH _ M') in O. congruence.
  - intros name v A G O v' H. inversion H; subst; congruence.
  - intros name v A G O O1 v' H. inversion H; subst; congruence.
  - intros vs' H. now inversion H.
  - intros name v names vs M IH MA IHA vs' H. inversion H; subst. f_equal; auto.
Qed.
Lemma mean_all_fun names vs : mean_all E r names vs -> forall vs', mean_all E r names vs' -> vs = vs'.
Proof. induction 1 as [|name v names vs M MA IH]; intros vs' H; inversion H; subst; [reflexivity|]. f_equal; [|auto]. eapply means_fun; eassumption. Qed.

Lemma atom_synonym name : match atom_of name with
  | Some full => synonym name = full /\ existsb (String.eqb full) atomic_names = true /\ atom_of full = Some full
  | None => existsb (String.eqb (synonym name)) atomic_names = false /\ synonym name = name
  end.
Proof.
  unfold atom_of, synonym, synonyms. cbn [existsb sget].
  repeat match goal with |- context [String.eqb name ?s] => destruct (String.eqb_spec name s) as [->|?]; [cbn; auto|] end.
  cbn [orb].
  repeat match goal with N : name <> ?s |- context [String.eqb ?s name] => destruct (String.eqb_spec s name) as [X|_]; [congruence|] end.
  cbn [atomic_names existsb].
  repeat match goal with N : name <> ?s |- context [String.eqb name ?s] => destruct (String.eqb_spec name s) as [X|_]; [congruence|] end.
  auto.
Qed.
Definition good (vs : vars V) : Prop := forall k v, sget vs k = Some v -> means E r k v.
Definition grows (vs vs' : vars V) : Prop := forall k v, sget vs k = Some v -> sget vs' k = Some v.
Lemma good_cons k v vs : good vs -> means E r k v -> good ((k, v) :: vs).
Proof. intros G M k' v'. cbn [sget]. destruct (String.eqb_spec k k') as [->|]; [intro H; injection H as <-; exact M|apply G]. Qed.
Lemma grows_cons k v vs : sget vs k = None -> grows vs ((k, v) :: vs).
Proof. intros N k' v' H. cbn [sget]. destruct (String.eqb_spec k k') as [->|]; [congruence|exact H]. Qed.
Lemma sget_cons k (v : V) vs : sget ((k, v) :: vs) k = Some v.
Proof. cbn [sget]. now rewrite String.eqb_refl. Qed.
(** an evaluator is correct *)
Definition sound (ev : sprop -> vars V -> res (V * vars V)) : Prop :=
  forall p vs v vs', good vs -> ev p vs = Ok (v, vs') -> has_value E r p v /\ good vs' /\ grows vs vs'.
Lemma grows_trans a b c : grows a b -> grows b c -> grows a c.
Proof. intros X Y k v H. apply Y, X, H. Qed.
Lemma synonym_means name v : means E r (synonym name) v -> means E r name v.
Proof.
  intro M. assert (A := atom_synonym name). destruct (atom_of name) as [full|] eqn:T.
  - destruct A as (S & _ & F). rewrite S in M. inversion M as [? ? ? A' O'|? ? ? ? A' G' M' O'|? ? A' G' O'|? ? A' G' O' O'']; subst; try congruence.
    rewrite F in A'. injection A' as <-. exact (m_atom E r name _ v T O').
  - destruct A as (_ & S). now rewrite S in M.
Qed.
Lemma load_sound ev : sound ev -> forall names vs vs', good vs -> load ev E r names vs = Ok vs' ->
  good vs' /\ grows vs vs' /\ forall name, In name names -> exists v, sget vs' name = Some v.
Proof.
  intro SO. induction names as [|name names IH]; intros vs vs' G H; cbn [load] in H.
  - injection H as <-. split; [exact G|]. split; [intros k v K; exact K|intros name []].
  - apply bind_ok in H. destruct H as (vs1 & H1 & H).
    assert (X : good vs1 /\ grows vs vs1 /\ exists v, sget vs1 name = Some v).
    { destruct (sget vs name) as [v|] eqn:S1; [injection H1 as <-; split; [exact G|]; split; [intros k u K; exact K|eauto]|].
      destruct (sget vs (synonym name)) as [v|] eqn:S2.
      { injection H1 as <-. split; [apply good_cons; [exact G|]; apply synonym_means, G, S2|]. split; [now apply grows_cons|]. exists v. apply sget_cons. }
      assert (A := atom_synonym name). destruct (existsb (String.eqb (synonym name)) atomic_names) eqn:AT.
      { apply bind_ok in H1. destruct H1 as (v & O & H1). injection H1 as <-. destruct (atom_of name) as [full|] eqn:T; [|destruct A; discriminate].
        destruct A as (S & _). rewrite S in O. split; [apply good_cons; [exact G|]; exact (m_atom E r name full v T O)|]. split; [now apply grows_cons|]. exists v. apply sget_cons. }
      destruct (atom_of name) as [full|] eqn:T; [destruct A as (S & F & _); congruence|].
      destruct (reg_get r (Some name)) as [p|] eqn:R.
      { apply bind_ok in H1. destruct H1 as ([v vs2] & EV & H1). injection H1 as <-. cbn [fst snd]. destruct (SO p vs v vs2 G EV) as ((us & MA & O) & G2 & GR).
        split; [apply good_cons; [exact G2|]; exact (m_known E r name p us v T R MA O)|]. split; [|exists v; apply sget_cons].
        intros k u K. cbn [sget]. destruct (String.eqb_spec name k) as [->|]; [congruence|]. apply GR, K. }
      destruct (o_scipy E name) as [v|] eqn:SC.
      { injection H1 as <-. split; [apply good_cons; [exact G|]; exact (m_scipy E r name v T R SC)|]. split; [now apply grows_cons|]. exists v. apply sget_cons. }
      destruct (o_numpy E name) as [v|] eqn:NP; [|discriminate H1].
      injection H1 as <-. split; [apply good_cons; [exact G|]; exact (m_numpy E r name v T R SC NP)|]. split; [now apply grows_cons|]. exists v. apply sget_cons. }
    destruct X as (G1 & GR1 & v & S). destruct (IH vs1 vs' G1 H) as (G2 & GR2 & AL). split; [exact G2|]. split; [eapply grows_trans; eassumption|].
    intros n [<-|I]; [exists v; apply GR2, S|apply AL, I].
Qed.
Lemma args_sound vs names args : good vs -> mapM (fun x => match sget vs x with Some v => Ok v | None => Err KeyError end) names = Ok args -> mean_all E r names args.
Proof.
  intro G. revert args. induction names as [|n names IH]; intros args H; cbn [mapM] in H; [injection H as <-; constructor|].
  apply bind_ok in H. destruct H as (v & S & H). apply bind_ok in H. destruct H as (vs' & M & H). injection H as <-.
  destruct (sget vs n) as [u|] eqn:SG; [|discriminate S]. injection S as <-. constructor; [apply G, SG|apply IH, M].
Qed.
Lemma eval_sound n : sound (eval_sp n E r).
Proof.
  induction n as [|n IH]; intros p vs v vs' G H; cbn [eval_sp] in H; [discriminate H|].
  apply bind_ok in H. destruct H as (vs1 & L & H). apply bind_ok in H. destruct H as (args & M & H). apply bind_ok in H. destruct H as (u & O & H). injection H as <- <-.
  destruct (load_sound _ IH _ _ _ G L) as (G1 & GR & _). split; [|split; assumption]. exists args. split; [exact (args_sound vs1 _ _ G1 M)|exact O].
Qed.

(** completeness: with depth of the derivation *)
Definition complete (ev : sprop -> vars V -> res (V * vars V)) (p : sprop) : Prop :=
  forall vs, good vs -> exists v vs', ev p vs = Ok (v, vs').
Definition needs (n : nat) (name : string) : Prop :=
  forall m p, (n <= m)%nat -> atom_of name = None -> reg_get r (Some name) = Some p -> complete (eval_sp m E r) p.
Lemma load_complete ev : sound ev -> forall names args vs, good vs -> mean_all E r names args ->
  (forall name p, In name names -> atom_of name = None -> reg_get r (Some name) = Some p -> complete ev p) ->
  exists vs', load ev E r names vs = Ok vs'.
Proof.
  intro SO. induction names as [|name names IH]; intros args vs G MA C; cbn [load]; [eauto|]. inversion MA as [|? v ? us M MA']; subst.
  assert (X : exists vs1, match sget vs name with
        | Some _ => Ok vs
        | None =>
            let full := synonym name in
            match sget vs full with
            | Some v => Ok ((name, v) :: vs)
            | None =>
                if existsb (String.eqb full) atomic_names then
                  let! v := o_atom E full in Ok ((name, v) :: vs)
                else
                  match reg_get r (Some name) with
                  | Some p => let! x := ev p vs in Ok ((name, fst x) :: snd x)
                  | None =>
                      match o_scipy E name, o_numpy E name with
                      | Some v, _ | None, Some v => Ok ((name, v) :: vs)
                      | None, None => Err KeyError
                      end
                  end
            end
        end = Ok vs1).
  { destruct (sget vs name); [eauto|]. cbv zeta. destruct (sget vs (synonym name)); [eauto|].
    assert (A := atom_synonym name). inversion M as [? full ? T O|? p us' ? T R MA1 O|? ? T R O|? ? T R O O1]; subst; rewrite T in A.
    - destruct A as (-> & -> & _). rewrite O. cbn [bind]. eauto.
    - destruct A as (-> & _). rewrite R. destruct (C name p (or_introl eq_refl) T R vs G) as (u & vs' & EV). rewrite EV. cbn [bind]. eauto.
    - destruct A as (-> & _). rewrite R, O. eauto.
    - destruct A as (-> & _). rewrite R, O, O1. eauto. }
  destruct X as (vs1 & X). cbv zeta in X. rewrite X. cbn [bind].
  assert (L1 : load ev E r [name] vs = Ok vs1) by (cbn [load]; rewrite X; reflexivity).
  destruct (load_sound ev SO [name] vs vs1 G L1) as (G1 & _ & _).
  apply (IH us vs1 G1 MA'). intros n p I. apply C. now right.
Qed.
Lemma args_complete (vs : vars V) names : (forall n, In n names -> exists v, sget vs n = Some v) ->
  exists args, mapM (fun x => match sget vs x with Some v => Ok v | None => Err KeyError end) names = Ok args.
Proof.
  induction names as [|n names IH]; intro H; [cbn; eauto|]. cbn [mapM]. destruct (H n (or_introl eq_refl)) as [v ->]. cbn [bind].
  destruct IH as [a ->]; [intros; apply H; now right|]. cbn [bind]. eauto.
Qed.
Lemma eval_complete m p us v : mean_all E r (o_names E (sp_expr p)) us -> o_eval E (sp_expr p) us = Ok v ->
  (forall name q, In name (o_names E (sp_expr p)) -> atom_of name = None -> reg_get r (Some name) = Some q -> complete (eval_sp m E r) q) ->
  complete (eval_sp (S m) E r) p.
Proof.
  intros MA O C vs G. cbn [eval_sp]. destruct (load_complete _ (eval_sound m) _ _ vs G MA C) as (vs1 & L). rewrite L. cbn [bind].
  destruct (load_sound _ (eval_sound m) _ _ _ G L) as (G1 & _ & AL). destruct (args_complete vs1 _ AL) as (args & A). rewrite A. cbn [bind].
  rewrite (mean_all_fun _ _ (args_sound vs1 _ _ G1 A) us MA), O. cbn [bind]. eauto.
Qed.
Lemma means_depth : forall name v, means E r name v -> exists n, needs n name.
Proof.
  apply (means_mut V E r (fun name v _ => exists n, needs n name)
    (fun names vs _ => exists n, forall name, In name names -> needs n name)).
  - intros name full v A O. exists 0%nat. intros m p _ T. congruence.
  - intros name p vs v A G M [n IH] O. exists (S n). intros m q L _ G'. rewrite G in G'. injection G' as <-. destruct m as [|m]; [lia|].
    apply (eval_complete m p vs v M O). intros name' q I T R. apply (IH name' I m q); [lia|exact T|exact R].
  - intros name v A G O. exists 0%nat. intros m p _ _ R. congruence.
  - intros name v A G O O1. exists 0%nat. intros m p _ _ R. congruence.
  - exists 0%nat. intros name [].
  - intros name v names vs M [n IH] MA [k IHA]. exists (Nat.max n k). intros name' [<-|I] m p L T R.
    + apply (IH m p); [lia|exact T|exact R].
    + apply (IHA name' I m p); [lia|exact T|exact R].
Qed.
Lemma means_all_depth names vs : mean_all E r names vs -> exists n, forall name, In name names -> needs n name.
Proof.
  induction 1 as [|name v names vs M MA [k IH]]; [exists 0%nat; intros ? []|]. destruct (means_depth _ _ M) as [n H].
  exists (Nat.max n k). intros name' [<-|I] m p L T R; [apply (H m p)|apply (IH name' I m p)]; auto; lia.
Qed.
Lemma good_nil : good [].
Proof. intros k v H. discriminate H. Qed.
Lemma value_fun p v v' : has_value E r p v -> has_value E r p v' -> v = v'.
Proof. intros (us & M & O) (us' & M' & O'). rewrite (mean_all_fun _ _ M us' M') in O. congruence. Qed.

Lemma resolve_sound n expr v : evaluate n E r expr = Ok v -> has_value E r (identify r expr) v.
Proof.
  unfold evaluate. destruct (eval_sp n E r (identify r expr) []) as [[u vs]|x] eqn:H; [|discriminate]. intro K. injection K as <-.
  exact (proj1 (eval_sound n _ _ _ _ good_nil H)).
Qed.
Lemma resolve_complete expr v : has_value E r (identify r expr) v -> exists n, forall m, (n <= m)%nat -> evaluate m E r expr = Ok v.
Proof.
  intros HV. destruct HV as (us & M & O). destruct (means_all_depth _ _ M) as [n H]. exists (S n). intros m L. destruct m as [|m]; [lia|].
  assert (C : complete (eval_sp (S m) E r) (identify r expr)).
  { apply (eval_complete m _ us v M O). intros name q I T R. apply (H name I m q); [lia|exact T|exact R]. }
  destruct (C [] good_nil) as (u & vs & EV). unfold evaluate. rewrite EV. cbn [rmap fst]. f_equal.
  apply (value_fun (identify r expr)); [exact (proj1 (eval_sound _ _ _ _ _ good_nil EV))|exists us; auto].
Qed.

(** the bound on the depth only matters while it is too small *)
Lemma load_mono (ev ev' : sprop -> vars V -> res (V * vars V)) : (forall p vs, ev p vs <> Err Diverges -> ev' p vs = ev p vs) ->
  forall names vs, load ev E r names vs <> Err Diverges -> load ev' E r names vs = load ev E r names vs.
Proof.
  intro H. induction names as [|name names IH]; intros vs K; cbn [load] in *; [reflexivity|].
  destruct (sget vs name); [cbn [bind] in *; apply IH, K|]. destruct (sget vs (synonym name)); [cbn [bind] in *; apply IH, K|].
  destruct (existsb _ _).
  { destruct (o_atom E (synonym name)); cbn [bind] in *; [apply IH, K|reflexivity]. }
  destruct (reg_get r (Some name)) as [p|].
  { assert (X : ev p vs <> Err Diverges) by (intro X; rewrite X in K; apply K; reflexivity). rewrite (H p vs X).
    destruct (ev p vs) as [[v vs']|x]; cbn [bind] in *; [apply IH, K|reflexivity]. }
  destruct (o_scipy E name); [cbn [bind] in *; apply IH, K|]. destruct (o_numpy E name); [cbn [bind] in *; apply IH, K|]. reflexivity.
Qed.
Lemma eval_unfold n p vs : eval_sp (S n) E r p vs =
  (let! vs' := load (eval_sp n E r) E r (o_names E (sp_expr p)) vs in
   let! args := mapM (fun x => match sget vs' x with Some v => Ok v | None => Err KeyError end) (o_names E (sp_expr p)) in
   let! v := o_eval E (sp_expr p) args in Ok (v, vs')).
Proof. reflexivity. Qed.
Lemma eval_mono n : forall p vs, eval_sp n E r p vs <> Err Diverges -> eval_sp (S n) E r p vs = eval_sp n E r p vs.
Proof.
  induction n as [|n IH]; intros p vs H; [exfalso; apply H; reflexivity|].
  rewrite (eval_unfold (S n)). rewrite (eval_unfold n) in H |- *.
  assert (X : load (eval_sp n E r) E r (o_names E (sp_expr p)) vs <> Err Diverges) by (intro X; rewrite X in H; apply H; reflexivity).
  rewrite (load_mono _ _ IH _ _ X). reflexivity.
Qed.
Lemma evaluate_mono n k expr : evaluate n E r expr <> Err Diverges -> evaluate (k + n) E r expr = evaluate n E r expr.
Proof.
  intro H. induction k as [|k IH]; [reflexivity|]. cbn [Nat.add]. rewrite <- IH. rewrite <- IH in H. unfold evaluate in *.
  rewrite eval_mono; [reflexivity|]. intro X. rewrite X in H. apply H. reflexivity.
Qed.
Lemma resolve_failed n expr x : evaluate n E r expr = Err x -> x <> Diverges -> forall v, ~ has_value E r (identify r expr) v.
Proof.
  intros H N v HV. destruct (resolve_complete expr v HV) as [m M]. specialize (M (m + n)%nat ltac:(lia)).
  rewrite evaluate_mono in M by congruence. congruence.
Qed.
End Resolve.
