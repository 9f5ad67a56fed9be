(** Facts about reading what dumps list, about components of fields and _kspace. *)
From Coq Require Import Ascii Sorting Permutation Lia.
From Verif Require Import PyBase PyBaseFacts NdModel NdFacts NumpyModel ReaderModel ReaderFacts IoModel ListModel ListSpec ListFacts.
Local Open Scope string_scope.

Lemma get_species_scalar {X} scalar (grid : string -> res (list X)) s names q n x : In (names, q) quantities -> In n names -> scalar (particle_key q s) = Ok x -> get_species scalar grid s (KS n) = Ok x.
Proof.
  intros Q I E. unfold particle_key in E. cbn [quantities In] in Q.
  repeat (destruct Q as [Q|Q]; [injection Q as <- <-; cbn [In] in I; repeat (destruct I as [<-|I]; [unfold get_species; cbn -[append]; now rewrite E|]); destruct I|]). destruct Q.
Qed.
Lemma get_species_missing {X} scalar (grid : string -> res (list X)) s names q n : In (names, q) quantities -> In n names -> scalar (particle_key q s) = Err KeyError -> get_species scalar grid s (KS n) = Err KeyError.
Proof.
  intros Q I E. unfold particle_key in E. cbn [quantities In] in Q.
  repeat (destruct Q as [Q|Q]; [injection Q as <- <-; cbn [In] in I; repeat (destruct I as [<-|I]; [unfold get_species; cbn -[append]; now rewrite E|]); destruct I|]). destruct Q.
Qed.
Lemma getidx_nth {A} (l : list A) i : getidx l (Z.of_nat i) = match nth_error l i with Some x => Ok x | None => Err IndexError end.
Proof.
  unfold getidx. destruct (Z.ltb_spec (Z.of_nat i) 0) as [|_]; [lia|]. destruct (Z.leb_spec 0 (Z.of_nat i)) as [_|]; [|lia]. cbn [andb]. rewrite Nat2Z.id.
  destruct (Z.ltb_spec (Z.of_nat i) (Z.of_nat (length l))) as [_|H]; [reflexivity|]. assert (E : nth_error l i = None) by (apply nth_error_None; lia). now rewrite E.
Qed.
Lemma get_species_position {X} scalar (grid : string -> res (list X)) s names i n l : In (names, i) positions -> In n names -> grid ("Grid/Particles/" ++ s) = Ok l ->
  get_species scalar grid s (KS n) = match nth_error l i with Some x => Ok x | None => Err KeyError end.
Proof.
  intros Q I E. assert (H : attribid (KS n) = Ok (Z.of_nat i) /\ assoc scalars (Z.of_nat i) = None /\ ((0 <=? Z.of_nat i) && (Z.of_nat i <=? 2))%Z = true).
  { cbn [positions In] in Q. repeat (destruct Q as [Q|Q]; [injection Q as <- <-; cbn [In] in I; repeat (destruct I as [<-|I]; [repeat split|]); destruct I|]). destruct Q. }
  destruct H as (H1 & H2 & H3). unfold get_species. rewrite H1. cbn [bind]. rewrite H2, H3, E. cbn [bind]. rewrite getidx_nth. now destruct (nth_error l i).
Qed.
Lemma dimensions_ok name n : epoch_dimensions name = Ok n <-> exists c r, name = "Epoch" ++ String c ("d" ++ r) /\ (48 <= nat_of_ascii c <= 57)%nat /\ n = (Z.of_nat (nat_of_ascii c) - 48)%Z.
Proof.
  unfold epoch_dimensions. split.
  - destruct (strip "Epoch" name) as [[|c [|d r]]|] eqn:E; try discriminate. apply strip_eq in E. destruct (between "0" "9" c) eqn:B; cbn [andb]; [|discriminate]. destruct (Ascii.eqb d "d") eqn:D; [|discriminate]. apply Ascii.eqb_eq in D. subst d.
    unfold between in B. apply andb_prop in B. destruct B as [B1 B2]. apply Nat.leb_le in B1, B2. change (nat_of_ascii "0") with 48%nat in B1. change (nat_of_ascii "9") with 57%nat in B2. intros H. injection H as <-. exists c, r. split; [exact E|]. split; lia.
  - intros (c & r & -> & B & ->). rewrite strip_app. assert (C : between "0" "9" c = true) by (unfold between; apply andb_true_intro; split; apply Nat.leb_le; [change (nat_of_ascii "0") with 48%nat|change (nat_of_ascii "9") with 57%nat]; lia).
    cbn [append]. rewrite C. cbn [andb]. rewrite Ascii.eqb_refl. f_equal. lia.
Qed.
Lemma dimensions_error name e : epoch_dimensions name = Err e -> e = AttributeError.
Proof. unfold epoch_dimensions. destruct (strip "Epoch" name) as [[|c [|d r]]|]; try congruence. destruct (_ && _)%bool; congruence. Qed.
(** * Components *)
Lemma field_key_stored {P} r mag c (o : opts P) av : o_average o = av -> (r = Epoch -> o_theta o = None /\ o_Ntheta o = None) ->
  field_key r mag c o = match stored r mag c (match av with Some true => true | _ => false end) with Some k => Ok k | None => Err KeyError end.
Proof.
  intros <- H. destruct r; [destruct (H eq_refl) as [H1 H2]|..]; unfold field_key; rewrite ?H1, ?H2; destruct c, mag; try reflexivity; cbn; destruct (o_average o) as [[]|]; reflexivity.
Qed.
Lemma mapM_all2 {A B} (f : A -> res B) l m : mapM f l = Ok m -> forall i x, nth_error l i = Some x -> exists y, nth_error m i = Some y /\ f x = Ok y.
Proof.
  intros E. apply mapM_ok in E. induction E as [|x y l m H E IH]; intros i z; [destruct i; discriminate|]. destruct i; cbn; [intros [= <-]; eauto|apply IH].
Qed.
Lemma number {A} (l : list A) i x s : nth_error l i = Some x -> nth_error (combine (seq s (length l)) l) i = Some ((s + i)%nat, x).
Proof. revert s i. induction l as [|a l IH]; intros s [|i]; cbn; try discriminate; [intros [= ->]; now rewrite Nat.add_0_r|]. intros E. rewrite (IH _ _ E). do 2 f_equal. lia. Qed.
Lemma mapM_ext {A B} (f g : A -> res B) l : (forall x, f x = g x) -> mapM f l = mapM g l.
Proof. intros H. induction l as [|x l IH]; [reflexivity|]. cbn. now rewrite H, IH. Qed.
Definition plain_axis {D P} (shape : D -> list Z) (points : string -> string -> res Z) (key : string) (d : D) (p : nat * string) : res (axobj P) :=
  let! n := points key (snd p) in let! m := getidx (shape d) (Z.of_nat (fst p)) in if (n =? m)%Z then Ok (AxKey (snd p) key) else Err ValueError.
Lemma component_plain {D P} data (shape : D -> list Z) points r mag c (o : opts P) s :
  o_theta o = None -> o_Ntheta o = None -> component data shape points r mag c o = Ok s ->
  exists key, stored r mag c (match o_average o with Some true => true | _ => false end) = Some key /\ data (key, None, None) = Ok (sh_data s) /\
    sh_name s = (if mag then "B" else "E") ++ comp_name c /\
    sh_axes s = map (fun n => AxKey n key) (firstn (Nat.max 1 (length (shape (sh_data s)))) (axis_order r)) /\
    forall i n, nth_error (axis_order r) i = Some n -> (i < Nat.max 1 (length (shape (sh_data s))))%nat -> exists k, points key n = Ok k /\ nth_error (shape (sh_data s)) i = Some k.
Proof.
  intros T N H. unfold component, data_args in H. rewrite (field_key_stored r mag c o _ eq_refl) in H by auto.
  set (av := match o_average o with Some true => true | _ => false end) in *. destruct (stored r mag c av) as [key|] eqn:K; cbn [bind] in H; [|discriminate H].
  exists key. split; [reflexivity|].
  assert (A : (let! d := data (key, None, None) in let! axes := mapM (plain_axis (P := P) shape points key d)
        (combine (seq 0 (length (firstn (Nat.max 1 (length (shape d))) (axis_order r)))) (firstn (Nat.max 1 (length (shape d))) (axis_order r))) in
      Ok (mkshown d axes (sh_unit s) ((if mag then "B" else "E") ++ comp_name c))) = Ok s).
  { assert (G : forall n, getaxisobj o key n = AxKey n key) by (intros n; unfold getaxisobj; rewrite N, T; now destruct (String.eqb n "theta")).
    destruct r; [| | |destruct mag; [discriminate H|rewrite T, N in H]]; cbn [bind] in H; (destruct (data (key, None, None)) as [d|]; cbn [bind] in *; [|discriminate H]);
      (rewrite (mapM_ext _ (plain_axis (P := P) shape points key d)) in H by (intros p; rewrite G; reflexivity)); (destruct (mapM _ _) as [axes|]; cbn [bind] in *; [|discriminate H]); injection H as <-; reflexivity. }
  clear H. destruct (data (key, None, None)) as [d|] eqn:E; cbn [bind] in A; [|discriminate A]. destruct (mapM _ _) as [axes|] eqn:M in A; cbn [bind] in A; [|discriminate A]. injection A as A. rewrite <- A. cbn [sh_data sh_name sh_axes].
  set (names := firstn (Nat.max 1 (length (shape d))) (axis_order r)) in *. split; [reflexivity|]. split; [reflexivity|]. split.
  - apply mapM_ok in M. clear - M. revert M. generalize 0%nat at 1 as k. revert axes. induction names as [|n names IH]; intros axes k M; cbn in M; inversion M as [|? y ? m Y M' ]; subst; [reflexivity|]. cbn [map]. rewrite <- (IH _ _ M'). f_equal. unfold plain_axis in Y. cbn [fst snd] in Y.
    destruct (points key n); cbn [bind] in Y; [|discriminate Y]. destruct (getidx _ _); cbn [bind] in Y; [|discriminate Y]. destruct (_ =? _)%Z; congruence.
  - intros i n I L. assert (I' : nth_error names i = Some n) by (unfold names; rewrite <- I; rewrite nth_error_firstn; destruct (Nat.ltb_spec i (Nat.max 1 (length (shape d)))); [reflexivity|lia]).
    destruct (mapM_all2 _ _ _ M _ _ (number names i n 0 I')) as (y & _ & Y). unfold plain_axis in Y. cbn [fst snd] in Y. rewrite Nat.add_0_l in Y. destruct (points key n) as [k|]; cbn [bind] in Y; [|discriminate Y]. exists k. split; [reflexivity|].
    destruct (getidx (shape d) (Z.of_nat i)) as [m|] eqn:G; cbn [bind] in Y; [|discriminate Y]. destruct (Z.eqb_spec k m) as [->|]; [|discriminate Y]. 
    rewrite getidx_nth in G. destruct (nth_error (shape d) i); congruence.
Qed.
Lemma mapM_total {A B} (f : A -> res B) l : (forall x, In x l -> exists y, f x = Ok y) -> exists m, mapM f l = Ok m.
Proof.
  induction l as [|x l IH]; intros H; [now exists []|]. destruct (H x (or_introl eq_refl)) as [y Y]. destruct (IH (fun z I => H z (or_intror I))) as [m M]. exists (y :: m). cbn. now rewrite Y, M.
Qed.
Lemma in_number {A} (l : list A) s i x : In (i, x) (combine (seq s (length l)) l) -> nth_error l (i - s) = Some x /\ (s <= i < s + length l)%nat.
Proof.
  revert s. induction l as [|a l IH]; intros s; cbn; [tauto|]. intros [[= -> ->]|I]; [rewrite Nat.sub_diag; split; [reflexivity|lia]|]. destruct (IH _ I) as [E L]. split; [|lia].
  replace (i - s)%nat with (S (i - S s)) by lia. exact E.
Qed.
Lemma component_total {D P} data (shape : D -> list Z) points r mag c (o : opts P) key d :
  o_theta o = None -> o_Ntheta o = None -> (r <> Fbpic \/ mag = false) -> stored r mag c (match o_average o with Some true => true | _ => false end) = Some key ->
  data (key, None, None) = Ok d -> shape d <> [] ->
  (forall i n k, nth_error (axis_order r) i = Some n -> nth_error (shape d) i = Some k -> points key n = Ok k) ->
  exists s, component data shape points r mag c o = Ok s /\ sh_data s = d.
Proof.
  intros T N F K E NZ H. unfold component, data_args. rewrite (field_key_stored r mag c o _ eq_refl) by auto. rewrite K. cbn [bind].
  assert (G : forall n, getaxisobj o key n = AxKey n key) by (intros n; unfold getaxisobj; rewrite N, T; now destruct (String.eqb n "theta")).
  assert (B : (match r with Fbpic => if mag then Err NameError else Ok (key, o_theta o, o_Ntheta o) | _ => Ok (key, None, None) end) = Ok (key, @None (list P), @None Z)).
  { destruct r; try reflexivity. destruct F as [F|F]; [now elim F|]. now rewrite F, T, N. }
  rewrite B. cbn [bind]. rewrite E. cbn [bind]. rewrite (mapM_ext _ (plain_axis (P := P) shape points key d)) by (intros p; rewrite G; reflexivity).
  destruct (mapM_total (plain_axis (P := P) shape points key d) (combine (seq 0 (length (firstn (Nat.max 1 (length (shape d))) (axis_order r)))) (firstn (Nat.max 1 (length (shape d))) (axis_order r)))) as [m M].
  - intros [i n] I. apply in_number in I. destruct I as [I L]. rewrite Nat.sub_0_r in I. rewrite nth_error_firstn in I. destruct (Nat.ltb_spec i (Nat.max 1 (length (shape d)))) as [L'|]; [|discriminate I].
    assert (L2 : (i < length (shape d))%nat) by (destruct (shape d); [now elim NZ|cbn [length] in *; lia]). destruct (nth_error (shape d) i) as [k|] eqn:S; [|apply nth_error_None in S; lia].
    exists (AxKey n key). unfold plain_axis. cbn [fst snd]. rewrite (H i n k I S). cbn [bind]. rewrite getidx_nth, S. cbn [bind]. now rewrite Z.eqb_refl.
  - rewrite M. cbn [bind]. eexists. split; reflexivity.
Qed.
Lemma component_unit {D P} data (shape : D -> list Z) points r mag c (o : opts P) s : component data shape points r mag c o = Ok s -> mag = false \/ c = X \/ c = Y \/ c = Z_ -> sh_unit s = si_unit mag.
Proof.
  unfold component. destruct (data_args r mag c o) as [a|]; cbn [bind]; [|discriminate]. destruct (data a) as [d|]; cbn [bind]; [|discriminate]. destruct (field_key r mag c o) as [k|]; cbn [bind]; [|discriminate]. destruct (mapM _ _) as [axes|]; cbn [bind]; [|discriminate].
  intros [= <-] H. cbn [sh_unit]. destruct H as [->|[->|[->| ->]]]; try reflexivity; destruct mag; reflexivity.
Qed.
Lemma component_unit_wrong {D P} data (shape : D -> list Z) points r c (o : opts P) s : component data shape points r true c o = Ok s -> c = R_ \/ c = Theta -> sh_unit s = "V/m".
Proof.
  unfold component. destruct (data_args r true c o) as [a|]; cbn [bind]; [|discriminate]. destruct (data a) as [d|]; cbn [bind]; [|discriminate]. destruct (field_key r true c o) as [k|]; cbn [bind]; [|discriminate]. destruct (mapM _ _) as [axes|]; cbn [bind]; [|discriminate].
  intros [= <-] H. cbn [sh_unit]. destruct H as [->| ->]; reflexivity.
Qed.
Lemma component_fbpic_magnetic {D P} data (shape : D -> list Z) points c (o : opts P) : component data shape points Fbpic true c o = Err NameError.
Proof. unfold component, data_args. cbn [field_key bind]. destruct c; reflexivity. Qed.
Lemma component_epoch_round {D P} data (shape : D -> list Z) points mag c (o : opts P) : o_theta o = None -> o_Ntheta o = None -> c = R_ \/ c = Theta -> component data shape points Epoch mag c o = Err KeyError.
Proof. intros T N [->| ->]; unfold component, data_args, field_key; rewrite T, N; reflexivity. Qed.
Lemma component_angles {D P} data (shape : D -> list Z) points c (o : opts P) s l : o_theta o = Some l -> o_Ntheta o = None -> component data shape points Fbpic false c o = Ok s -> (1 < length (shape (sh_data s)))%nat ->
  exists key, stored Fbpic false c false = Some key /\ data (key, Some l, None) = Ok (sh_data s) /\ nth_error (sh_axes s) 1 = Some (AxPoints "theta" l) /\ nth_error (shape (sh_data s)) 1 = Some (Z.of_nat (length l)).
Proof.
  intros T N. unfold component, data_args. rewrite (field_key_stored Fbpic false c o _ eq_refl) by discriminate.
  assert (K : stored Fbpic false c (match o_average o with Some true => true | _ => false end) = stored Fbpic false c false) by now destruct c. rewrite K. destruct (stored Fbpic false c false) as [key|]; [|discriminate]. cbn [bind]. rewrite T, N.
  destruct (data (key, Some l, None)) as [d|] eqn:E; cbn [bind]; [|discriminate]. destruct (mapM _ _) as [axes|] eqn:M; cbn [bind]; [|discriminate]. intros [= <-] L. cbn [sh_data sh_axes] in *. exists key. split; [reflexivity|]. split; [exact E|].
  assert (I : nth_error (firstn (Nat.max 1 (length (shape d))) (axis_order Fbpic)) 1 = Some "theta") by (rewrite nth_error_firstn; destruct (Nat.ltb_spec 1 (Nat.max 1 (length (shape d)))); [reflexivity|lia]).
  destruct (mapM_all2 _ _ _ M _ _ (number _ _ _ 0 I)) as (y & Y1 & Y2). cbn [fst snd] in Y2. unfold getaxisobj in Y2. cbn [String.eqb Ascii.eqb Bool.eqb] in Y2. rewrite N, T in Y2. cbn [bind] in Y2. change (Z.of_nat (0 + 1)) with (Z.of_nat 1) in Y2. rewrite getidx_nth in Y2. destruct (nth_error (shape d) 1) as [m|]; cbn [bind] in Y2; [|discriminate Y2].
  destruct (Z.eqb_spec (Z.of_nat (length l)) m) as [Q|]; [|discriminate Y2]. injection Y2 as Q2. rewrite Y1, <- Q2, Q. now split.
Qed.
Lemma component_bare {D P} data (shape : D -> list Z) points c (o : opts P) s n : o_Ntheta o = Some n -> component data shape points Fbpic false c o = Ok s -> (1 < length (shape (sh_data s)))%nat -> nth_error (sh_axes s) 1 = Some (Bare n).
Proof.
  intros N. unfold component, data_args. destruct (field_key Fbpic false c o) as [key|]; cbn [bind]; [|discriminate]. destruct (data _) as [d|] eqn:E; cbn [bind]; [|discriminate]. destruct (mapM _ _) as [axes|] eqn:M; cbn [bind]; [|discriminate]. intros [= <-] L. cbn [sh_data sh_axes] in *.
  assert (I : nth_error (firstn (Nat.max 1 (length (shape d))) (axis_order Fbpic)) 1 = Some "theta") by (rewrite nth_error_firstn; destruct (Nat.ltb_spec 1 (Nat.max 1 (length (shape d)))); [reflexivity|lia]).
  destruct (mapM_all2 _ _ _ M _ _ (number _ _ _ 0 I)) as (y & Y1 & Y2). cbn [fst snd] in Y2. unfold getaxisobj in Y2. cbn [String.eqb Ascii.eqb Bool.eqb] in Y2. rewrite N in Y2. cbn [bind] in Y2. destruct (getidx (shape d) _) as [m|]; cbn [bind] in Y2; [|discriminate Y2]. destruct (n =? m)%Z; [|discriminate Y2]. injection Y2 as <-. exact Y1.
Qed.
(** * _kspace *)
Lemma kspace_known name a solver om dx t n : (exists c, kspace_call name a solver om dx t n = Ok c) <-> known a.
Proof.
  unfold kspace_call, known. split.
  - intros (c & H). destruct (existsb (String.eqb a) _) eqn:E; [|discriminate H]. cbn [existsb] in E. rewrite !Bool.orb_true_iff, !String.eqb_eq in E. intuition discriminate.
  - intros H. assert (E : existsb (String.eqb a) ["auto"; "default"; "epoch"; "epoch-final"] = true) by (cbn [existsb]; rewrite !Bool.orb_true_iff, !String.eqb_eq; tauto). rewrite E. cbn [negb].
    destruct (String.eqb _ "default"); [eauto|]. destruct (String.eqb _ "epoch"); eauto.
Qed.
Lemma kspace_unknown name a solver om dx t n e : kspace_call name a solver om dx t n = Err e -> e = ValueError /\ ~ known a.
Proof.
  intros H. split; [|intros K; apply (kspace_known name a solver om dx t n) in K; destruct K as [c C]; congruence].
  unfold kspace_call in H. destruct (negb _); [congruence|]. destruct (String.eqb _ "default"); [discriminate H|]. destruct (String.eqb _ "epoch"); discriminate H.
Qed.
Lemma kspace_auto name solver om dx t n : kspace_call name "auto" solver om dx t n = kspace_call name (if endswith (lower name) ".sdf" then "epoch" else "default") solver om dx t n.
Proof. unfold kspace_call. cbn [existsb String.eqb Ascii.eqb Bool.eqb orb negb]. destruct (endswith (lower name) ".sdf"); reflexivity. Qed.
Lemma kspace_aligned name solver om dx t n :
  rmap call_alignment (kspace_call name "default" solver om dx t n) = Ok InSpace /\ rmap call_alignment (kspace_call name "epoch" solver om dx t n) = Ok ToB /\ rmap call_alignment (kspace_call name "epoch-final" solver om dx t n) = Ok ToE.
Proof. repeat split. Qed.
Lemma kspace_dt name a solver om dx t n c d : kspace_call name a solver om dx t n = Ok c -> call_dt c = Some d -> (n <> 0)%Z -> exists q, d = Some q /\ (q * inject_Z n == t)%Q.
Proof.
  intros H D N. assert (E : d = quotient t n).
  { unfold kspace_call in H. destruct (negb _); [discriminate H|]. destruct (String.eqb _ "default"); [injection H as <-; discriminate D|]. destruct (String.eqb _ "epoch"); injection H as <-; cbn [call_dt] in D; congruence. }
  unfold quotient in E. destruct (Z.eqb_spec n 0) as [|_]; [contradiction|]. exists (t / inject_Z n)%Q. split; [exact E|]. field. intros Z0. apply N. unfold Qeq in Z0. cbn in Z0. lia.
Qed.
Lemma kspace_first name a solver om dx t c d : kspace_call name a solver om dx t 0 = Ok c -> call_dt c = Some d -> d = None.
Proof.
  intros H D. unfold kspace_call in H. destruct (negb _); [discriminate H|]. destruct (String.eqb _ "default"); [injection H as <-; discriminate D|]. destruct (String.eqb _ "epoch"); injection H as <-; cbn [call_dt] in D; change (quotient t 0) with (@None Q) in D; congruence.
Qed.
Lemma kspace_omega name a solver om dx t n c : kspace_call name a solver om dx t n = Ok c ->
  call_omega c = (if om then Given else match solver, call_dt c with Some "yee", Some dt => Yee dx dt | _, _ => Free end).
Proof.
  intros H. unfold kspace_call in H. destruct (negb _); [discriminate H|]. set (al := if String.eqb a "auto" then _ else a) in *. clearbody al.
  destruct (String.eqb al "default"); [injection H as <-; cbn; destruct om; [reflexivity|]; destruct solver as [s|]; [|reflexivity]; repeat (match goal with |- context [match ?x with _ => _ end] => destruct x end); reflexivity|].
  destruct (String.eqb al "epoch"); injection H as <-; cbn [call_omega call_dt]; destruct om, solver as [s|]; try reflexivity; repeat (match goal with |- context [match ?x with _ => _ end] => destruct x end); reflexivity.
Qed.
