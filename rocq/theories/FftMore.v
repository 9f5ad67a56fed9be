(** Round trip, energy, shifts and domains: the statements about fields. *)
From Coq Require Import Reals String Ascii Lra Lia ZArith List Ring Sorting.Sorted.
From Verif Require Import PyBase PyBaseFacts NumpyModel NdModel NdFacts FieldModel FieldReduceFacts FieldIntFacts FieldGridFacts CplxModel CplxFacts FftModel FftSpec FftKernel FftAxes FftFacts FftLaws.
Import ListNotations.
Local Open Scope R_scope.

Lemma grid_lt f axes U a : on_grid f axes U -> In a axes -> (a < ndim f)%nat.
Proof. intros Ug I. exact (dim_lt f axes U Ug a I). Qed.
Lemma named_same f axes U a : on_grid f axes U -> In a (named (ndim f) axes) <-> In a axes.
Proof. intro Ug. rewrite named_In. split; [tauto|]. intro I. split; [exact I|]. exact (grid_lt f axes U a Ug I). Qed.
Lemma named_is nd axes a : (a < nd)%nat -> is_named (named nd axes) a = is_named axes a.
Proof.
  intro L. destruct (is_named axes a) eqn:E.
  - apply is_named_In, named_In. split; [now apply is_named_In|exact L].
  - destruct (is_named (named nd axes) a) eqn:E2; [|reflexivity]. apply is_named_In, named_In in E2. destruct E2 as [I _]. apply is_named_In in I. congruence.
Qed.
Lemma named_nil f axes U : on_grid f axes U -> axes <> [] -> named (ndim f) axes <> [].
Proof. intros Ug N E. destruct axes as [|a l]; [congruence|]. assert (I : In a (named (ndim f) (a :: l))) by (apply (named_same f _ U a Ug); now left). rewrite E in I. exact I. Qed.
Lemma fft_named spl temporal old f axes0 axes U st : linear_spline spl -> consistent f -> axes <> [] -> on_grid f axes U -> in_state f axes st ->
  (forall x, In x axes0 <-> In x (map Z.of_nat axes)) ->
  exists F, fft spl temporal old f axes0 = Ok F /\ transformed f (named (ndim f) axes) U st temporal old F.
Proof.
  intros Sp Cf N Ug Hs E. apply (fft_main spl f (named (ndim f) axes) U st); try assumption.
  - intros a I. apply Ug. now apply (named_same f axes U a Ug).
  - intros a I. apply Hs. now apply (named_same f axes U a Ug).
  - apply named_NoDup.
  - exact (named_nil f axes U Ug N).
  - rewrite <- (sorted_named (ndim f) axes) by (intros a I; exact (grid_lt f axes U a Ug I)). apply sorted_unique; try apply sorted_set_sorted. intro x. now rewrite !sorted_set_In.
Qed.
Lemma on_grid_sub f axes axes' U : (forall a, In a axes' -> In a axes) -> on_grid f axes U -> on_grid f axes' U.
Proof. intros H Ug a I. apply Ug. now apply H. Qed.
Lemma nth_error_eq {A} (l m : list A) : (forall a, nth_error l a = nth_error m a) -> l = m.
Proof.
  revert m. induction l as [|x l IH]; intros [|y m] H; [reflexivity|specialize (H 0%nat); discriminate|specialize (H 0%nat); discriminate|].
  assert (E := H 0%nat). cbn in E. injection E as ->. f_equal. apply IH. intro a. exact (H (S a)).
Qed.
Lemma nth_error_map' {A B} (g : A -> B) l a : nth_error (map g l) a = option_map g (nth_error l a).
Proof. revert a. induction l as [|x l IH]; intros [|a]; try reflexivity. apply IH. Qed.

(** * C20: there and back *)
Lemma lstrip_id cs s : starts_with cs s = false -> lstrip cs s = s.
Proof. destruct s as [|c s]; intro H; [reflexivity|]. cbn in *. now rewrite H. Qed.
Lemma name_back (st : bool) n : (if st then n = "w"%string \/ exists r, n = ("k" ++ r)%string /\ starts_with ["k"%char] r = false /\ r <> "t"%string else starts_with ["k"%char] n = false) ->
  new_name (negb st) (new_name st n) = n.
Proof.
  intro H. unfold new_name. destruct st; cbn [negb].
  - destruct H as [->|(r & -> & Hk & Ht)]; [reflexivity|]. cbn [append]. replace (String.eqb (String "k" r) "w") with false by reflexivity.
    cbn [lstrip existsb Ascii.eqb Bool.eqb orb]. rewrite lstrip_id by exact Hk. apply String.eqb_neq in Ht. rewrite Ht. reflexivity.
  - destruct (String.eqb_spec n "t") as [->|N]; [reflexivity|]. cbn [append]. replace (String.eqb (String "k" n) "w") with false by reflexivity.
    cbn [lstrip existsb Ascii.eqb Bool.eqb orb]. now apply lstrip_id.
Qed.
Lemma unit_back (st : bool) u : (if st then exists r, u = ("1/" ++ r)%string /\ starts_with ["1"%char; "/"%char] r = false else starts_with ["1"%char; "/"%char] u = false) -> new_unit (negb st) (new_unit st u) = u.
Proof.
  intro H. unfold new_unit. destruct st; cbn [negb].
  - destruct H as (r & -> & Hk). cbn [append lstrip existsb Ascii.eqb Bool.eqb orb]. now rewrite lstrip_id.
  - cbn [append lstrip existsb Ascii.eqb Bool.eqb orb]. now apply lstrip_id.
Qed.
Lemma fft_round spl temporal old f axes U st : linear_spline spl -> consistent f -> axes <> [] -> on_grid f axes U -> in_state f axes st ->
  exists F G, fft spl temporal old f (map Z.of_nat axes) = Ok F /\ fft spl temporal old F (map Z.of_nat axes) = Ok G /\ same_field G f /\
    (forall a ax, nth_error (rf_axes f) a = Some ax -> (In a axes -> restorable st ax) -> nth_error (rf_axes G) a = Some ax) /\
    (forall a ax, In a axes -> nth_error (rf_axes f) a = Some ax -> exists ax', nth_error (rf_axes G) a = Some ax' /\ ra_name ax' = new_name (negb st) (new_name st (ra_name ax)) /\ ra_unit ax' = new_unit (negb st) (new_unit st (ra_unit ax))).
Proof.
  intros Sp Cf N Ug Hs. destruct (fft_named spl temporal old f (map Z.of_nat axes) axes U st Sp Cf N Ug Hs (fun x => iff_refl _)) as (F & EF & T).
  set (A := named (ndim f) axes) in *. assert (InA := fun a => named_same f axes U a Ug). fold A in InA.
  assert (UgA : on_grid f A U) by (apply (on_grid_sub f axes); [intros a; apply InA|exact Ug]).
  assert (CF := T_consistent f F A U st temporal old Cf T). assert (UgF := T_grid f F A U st temporal old UgA T). assert (HsF := T_state f F A U st temporal old T).
  destruct (fft_named spl temporal old F (map Z.of_nat axes) axes (VV f U) (negb st)) as (G & EG & T2); try assumption.
  { intros a I. apply UgF. now apply InA. }
  { intros a I. apply HsF. now apply InA. }
  { intro x. apply iff_refl. }
  assert (NdF := T_ndim f F A U st temporal old T). rewrite NdF in T2. fold A in T2.
  exists F, G. split; [exact EF|]. split; [exact EG|].
  assert (Ax : forall a, nth_error (rf_axes G) a = if is_named A a then option_map (fun ax => mkra (new_name (negb st) (new_name st (ra_name ax))) (new_unit (negb st) (new_unit st (ra_unit ax))) (ra_grid ax) (ra_node ax)) (nth_error (rf_axes f) a) else nth_error (rf_axes f) a).
  { intro a. rewrite (t_axes _ _ _ _ _ _ _ T2), (t_axes _ _ _ _ _ _ _ T). destruct (is_named A a) eqn:E; [|reflexivity]. apply is_named_In in E. destruct (UgA a E) as (ax & -> & (Gr & Nd & P) & _).
    cbn [option_map]. unfold new_ax at 1. rewrite (T_back f F A U st temporal old UgA T a E). rewrite Gr, Nd. reflexivity. }
  split; [|split].
  - split; [|split; [|split; [|split]]].
    + rewrite (t_shape _ _ _ _ _ _ _ T2). apply (t_shape _ _ _ _ _ _ _ T).
    + intros idx I. apply (round_data f F G A U st temporal old); try assumption; [apply named_NoDup|]. rewrite <- (t_shape _ _ _ _ _ _ _ T). now rewrite <- (t_shape _ _ _ _ _ _ _ T2).
    + apply nth_error_eq. intro a. rewrite !nth_error_map', Ax. destruct (is_named A a); [|reflexivity]. now destruct (nth_error (rf_axes f) a).
    + apply nth_error_eq. intro a. rewrite !nth_error_map', Ax. destruct (is_named A a); [|reflexivity]. now destruct (nth_error (rf_axes f) a).
    + apply nth_error_eq. intro a. rewrite (t_ats _ _ _ _ _ _ _ T2), (t_ats _ _ _ _ _ _ _ T). destruct (is_named A a) eqn:E; [|reflexivity]. apply is_named_In in E. rewrite Bool.negb_involutive.
      symmetry. apply Hs. now apply InA.
  - intros a ax E R. rewrite Ax, E. destruct (is_named A a) eqn:En; [|reflexivity]. apply is_named_In, InA in En. specialize (R En). cbn [option_map]. f_equal.
    destruct ax as [nm un g gn]. cbn [ra_name ra_unit ra_grid ra_node] in *. unfold restorable in R. cbn [ra_name ra_unit] in R. rewrite name_back, unit_back; [reflexivity| |]; destruct st; tauto.
  - intros a ax Ia E. rewrite Ax, E, (proj2 (is_named_In A a) (proj2 (InA a) Ia)). cbn [option_map]. eexists. split; [reflexivity|]. split; reflexivity.
Qed.

(** * C75, C21, C24: what the transformed field is *)
Lemma kops_plane temporal old f A U st F idx : on_grid f A U -> transformed f A U st temporal old F -> in_shape (a_shape (rf_data f)) idx = true ->
  a_at (rf_data F) idx = plane_waves_all (sign temporal st) (VV f U) U (left_out old st (VV f U) U) A (a_at (rf_data f)) idx.
Proof.
  intros Ug T I. rewrite (t_data _ _ _ _ _ _ _ T) by exact I. set (sh := a_shape (rf_data f)) in *. assert (Sh := shape_at f A U Ug). fold sh in Sh.
  clear T Ug. revert Sh idx I. induction A as [|a A IH]; intros Sh idx I; [reflexivity|].
  transitivity (kop a (Z.to_nat (nth a sh 0%Z)) (KT f U st temporal old a) (kops (KT f U st temporal old) (fun a => Z.to_nat (nth a sh 0%Z)) A (a_at (rf_data f))) idx); [reflexivity|].
  cbn [plane_waves_all fold_right]. unfold plane_waves at 1. unfold kop. rewrite (Sh a (or_introl eq_refl)), Nat2Z.id. apply csum_ext. intros j J. rewrite IH.
  - reflexivity.
  - intros b Ib. apply Sh. now right.
  - apply in_shape_upd; [exact I|]. rewrite (Sh a (or_introl eq_refl)). lia.
Qed.
Lemma fft_is spl temporal old f axes U st : linear_spline spl -> consistent f -> axes <> [] -> on_grid f axes U -> in_state f axes st ->
  let V := fun a => dual (nth a (rf_tao f) None) (U a) in
  exists F, fft spl temporal old f (map Z.of_nat axes) = Ok F /\ a_shape (rf_data F) = a_shape (rf_data f) /\ on_grid F axes V /\
    (forall idx, in_shape (a_shape (rf_data f)) idx = true ->
       a_at (rf_data F) idx = plane_waves_all (sign temporal st) V U (left_out old st V U) (named (ndim f) axes) (a_at (rf_data f)) idx) /\
    (forall a, (a < ndim f)%nat -> ~ In a axes -> nth_error (rf_axes F) a = nth_error (rf_axes f) a).
Proof.
  intros Sp Cf N Ug Hs V. destruct (fft_named spl temporal old f (map Z.of_nat axes) axes U st Sp Cf N Ug Hs (fun x => iff_refl _)) as (F & EF & T).
  set (A := named (ndim f) axes) in *. assert (InA := fun a => named_same f axes U a Ug). fold A in InA.
  assert (UgA : on_grid f A U) by (apply (on_grid_sub f axes); [intros a; apply InA|exact Ug]).
  exists F. split; [exact EF|]. split; [apply (t_shape _ _ _ _ _ _ _ T)|]. split.
  { intros a I. apply (T_grid f F A U st temporal old UgA T). now apply InA. }
  split; [intros idx I; exact (kops_plane temporal old f A U st F idx UgA T I)|].
  intros a L NI. rewrite (t_axes _ _ _ _ _ _ _ T). destruct (is_named A a) eqn:E; [|reflexivity]. apply is_named_In, InA in E. contradiction.
Qed.
Lemma fft_toggles spl temporal old f axes U st : linear_spline spl -> consistent f -> axes <> [] -> on_grid f axes U -> in_state f axes st ->
  exists F, fft spl temporal old f (map Z.of_nat axes) = Ok F /\ consistent F /\
    (forall a, (a < ndim f)%nat -> nth_error (rf_ats F) a = if is_named axes a then Some (Some (negb st)) else nth_error (rf_ats f) a) /\
    (forall a, (a < ndim f)%nat -> nth_error (rf_tao F) a = if is_named axes a then Some (Some (u_x0 (U a))) else nth_error (rf_tao f) a) /\
    (st = false -> forall a ax, In a axes -> nth_error (rf_axes f) a = Some ax -> exists ax', nth_error (rf_axes F) a = Some ax' /\
       ra_name ax' = (if String.eqb (ra_name ax) "t" then "w" else "k" ++ ra_name ax)%string /\ ra_unit ax' = ("1/" ++ ra_unit ax)%string).
Proof.
  intros Sp Cf N Ug Hs. destruct (fft_named spl temporal old f (map Z.of_nat axes) axes U st Sp Cf N Ug Hs (fun x => iff_refl _)) as (F & EF & T).
  exists F. split; [exact EF|]. split; [exact (T_consistent f F _ U st temporal old Cf T)|]. split; [|split].
  - intros a L. rewrite (t_ats _ _ _ _ _ _ _ T), named_is by exact L. reflexivity.
  - intros a L. rewrite (t_tao _ _ _ _ _ _ _ T), named_is by exact L. reflexivity.
  - intros -> a ax I E. rewrite (t_axes _ _ _ _ _ _ _ T), named_is by exact (grid_lt f axes U a Ug I). rewrite (proj2 (is_named_In axes a) I), E. cbn [option_map]. eexists. split; [reflexivity|]. split; reflexivity.
Qed.

(** * C21: ensure_spatial_domain, ensure_frequency_domain *)
Definition wrong (f : rfield) (b : bool) : list nat := filter (fun a => negb (state_is b (nth a (rf_ats f) None))) (seq 0 (ndim f)).
Lemma zprod_pos sh : (forall n, In n sh -> (0 < n)%Z) -> (0 < zprod sh)%Z.
Proof. unfold zprod. induction sh as [|n sh IH]; intro H; cbn; [lia|]. assert (A := H n (or_introl eq_refl)). assert (B := IH (fun m I => H m (or_intror I))). nia. Qed.
Lemma all_dims_grid f U : on_grid f (seq 0 (ndim f)) U -> all_dims f = map Z.of_nat (seq 0 (ndim f)).
Proof.
  intro Ug. unfold all_dims, dims. assert (P : (0 < zprod (a_shape (rf_data f)))%Z).
  { apply zprod_pos. intros n I. apply In_nth_error in I. destruct I as [a E]. assert (La : (a < ndim f)%nat) by (unfold ndim; apply nth_error_Some; congruence).
    destruct (Ug a) as (ax & _ & (_ & _ & P) & E2); [apply in_seq; lia|]. assert (n = Z.of_nat (u_n (U a))) by congruence. destruct P. lia. }
  destruct (Z.eqb_spec (zprod (a_shape (rf_data f))) 0); [lia|]. unfold zrange. now rewrite Nat2Z.id.
Qed.
Lemma todo_list f b : (forall a, (a < ndim f)%nat -> exists s, nth_error (rf_ats f) a = Some s) -> forall l, (forall a, In a l -> (a < ndim f)%nat) ->
  exists todo, mapM (fun p : Z * bool => rmap (fun s => (fst p, negb (state_is (snd p) s))) (getidx (rf_ats f) (fst p))) (map (fun i => (i, b)) (map Z.of_nat l)) = Ok todo /\
    map fst (filter snd todo) = map Z.of_nat (filter (fun a => negb (state_is b (nth a (rf_ats f) None))) l).
Proof.
  intros H. induction l as [|a l IH]; intro L; [exists []; split; reflexivity|]. destruct (H a (L a (or_introl eq_refl))) as [s E]. destruct IH as (todo & Em & Ef); [intros; apply L; now right|].
  cbn [map mapM fst snd]. rewrite (getidx_nat _ _ _ E). cbn [rmap bind]. rewrite Em. cbn [bind]. eexists. split; [reflexivity|]. cbn [filter snd].
  rewrite (nth_error_nth _ _ None E). destruct (negb (state_is b s)); cbn [map fst]; rewrite Ef; reflexivity.
Qed.
Lemma ensure_unfold spl f b U : consistent f -> on_grid f (seq 0 (ndim f)) U ->
  ensure_domain spl f b = match wrong f b with [] => Ok f | l => fft spl false false f (map Z.of_nat l) end.
Proof.
  intros Cf Ug. unfold ensure_domain, ensure_states. rewrite (all_dims_grid f U Ug).
  destruct (todo_list f b) with (l := seq 0 (ndim f)) as (todo & Em & Ef).
  - intros a L. rewrite <- (c_ats f Cf) in L. apply nth_error_Some in L. destruct (nth_error (rf_ats f) a) as [s|]; [exists s; reflexivity|congruence].
  - intros a I. apply in_seq in I. lia.
  - rewrite Em. cbn [bind]. fold (wrong f b) in Ef. destruct (filter snd todo) as [|p t] eqn:E.
    + destruct (wrong f b); [reflexivity|discriminate].
    + rewrite Ef. destruct (wrong f b); [discriminate|reflexivity].
Qed.
Lemma wrong_In f b a : In a (wrong f b) <-> (a < ndim f)%nat /\ state_is b (nth a (rf_ats f) None) = false.
Proof. unfold wrong. rewrite filter_In, in_seq, Bool.negb_true_iff. intuition lia. Qed.
Lemma ensure_ok spl f b U : linear_spline spl -> consistent f -> on_grid f (seq 0 (ndim f)) U -> (forall a, (a < ndim f)%nat -> exists s, nth_error (rf_ats f) a = Some (Some s)) ->
  exists G, ensure_domain spl f b = Ok G /\ (forall a, (a < ndim f)%nat -> nth_error (rf_ats G) a = Some (Some b)) /\ ensure_domain spl G b = Ok G /\
    (in_state f (seq 0 (ndim f)) b -> G = f).
Proof.
  intros Sp Cf Ug Hb. assert (St : forall a s, nth_error (rf_ats f) a = Some (Some s) -> state_is b (nth a (rf_ats f) None) = false -> s = negb b).
  { intros a s E E2. rewrite (nth_error_nth _ _ None E) in E2. destruct s, b; try reflexivity; discriminate. }
  assert (Gd : forall G, wrong G b = [] -> consistent G -> (exists V, on_grid G (seq 0 (ndim G)) V) -> ensure_domain spl G b = Ok G).
  { intros G E CG (V & GV). now rewrite (ensure_unfold spl G b V CG GV), E. }
  rewrite (ensure_unfold spl f b U Cf Ug). destruct (wrong f b) as [|w l] eqn:E.
  - exists f. split; [reflexivity|]. split; [|split; [apply Gd; [exact E|exact Cf|exists U; exact Ug]|reflexivity]].
    intros a L. destruct (Hb a L) as [s Es]. rewrite Es. destruct (Bool.bool_dec s b) as [->|N]; [reflexivity|]. exfalso. assert (I : In a (wrong f b)) by (apply wrong_In; split; [exact L|]; rewrite (nth_error_nth _ _ None Es); destruct s, b; try reflexivity; congruence).
    rewrite E in I. exact I.
  - rewrite <- E. assert (Sub : forall a, In a (wrong f b) -> In a (seq 0 (ndim f))) by (intros a I; apply wrong_In in I; apply in_seq; lia).
    assert (UgW := on_grid_sub f _ _ U Sub Ug).
    destruct (fft_named spl false false f (map Z.of_nat (wrong f b)) (wrong f b) U (negb b) Sp Cf) as (G & EG & T); [congruence|exact UgW| |intro; apply iff_refl|].
    { intros a I. assert (I' := I). apply wrong_In in I'. destruct I' as [L Sf]. destruct (Hb a L) as [s Es]. rewrite Es. now rewrite (St a s Es Sf). }
    assert (NdG := T_ndim f G _ U (negb b) false false T). assert (CG := T_consistent f G _ U (negb b) false false Cf T).
    assert (Ats : forall a, (a < ndim f)%nat -> nth_error (rf_ats G) a = Some (Some b)).
    { intros a L. rewrite (t_ats _ _ _ _ _ _ _ T), named_is by exact L. destruct (is_named (wrong f b) a) eqn:Ew; [now rewrite Bool.negb_involutive|].
      destruct (Hb a L) as [s Es]. rewrite Es. destruct (Bool.bool_dec s b) as [->|N]; [reflexivity|]. exfalso. assert (I : In a (wrong f b)) by (apply wrong_In; split; [exact L|]; rewrite (nth_error_nth _ _ None Es); destruct s, b; try reflexivity; congruence).
      apply is_named_In in I. congruence. }
    exists G. split; [exact EG|]. split; [exact Ats|]. split.
    + apply Gd; [|exact CG|].
      * destruct (wrong G b) as [|x t] eqn:Ex; [reflexivity|]. exfalso. assert (I : In x (wrong G b)) by (rewrite Ex; now left). apply wrong_In in I. destruct I as [L Sf]. rewrite NdG in L.
        rewrite (nth_error_nth _ _ None (Ats x L)) in Sf. destruct b; discriminate.
      * exists (fun a => if is_named (wrong f b) a then VV f U a else U a). rewrite NdG. intros a I. assert (L : (a < ndim f)%nat) by (apply in_seq in I; lia). destruct (is_named (wrong f b) a) eqn:Ew.
        -- apply (T_grid f G (named (ndim f) (wrong f b)) U (negb b) false false); [|exact T|apply named_In; split; [now apply is_named_In|exact L]].
           apply (on_grid_sub f (wrong f b)); [intro c; rewrite named_In; tauto|exact UgW].
        -- destruct (Ug a I) as (ax & E1 & E2 & E3). exists ax. rewrite (t_axes _ _ _ _ _ _ _ T), named_is, Ew by exact L. split; [exact E1|]. split; [exact E2|]. now rewrite (t_shape _ _ _ _ _ _ _ T).
    + intro Hin. exfalso. assert (I : In w (wrong f b)) by (rewrite E; now left). assert (I' := I). apply wrong_In in I'. destruct I' as [L Sf]. specialize (Hin w (Sub w I)).
      rewrite (nth_error_nth _ _ None Hin) in Sf. destruct b; discriminate.
Qed.
