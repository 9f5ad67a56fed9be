(** The time profile at a plane: results, refusals, and what the other algorithm does. *)
From Coq Require Import Reals String Ascii List ZArith Lia Lra Bool.
From Verif Require Import PyBase PyBaseFacts NumpyModel NdModel NdFacts FieldModel FieldGridFacts CplxModel CplxFacts FftModel FftSpec FftAxes FftKernel FftFacts FftLaws FftMore KspaceModel KspaceSpec KspaceFrame KspaceFacts KspaceProp KspaceRefuse TimeModel TimeSpec TimeFacts.
Import ListNotations.
Local Open Scope R_scope.

Lemma domains_ok spl a s f st U : linear_spline spl -> consistent f -> (0 < ndim f)%nat -> on_grid f (seq 0 (ndim f)) U -> all_in st f -> nth_error s a = Some f ->
  exists F, fft spl false false f (all_dims f) = Ok F /\ both_domains spl a s = (s ++ [F], Ok (st, if st then (a, length s) else (length s, a))) /\ nth_error (s ++ [F]) a = Some f /\ nth_error (s ++ [F]) (length s) = Some F /\
    ndim F = ndim f /\ consistent F /\ a_shape (rf_data F) = a_shape (rf_data f) /\ on_grid F (seq 0 (ndim f)) (VV f U) /\ all_in (negb st) F /\ (forall a, (a < ndim f)%nat -> nth_error (rf_tao F) a = Some (Some (u_x0 (U a)))).
Proof.
  intros Sp C P G A H. destruct (fft_full spl f st U Sp C P G A) as (F & EF & NF & CF & ShF & GF & AF & TF & _).
  assert (Wf : wellformed f) by (split; [exact C|]; split; [exists U; exact G|]; split; [exact P|]; intros b L; exists st; apply A, in_seq; lia).
  exists F. split; [exact EF|]. split.
  - unfold both_domains. rewrite (sbind_ok' _ _ _ _ _ (load_ok _ _ _ H)). rewrite (sbind_ok' _ _ _ _ _ (lift_ok _ _ _ (wf_state f st Wf A))). unfold sbind, fft_at, sbind, load, lift, alloc. rewrite H, EF. reflexivity.
  - split; [rewrite nth_error_app1; [exact H|apply nth_error_Some; congruence]|]. split; [rewrite nth_error_app2, Nat.sub_diag by lia; reflexivity|]. repeat (split; [assumption|]). exact TF.
Qed.
Lemma iterative_freq c spl b value dir t_input remove a s f U : 0 < c -> linear_spline spl -> consistent f -> on_grid f (seq 0 (ndim f)) U -> all_in true f -> remembered f -> nth_error s a = Some f -> (b < ndim f)%nat -> dir = 1 \/ dir = -1 ->
  let X := dual (nth b (rf_tao f) None) (U b) in let v := plane_of value dir X in
  exists s' y r, time_profile_at_plane c spl (Z.of_nat b) value dir t_input "iterative" remove a s = (s', Ok y) /\ nth_error s' y = Some r /\ (forall d, (d < length s)%nat -> nth_error s' d = nth_error s d) /\ (length s <= y)%nat /\
    profile c f b (U b) X v dir t_input remove (- (u_x0 (U b) * v)) r.
Proof.
  intros Pc Sp C G A Rm H Lb Hd X v. destruct (domains_ok spl a s f true U Sp C ltac:(lia) G A H) as (F & EF & ED & Ha & HF & NF & CF & ShF & GF & AF & TF).
  change (time_profile_at_plane c spl (Z.of_nat b) value dir t_input "iterative" remove a s) with (time_iterative c spl (Z.of_nat b) value dir t_input remove a s). unfold time_iterative. rewrite (sbind_ok' _ _ _ _ _ ED). cbn [fst snd]. rewrite (sbind_ok' _ _ _ _ _ (load_ok _ _ _ Ha)). rewrite (sbind_ok' _ _ _ _ _ (load_ok _ _ _ HF)).
  destruct (GF b) as (axx & Ex & Ix & _); [apply in_seq; lia|].
  destruct (iterate_ok c spl f U b value dir t_input remove F axx Pc Sp C G A Rm Lb Hd Ex Ix true (s ++ [F])) as (s1 & y & Hy & Fr & Ly & _ & E). rewrite E. rewrite app_length in *. cbn [length] in *.
  exists s1, y. eexists. split; [reflexivity|]. split; [exact Hy|]. split; [intros d Ld; rewrite Fr by lia; now rewrite nth_error_app1|]. split; [lia|]. apply r_profile; assumption.
Qed.
Lemma all_ext s V W U ref A F idx : (forall a, In a A -> V a = W a) -> plane_waves_all s V U ref A F idx = plane_waves_all s W U ref A F idx.
Proof.
  revert idx. induction A as [|a A IH]; intros idx H; [reflexivity|]. cbn [plane_waves_all fold_right]. unfold plane_waves at 1 3. rewrite (H a (or_introl eq_refl)). apply csum_ext. intros j _. f_equal. apply IH. intros; apply H; now right.
Qed.
Lemma other_In nd b a : In a (other_dims nd b) <-> (a < nd)%nat /\ a <> b.
Proof. unfold other_dims. rewrite filter_In, in_seq, negb_true_iff, Nat.eqb_neq. intuition lia. Qed.
Lemma named_other nd b : named nd (other_dims nd b) = other_dims nd b.
Proof.
  unfold named, other_dims at 2. apply filter_ext_in. intros a I. destruct (Nat.eqb_spec a b) as [->|N].
  - destruct (existsb (Nat.eqb b) (other_dims nd b)) eqn:E; [|reflexivity]. apply existsb_exists in E as (x & Ix & Ex). apply Nat.eqb_eq in Ex. subst x. apply other_In in Ix. lia.
  - apply existsb_exists. exists a. split; [apply other_In; apply in_seq in I; lia|apply Nat.eqb_refl].
Qed.
Lemma nth_error_upd_ne {A} (l : list A) a b x : a <> b -> nth_error (upd l b x) a = nth_error l a.
Proof. revert a b. induction l as [|y l IH]; intros [|a] [|b] N; try reflexivity; try congruence. apply (IH a b). congruence. Qed.
Lemma nth_error_upd_eq {A} (l : list A) b x : (b < length l)%nat -> nth_error (upd l b x) b = Some x.
Proof. revert b. induction l as [|y l IH]; intros [|b] L; cbn in *; try lia; [reflexivity|]. apply IH. lia. Qed.
Lemma iterative_space c spl b value dir t_input remove a s f U : 0 < c -> linear_spline spl -> consistent f -> (2 <= ndim f)%nat -> on_grid f (seq 0 (ndim f)) U -> all_in false f -> nth_error s a = Some f -> (b < ndim f)%nat -> dir = 1 \/ dir = -1 ->
  let K := fun i => dual (nth i (rf_tao f) None) (U i) in let v := plane_of value dir (U b) in let others := other_dims (ndim f) b in let T := times c dir v t_input (U b) in
  exists F s' y r q, fft spl false false f (all_dims f) = Ok F /\ on_grid F (seq 0 (ndim f)) K /\ time_profile_at_plane c spl (Z.of_nat b) value dir t_input "iterative" remove a s = (s', Ok y) /\ nth_error s' y = Some r /\ (forall d, (d < length s)%nat -> nth_error s' d = nth_error s d) /\ (length s <= y)%nat /\
    profile c F b (K b) (U b) v dir t_input remove (- (u_x0 (K b) * v)) q /\
    a_shape (rf_data r) = a_shape (rf_data f) /\ on_grid r others U /\ nth_error (rf_axes r) b = Some (mkra "t" "s" (grid_of T) (node_of T)) /\
    forall idx, in_shape (a_shape (rf_data f)) idx = true -> a_at (rf_data r) idx = plane_waves_all 1 U K (fun _ _ _ => 0) others (a_at (rf_data q)) idx.
Proof.
  intros Pc Sp C N2 G A H Lb Hd K v others T. destruct (domains_ok spl a s f false U Sp C ltac:(lia) G A H) as (F & EF & ED & Ha & HF & NF & CF & ShF & GF & AF & TF).
  change (time_profile_at_plane c spl (Z.of_nat b) value dir t_input "iterative" remove a s) with (time_iterative c spl (Z.of_nat b) value dir t_input remove a s). unfold time_iterative. rewrite (sbind_ok' _ _ _ _ _ ED). cbn [fst snd]. rewrite (sbind_ok' _ _ _ _ _ (load_ok _ _ _ HF)). rewrite (sbind_ok' _ _ _ _ _ (load_ok _ _ _ Ha)).
  destruct (G b) as (axx & Ex & Ix & Shb); [apply in_seq; lia|]. assert (Pb := proj2 (proj2 Ix)).
  assert (Dual : forall i, (i < ndim f)%nat -> dual (nth i (rf_tao F) None) (K i) = U i).
  { intros i L. rewrite (nth_error_nth _ _ None (TF i L)). destruct (G i) as (ax & _ & (_ & _ & P) & _); [apply in_seq; lia|]. now apply dual_dual. }
  assert (GF' : on_grid F (seq 0 (ndim F)) K) by (rewrite NF; exact GF). assert (RF : remembered F) by (intros i L; rewrite NF in L; eexists; now apply TF). assert (LbF : (b < ndim F)%nat) by (rewrite NF; exact Lb).
  assert (Ix' : axis_is axx (dual (nth b (rf_tao F) None) (K b))) by (rewrite Dual by exact Lb; exact Ix).
  destruct (iterate_ok c spl F K b value dir t_input remove f axx Pc Sp CF GF' AF RF LbF Hd Ex Ix' false (s ++ [F])) as (s1 & y & Hy & Fr & Ly & Ls & E). rewrite E.
  assert (Pr := r_profile c F K b value dir t_input remove GF' LbF). rewrite (Dual b Lb) in Pr, E, Hy. rewrite (Dual b Lb). fold v in Pr, Hy, E |- *. set (q := mkrf (zero_components _ _ _ _) _ _ _) in *.
  assert (Nq : ndim q = ndim F) by (unfold ndim; now rewrite (pr_shape _ _ _ _ _ _ _ _ _ _ _ Pr)).
  assert (Cq : consistent q) by (split; rewrite Nq, ?(pr_axes _ _ _ _ _ _ _ _ _ _ _ Pr), ?(pr_state _ _ _ _ _ _ _ _ _ _ _ Pr), ?(pr_origins _ _ _ _ _ _ _ _ _ _ _ Pr), ?upd_len; apply CF).
  assert (Gq : on_grid q others K).
  { intros i I. apply other_In in I as [L Ne]. destruct (GF i) as (ax & Q1 & Q2 & Q3); [apply in_seq; lia|]. exists ax. rewrite (pr_axes _ _ _ _ _ _ _ _ _ _ _ Pr), (pr_shape _ _ _ _ _ _ _ _ _ _ _ Pr), nth_error_upd_ne by exact Ne. auto. }
  assert (Sq : in_state q others true).
  { intros i I. apply other_In in I as [L Ne]. rewrite (pr_state _ _ _ _ _ _ _ _ _ _ _ Pr), nth_error_upd_ne by exact Ne. apply AF, in_seq. lia. }
  assert (No : others <> []) by (intro E0; assert (I : In (if Nat.eqb b 0 then 1%nat else 0%nat) others) by (apply other_In; destruct (Nat.eqb_spec b 0); lia); rewrite E0 in I; exact I).
  destruct (fft_is spl false false q others K true Sp Cq No Gq Sq) as (r & Er & Shr & Gr & Dr & Xr).
  assert (Em : map Z.of_nat (other_dims (ndim F) b) = map Z.of_nat others) by (now rewrite NF). rewrite Em. rewrite app_length in *. cbn [length] in *.
  exists F, (s1 ++ [r]), (length s1), r, q. split; [exact EF|]. split; [exact GF|].
  split; [destruct (map Z.of_nat others) as [|z l0] eqn:E0; [apply map_eq_nil in E0; congruence|]; now rewrite Er|].
  split; [rewrite nth_error_app2, Nat.sub_diag by lia; reflexivity|]. split; [intros d Ld; rewrite nth_error_app1 by lia; rewrite Fr by lia; now rewrite nth_error_app1|]. split; [lia|].
  split; [exact Pr|]. assert (Shq : a_shape (rf_data q) = a_shape (rf_data f)) by (rewrite (pr_shape _ _ _ _ _ _ _ _ _ _ _ Pr); exact ShF). split; [congruence|].
  assert (Bk : forall i, In i others -> dual (nth i (rf_tao q) None) (K i) = U i).
  { intros i I. apply other_In in I as [L Ne]. rewrite (pr_origins _ _ _ _ _ _ _ _ _ _ _ Pr), nth_upd_ne by congruence. now apply Dual. }
  split; [intros i I; destruct (Gr i I) as (ax & Q1 & Q2 & Q3); exists ax; rewrite <- (Bk i I); auto|]. split.
  - rewrite Xr; [|rewrite Nq, NF; exact Lb|intro I; apply other_In in I; lia]. rewrite (pr_axes _ _ _ _ _ _ _ _ _ _ _ Pr). apply nth_error_upd_eq. rewrite (c_axes F CF), NF. exact Lb.
  - intros idx I. rewrite Dr by (rewrite Shq; exact I). rewrite Nq, NF. fold others. unfold others at 1. rewrite named_other. fold others. replace (sign false true) with 1 by reflexivity. apply all_ext. exact Bk.
Qed.
(** the modulus does not depend on the phase *)
Lemma profile_modulus c f b u x v dir t_input remove phase r idx : profile c f b u x v dir t_input remove phase r -> in_shape (a_shape (rf_data f)) idx = true ->
  Cabs2 (a_at (rf_data r) idx) = Cabs2 (passing c (going (ndim f) b dir remove f) b u v (point (times c dir v t_input x) (nth b idx 0%Z) - t_input) idx).
Proof. intros P I. rewrite (pr_data _ _ _ _ _ _ _ _ _ _ _ P idx I). rewrite Cabs2_mul, Cabs2_cis. ring. Qed.
(** at the time of the field the wave is the field *)
Lemma snapshot c spl b f U : linear_spline spl -> consistent f -> on_grid f (seq 0 (ndim f)) U -> all_in true f -> (b < ndim f)%nat -> let X := dual (nth b (rf_tao f) None) (U b) in
  exists F, fft spl false false f [Z.of_nat b] = Ok F /\ forall idx, in_shape (a_shape (rf_data f)) idx = true -> a_at (rf_data F) idx = passing c f b (U b) (point X (nth b idx 0%Z)) 0 idx.
Proof.
  intros Sp C G A Lb X. destruct (fft_is spl false false f [b] U true Sp C) as (F & EF & Sh & GF & D & _); [discriminate|intros i [<-|[]]; apply G, in_seq; lia|intros i [<-|[]]; apply A, in_seq; lia|].
  exists F. split; [exact EF|]. intros idx I. rewrite (D idx I). assert (En : named (ndim f) [b] = [b]).
  { unfold named. assert (Hs : forall s n, filter (fun a => existsb (Nat.eqb a) [b]) (seq s n) = if (s <=? b)%nat && (b <? s + n)%nat then [b] else []).
    { intros s n. revert s. induction n as [|n IH]; intro s; [destruct (Nat.leb_spec s b), (Nat.ltb_spec b (s + 0)); cbn; try reflexivity; lia|]. cbn [seq filter existsb]. rewrite orb_false_r, IH. destruct (Nat.eqb_spec s b) as [->|N].
      - destruct (Nat.leb_spec (S b) b), (Nat.leb_spec b b), (Nat.ltb_spec b (b + S n)); cbn; try lia; reflexivity.
      - destruct (Nat.leb_spec (S s) b), (Nat.leb_spec s b), (Nat.ltb_spec b (S s + n)), (Nat.ltb_spec b (s + S n)); cbn; try lia; reflexivity. }
    rewrite Hs. destruct (Nat.leb_spec 0 b), (Nat.ltb_spec b (0 + ndim f)); cbn; try lia; reflexivity. }
  rewrite En. cbn [plane_waves_all fold_right]. unfold plane_waves, passing. apply csum_ext. intros m _. cbv zeta. f_equal. f_equal. f_equal. unfold X, left_out, sign. cbn [Bool.eqb]. ring.
Qed.
(** * Refusals *)
Lemma refused_state c spl axis value dir t_input remove a s f alg : wellformed f -> (~ exists st, all_in st f) -> nth_error s a = Some f -> alg = "fourier"%string \/ alg = "iterative"%string -> time_profile_at_plane c spl axis value dir t_input alg remove a s = (s, Err ValueError).
Proof.
  intros Wf N H Al. assert (E : both_domains spl a s = (s, Err ValueError)) by (unfold both_domains; rewrite (sbind_ok' _ _ _ _ _ (load_ok _ _ _ H)); rewrite (sbind_ok' _ _ _ _ _ (lift_ok _ _ _ (mixed_state f Wf N))); reflexivity).
  destruct Al as [-> | ->]; [change (time_fourier spl axis a s = (s, Err ValueError))|change (time_iterative c spl axis value dir t_input remove a s = (s, Err ValueError))]; [unfold time_fourier|unfold time_iterative]; unfold sbind; now rewrite E.
Qed.
Lemma refused_axis c spl b value dir t_input remove a s f st alg : linear_spline spl -> wellformed f -> all_in st f -> nth_error s a = Some f -> (ndim f <= b < 3)%nat -> alg = "fourier"%string \/ alg = "iterative"%string ->
  exists s', time_profile_at_plane c spl (Z.of_nat b) value dir t_input alg remove a s = (s', Err ValueError) /\ (forall d, (d < length s)%nat -> nth_error s' d = nth_error s d).
Proof.
  intros Sp (C & (U & G) & P & _) A H L Al. destruct (domains_ok spl a s f st U Sp C P G A H) as (F & EF & ED & Ha & HF & NF & CF & ShF & GF & AF & TF). exists (s ++ [F]). split; [|intros d Ld; now rewrite nth_error_app1].
  set (k := if st then f else F). set (x := if st then F else f). assert (Ek : load (fst (if st then (a, length s) else (length s, a))) (s ++ [F]) = (s ++ [F], Ok k)) by (unfold k; destruct st; now apply load_ok).
  assert (Ex : load (snd (if st then (a, length s) else (length s, a))) (s ++ [F]) = (s ++ [F], Ok x)) by (unfold x; destruct st; now apply load_ok).
  assert (Eo : others_of (all_dims k) (Z.of_nat b) = Err ValueError).
  { assert (Ed : all_dims k = map Z.of_nat (seq 0 (ndim f))) by (unfold k; destruct st; [exact (all_dims_grid f U G)|]; rewrite <- NF; apply (all_dims_grid F (VV f U)); now rewrite NF). rewrite Ed. apply others_refused. lia. }
  destruct Al as [-> | ->]; [change (time_fourier spl (Z.of_nat b) a s = (s ++ [F], Err ValueError))|change (time_iterative c spl (Z.of_nat b) value dir t_input remove a s = (s ++ [F], Err ValueError))]; [unfold time_fourier|unfold time_iterative]; rewrite (sbind_ok' _ _ _ _ _ ED); cbn [fst snd]; rewrite (sbind_ok' _ _ _ _ _ Ek).
  - rewrite (sbind_ok' _ _ _ _ _ (lift_ok _ _ _ (identify_nat b ltac:(lia)))). unfold sbind, lift. now rewrite Eo.
  - rewrite (sbind_ok' _ _ _ _ _ Ex). unfold iterate. rewrite (sbind_ok' _ _ _ _ _ (lift_ok _ _ _ (identify_nat b ltac:(lia)))). unfold sbind at 1, lift at 1. now rewrite Eo.
Qed.
Lemma refused_algorithm c spl axis value dir t_input alg remove a s : alg <> "fourier"%string -> alg <> "iterative"%string -> time_profile_at_plane c spl axis value dir t_input alg remove a s = (s, Err RuntimeError).
Proof. intros N1 N2. unfold time_profile_at_plane. apply String.eqb_neq in N1, N2. now rewrite N1, N2. Qed.
(** * The Fourier algorithm *)
Lemma fourier_one c spl value dir t_input remove a s f st : linear_spline spl -> wellformed f -> all_in st f -> ndim f = 1%nat -> nth_error s a = Some f ->
  exists s', time_profile_at_plane c spl 0 value dir t_input "fourier" remove a s = (s', Err TypeError).
Proof.
  intros Sp (C & (U & G) & P & _) A N1 H. destruct (domains_ok spl a s f st U Sp C P G A H) as (F & EF & ED & Ha & HF & NF & CF & ShF & GF & AF & TF). exists (s ++ [F]).
  set (k := if st then f else F). assert (Ek : load (fst (if st then (a, length s) else (length s, a))) (s ++ [F]) = (s ++ [F], Ok k)) by (unfold k; destruct st; now apply load_ok).
  assert (Ed : all_dims k = map Z.of_nat (seq 0 1)) by (rewrite <- N1; unfold k; destruct st; [exact (all_dims_grid f U G)|]; rewrite <- NF; apply (all_dims_grid F (VV f U)); now rewrite NF).
  change (time_fourier spl 0 a s = (s ++ [F], Err TypeError)). unfold time_fourier. rewrite (sbind_ok' _ _ _ _ _ ED); cbn [fst snd]; rewrite (sbind_ok' _ _ _ _ _ Ek). rewrite Ed. reflexivity.
Qed.
Lemma mesh_at f U b idx : on_grid f (seq 0 (ndim f)) U -> (b < ndim f)%nat -> in_shape (a_shape (rf_data f)) idx = true -> mesh (rf_axes f) (Z.of_nat b) idx = point (U b) (nth b idx 0%Z).
Proof.
  intros G L I. destruct (G b) as (ax & E & (Ga & _) & Sh); [apply in_seq; lia|]. unfold mesh. rewrite Nat2Z.id, E, Ga. assert (B := in_shape_nth _ _ b I L). rewrite (nth_error_nth _ _ 0%Z Sh) in B. rewrite grid_at by lia. now rewrite Z2Nat.id by lia.
Qed.
Lemma in_shape_all sh idx : length idx = length sh -> (forall a, (a < length sh)%nat -> (0 <= nth a idx 0 < nth a sh 0)%Z) -> in_shape sh idx = true.
Proof.
  revert idx. induction sh as [|n sh IH]; intros [|i idx] L H; cbn in L; try discriminate; [reflexivity|]. cbn [in_shape]. assert (H0 := H 0%nat ltac:(cbn; lia)). cbn in H0. replace (0 <=? i)%Z with true by (symmetry; apply Z.leb_le; lia). replace (i <? n)%Z with true by (symmetry; apply Z.ltb_lt; lia). cbn [andb].
  apply IH; [lia|]. intros a La. exact (H (S a) ltac:(cbn; lia)).
Qed.
Lemma fourier_zero spl f U b d dir : linear_spline spl -> consistent f -> on_grid f (seq 0 (ndim f)) U -> all_in false f -> (b < ndim f)%nat -> (d < ndim f)%nat -> d <> b -> nth b (rf_tao f) None = None -> nth d (rf_tao f) None = None ->
  exists F idx, fft spl false false f (all_dims f) = Ok F /\ in_shape (a_shape (rf_data F)) idx = true /\ fourier_mask dir (rf_axes F) (Z.of_nat b) idx = false /\ fourier_divisor (rf_axes F) (Z.of_nat b) idx = 0.
Proof.
  intros Sp C G A Lb Ld Ne Tb Td. destruct (fft_full spl f false U Sp C ltac:(lia) G A) as (F & EF & NF & CF & ShF & GF & AF & TF & _).
  set (idx := map (fun a => if Nat.eqb a b then Z.of_nat (u_n (U b) / 2) else 0%Z) (seq 0 (ndim f))).
  assert (At : forall a, (a < ndim f)%nat -> nth a idx 0%Z = if Nat.eqb a b then Z.of_nat (u_n (U b) / 2) else 0%Z).
  { intros a L. unfold idx. rewrite (nth_indep _ 0%Z (if Nat.eqb 0 b then Z.of_nat (u_n (U b) / 2) else 0%Z)) by (rewrite map_length, seq_length; exact L). rewrite (map_nth (fun a => if Nat.eqb a b then Z.of_nat (u_n (U b) / 2) else 0%Z)). now rewrite seq_nth. }
  assert (Pr : forall a, (a < ndim f)%nat -> proper (U a) /\ nth a (a_shape (rf_data f)) 0%Z = Z.of_nat (u_n (U a))).
  { intros a L. destruct (G a) as (ax & _ & (_ & _ & P) & Sh); [apply in_seq; lia|]. split; [exact P|]. now apply nth_error_nth. }
  assert (I : in_shape (a_shape (rf_data F)) idx = true).
  { rewrite ShF. apply in_shape_all; [unfold idx; now rewrite map_length, seq_length|]. intros a L. rewrite At by exact L. destruct (Pr a L) as [[N2 _] ->]. destruct (Nat.eqb_spec a b) as [->|_]; [|lia]. assert (Q := Nat.div_lt (u_n (U b)) 2). lia. }
  assert (Mb : mesh (rf_axes F) (Z.of_nat b) idx = 0).
  { rewrite (mesh_at F (VV f U)) by (rewrite ?NF; assumption). rewrite At, Nat.eqb_refl by exact Lb. unfold VV, point, dual. rewrite Tb. cbn [u_x0 u_dx]. rewrite <- INR_IZR_INZ. ring. }
  assert (Md : mesh (rf_axes F) (Z.of_nat d) idx <> 0).
  { rewrite (mesh_at F (VV f U)) by (rewrite ?NF; assumption). rewrite At by exact Ld. apply Nat.eqb_neq in Ne. rewrite Ne. unfold VV, point. rewrite Td. destruct (Pr d Ld) as [Pd _]. assert (Dp := dual_proper None (U d) Pd). destruct Pd as [N2 _]. destruct Dp as [_ Dp].
    unfold dual in *. cbn [u_x0 u_dx] in *. set (h := 2 * PI / _) in *. assert (1 <= INR (u_n (U d) / 2)) by (change 1 with (INR 1); apply le_INR, (Nat.div_le_lower_bound); lia). nra. }
  exists F, idx. split; [exact EF|]. split; [exact I|]. split; [|exact Mb]. unfold fourier_mask. rewrite Mb. apply orb_false_iff. split; [destruct (Rltb 0 dir); unfold Rltb; destruct (Rlt_dec 0 0); try reflexivity; lra|].
  destruct (forallb _ _) eqn:E; [|reflexivity]. rewrite forallb_forall in E. specialize (E (Z.of_nat d)). destruct (Req_EM_T (mesh (rf_axes F) (Z.of_nat d) idx) 0); [contradiction|]. discriminate E. apply FieldReduceFacts.zrange_In. rewrite (c_axes F CF), NF. lia.
Qed.
