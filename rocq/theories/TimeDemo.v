(** Fields without origins, and concrete cases for the time profile. *)
From Coq Require Import Reals String Ascii List ZArith Lia Lra Bool.
From Verif Require Import PyBase PyBaseFacts NumpyModel NdModel NdFacts FieldModel FieldGridFacts CplxModel CplxFacts FftModel FftSpec FftAxes FftKernel FftFacts FftLaws FftMore FftDemo KspaceModel KspaceSpec KspaceFrame KspaceFacts KspaceProp KspaceRefuse KspaceDemo TimeModel TimeSpec TimeFacts TimeLaws.
Import ListNotations.
Local Open Scope R_scope.

(** * A window which cannot be moved *)
Lemma move_missing d l : forall tao, NoDup l -> (forall i, In i l -> (i < length tao)%nat) -> (exists i, In i l /\ nth_error tao i = Some None) -> move_origins tao (map (fun i => (Z.of_nat i, d i)) l) = Err TypeError.
Proof.
  induction l as [|j l IH]; intros tao ND H (i & I & E); [destruct I|]. cbn [map move_origins]. assert (Lj := H j (or_introl eq_refl)). rewrite (getidx_nat _ _ _ (nth_error_nth' tao None Lj)). cbn [bind]. destruct (nth j tao None) as [x|] eqn:Ej; [|reflexivity].
  rewrite setidx_at by exact Lj. cbn [bind]. inversion ND as [|? ? Nj ND']. subst. assert (Ne : i <> j) by (intros ->; apply (nth_error_nth _ _ None) in E; congruence). apply IH; [exact ND'|intros; rewrite upd_len; apply H; now right|].
  exists i. split; [destruct I; [congruence|assumption]|]. now rewrite nth_error_upd_ne.
Qed.
Lemma run_missing c spl p n a s f : wellformed f -> all_in true f -> nth_error s a = Some f -> sensible p (ndim f) -> moves c p <> None -> p_zeroth p = false -> (exists i, (i < ndim f)%nat /\ nth_error (rf_tao f) i = Some None) ->
  exists s', prop_run c spl p (S n) a s = (s', Err TypeError) /\ forall d, (d < length s)%nat -> nth_error s' d = nth_error s d.
Proof.
  intros Wf A H Se Mv Z0 (i & Li & Ei). assert (C := proj1 Wf).
  destruct (start_ok c spl p a s f true s a f (wf_state f true Wf A) H eq_refl H C (wf_dims f Wf) Se) as (s2 & a2 & E2 & H2 & L2 & F2 & _).
  unfold prop_run. rewrite (sbind_ok' _ _ _ _ _ E2). rewrite Z0. unfold sbind at 1, sret at 1. cbv iota. set (g := gen_of _ _ _ _ _ _ _). destruct (moves c p) as [d|] eqn:Em; [|congruence].
  assert (Ew : g_window g = Some (map (fun i => (Z.of_nat i, d i)) (seq 0 (ndim f)))) by reflexivity.
  assert (Es : exists s3, prop_step spl g s2 = (s3, Err TypeError) /\ forall d, (d < length s2)%nat -> nth_error s3 d = nth_error s2 d).
  { unfold prop_step. change (g_cur g) with a2. rewrite (sbind_ok' _ _ _ _ _ (load_ok _ _ _ H2)). unfold sbind at 1, alloc at 1. rewrite Ew. set (k1 := with_data _ _).
    eexists. split; [unfold sbind at 1; rewrite (sbind_ok' _ _ _ (s2 ++ [k1]) k1) by (apply load_ok; now rewrite nth_error_app2, Nat.sub_diag by lia)|].
    - unfold sbind at 1, lift at 1. change (rf_tao k1) with (rf_tao (start_of p f)). rewrite start_tao, move_missing; [reflexivity|apply seq_NoDup|intros j I; apply in_seq in I; rewrite (c_tao f C); lia|exists i; split; [apply in_seq; lia|exact Ei]].
    - intros e Le. now rewrite nth_error_app1. }
  destruct Es as (s3 & E3 & F3). exists s3. split; [|intros e Le; rewrite F3, F2 by lia; reflexivity]. rewrite Ew. assert (Ev : exists v, p_vect p = Some v) by (unfold moves in Em; destruct (p_vect p); [eexists; reflexivity|discriminate]). destruct Ev as [vv ->].
  unfold sbind at 1. cbn [prop_steps]. unfold sbind at 1. now rewrite E3.
Qed.
Lemma missing_origin c spl b value dir t_input remove a s f U : 0 < c -> linear_spline spl -> consistent f -> on_grid f (seq 0 (ndim f)) U -> all_in true f -> (exists i, (i < ndim f)%nat /\ nth_error (rf_tao f) i = Some None) -> nth_error s a = Some f -> (b < ndim f)%nat -> dir = 1 \/ dir = -1 ->
  exists s', time_profile_at_plane c spl (Z.of_nat b) value dir t_input "iterative" remove a s = (s', Err TypeError) /\ forall d, (d < length s)%nat -> nth_error s' d = nth_error s d.
Proof.
  intros Pc Sp C G A Ms H Lb Hd. destruct (domains_ok spl a s f true U Sp C ltac:(lia) G A H) as (F & EF & ED & Ha & HF & NF & CF & ShF & GF & AF & TF).
  change (time_profile_at_plane c spl (Z.of_nat b) value dir t_input "iterative" remove a s) with (time_iterative c spl (Z.of_nat b) value dir t_input remove a s). unfold time_iterative. rewrite (sbind_ok' _ _ _ _ _ ED). cbn [fst snd]. rewrite (sbind_ok' _ _ _ _ _ (load_ok _ _ _ Ha)). rewrite (sbind_ok' _ _ _ _ _ (load_ok _ _ _ HF)).
  destruct (GF b) as (axx & Ex & Ix & _); [apply in_seq; lia|]. assert (L3 : (b < 3)%nat) by (destruct C; lia). destruct (G b) as (axk & Ea & Ia & Sh); [apply in_seq; lia|]. destruct Ia as (Ga & Na & [N2 Pd]). assert (Ia : axis_is axk (U b)) by (split; [exact Ga|split; [exact Na|split; assumption]]).
  unfold iterate. rewrite (sbind_ok' _ _ _ _ _ (lift_ok _ _ _ (identify_nat b L3))). rewrite (all_dims_grid f U G).
  rewrite (sbind_ok' _ _ _ _ _ (lift_ok _ _ _ (others_ok (ndim f) b Lb))). rewrite (sbind_ok' _ _ _ _ _ (lift_ok _ _ _ (getidx_nat _ _ _ Ex))).
  rewrite (sbind_ok' _ _ _ _ _ (lift_ok _ _ _ (spacing_grid _ _ Ix))). cbv zeta. rewrite (sbind_ok' _ _ _ _ _ (lift_ok _ _ _ (getidx_nat _ _ _ Ea))).
  rewrite (sbind_ok' _ _ _ _ _ (lift_ok _ _ _ (spacing_grid _ _ Ia))). rewrite (sbind_ok' _ _ _ _ _ (lift_ok _ _ _ (getidx_nat _ _ _ Sh))).
  set (k1 := with_data f _). set (s1 := s ++ [F]) in *. unfold sbind at 1, alloc at 1. rewrite Nat2Z.id, vect_direction.
  assert (Edt : exists dt0, (match value with None => sret 0 | Some v0 => st! r0 := lift (default_plane dir axx (u_dx (VV f U b))) in sret (dir * (v0 - r0) / c) end) (s1 ++ [k1]) = (s1 ++ [k1], Ok dt0)).
  { destruct value as [v0|]; [rewrite (sbind_ok' _ _ _ _ _ (lift_ok _ _ _ (plane_ok dir axx _ Ix)))|]; eexists; reflexivity. }
  destruct Edt as [dt0 Edt]. rewrite (sbind_ok' _ _ _ _ _ Edt). set (p1 := mkpa _ _ _ _ _).
  assert (Wf : wellformed f) by (split; [exact C|]; split; [exists U; exact G|]; split; [lia|]; intros i L; exists true; apply A, in_seq; lia).
  assert (H1 : nth_error (s1 ++ [k1]) (length s1) = Some k1) by (rewrite nth_error_app2, Nat.sub_diag by lia; reflexivity).
  destruct (run_missing c spl p1 0 (length s1) (s1 ++ [k1]) k1 (wf_with f (rf_data k1) eq_refl Wf) (in_with f (rf_data k1) true eq_refl A) H1) as (s2 & E2 & F2); [exact (direction_sensible (ndim f) b dir _ _ _ _ Lb Hd)|discriminate|reflexivity|exact Ms|].
  exists s2. split; [change (kspace_propagate c spl p1 1 (length s1)) with (prop_run c spl p1 1 (length s1)); unfold sbind at 1; now rewrite E2|].
  intros d Ld. unfold s1 in *. rewrite F2 by (rewrite !app_length; lia). rewrite nth_error_app1 by (rewrite app_length; lia). now rewrite nth_error_app1.
Qed.

(** * One mode: at the first point of the grid, at the time of the field *)
Definition one_mode : rfield := field1 "kx" "1/m" u2 true (Some PI) (fun i => if (i =? 0)%Z then C1 else C0).
Lemma one_mode_ok : consistent one_mode /\ on_grid one_mode (seq 0 (ndim one_mode)) (fun _ => u2) /\ all_in true one_mode /\ remembered one_mode /\ (0 < ndim one_mode)%nat.
Proof.
  destruct (field1_ok "kx" "1/m" u2 true (Some PI) (fun i => if (i =? 0)%Z then C1 else C0) u2_proper) as (A1 & A2 & A3). split; [exact A1|]. split; [exact A2|]. split; [exact A3|]. split; [|cbn; lia].
  intros a L. assert (a = 0%nat) by (cbn in L; lia). subst a. exists PI. reflexivity.
Qed.
Lemma phase_wrong : exists s' y r F, time_profile_at_plane 1 line_spline 0 None (-1) 0 "iterative" (Some false) 0 [one_mode] = (s', Ok y) /\ nth_error s' y = Some r /\ fft line_spline false false one_mode [0%Z] = Ok F /\
  (exists T, rf_axes r = [T] /\ hd 1 (ra_grid T) = 0) /\ a_at (rf_data r) [0%Z] = Cmul (RtoC (-1)) (a_at (rf_data F) [0%Z]) /\ a_at (rf_data r) [0%Z] <> a_at (rf_data F) [0%Z].
Proof.
  destruct one_mode_ok as (C & G & A & Rm & L). destruct (iterative_freq 1 line_spline 0 None (-1) 0 (Some false) 0 [one_mode] one_mode (fun _ => u2) Rlt_0_1 line_spline_ok C G A Rm eq_refl L (or_intror eq_refl)) as (s' & y & r & E & Hy & _ & _ & P). cbv zeta in P.
  destruct (snapshot 1 line_spline 0 one_mode (fun _ => u2) line_spline_ok C G A L) as (F & EF & D). cbv zeta in D.
  exists s', y, r, F. split; [exact E|]. split; [exact Hy|]. split; [exact EF|]. assert (I : in_shape (a_shape (rf_data one_mode)) [0%Z] = true) by reflexivity.
  assert (Ep : end_plane (-1) (dual (Some PI) u2) = PI) by (unfold end_plane; destruct (Rlt_dec 0 (-1)); [lra|reflexivity]).
  assert (D1 := pr_data _ _ _ _ _ _ _ _ _ _ _ P [0%Z] I). specialize (D [0%Z] I).
  change (nth 0 (rf_tao one_mode) None) with (Some PI) in *. unfold plane_of in *. rewrite Ep in *. change (going (ndim one_mode) 0 (-1) (Some false) one_mode) with one_mode in D1.
  replace (point (times 1 (-1) PI 0 (dual (Some PI) u2)) (nth 0 [0%Z] 0%Z) - 0) with 0 in D1 by (unfold times, point; cbn [nth u_x0 u_dx]; rewrite Ep; field).
  replace (point (dual (Some PI) u2) (nth 0 [0%Z] 0%Z)) with PI in D by (unfold point, dual; cbn [nth u_x0 u_dx]; ring).
  change (u_x0 u2) with 1 in D1. assert (Cp : cis (- (1 * PI)) = RtoC (-1)) by (rewrite Rmult_1_l; unfold cis; rewrite cos_neg, sin_neg, cos_PI, sin_PI; cx; ring). rewrite Cp in D1.
  split; [rewrite (pr_axes _ _ _ _ _ _ _ _ _ _ _ P); cbn [rf_axes one_mode field1 upd]; eexists; split; [reflexivity|]; cbn [ra_grid]; unfold times, grid_of; cbn [u_n dual u2 seq map hd]; unfold point; cbn [u_x0 u_dx]; fold u2; rewrite Ep; field|].
  split; [rewrite D1, D; reflexivity|]. rewrite D1, D. set (q := passing _ _ _ _ _ _ _).
  assert (Q : Cabs2 q <> 0).
  { assert (Eq : q = Cmul (RtoC (3 / sqrt (2 * PI))) (cis (1 * PI))).
    { unfold q, passing. cbn [u_n u2 csum u_dx]. replace (a_at (rf_data one_mode) (upd [0%Z] 0 (Z.of_nat 1))) with C0 by reflexivity. replace (a_at (rf_data one_mode) (upd [0%Z] 0 (Z.of_nat 0))) with C1 by reflexivity.
      replace (point u2 (Z.of_nat 0) * PI - frequency 1 (rf_axes one_mode) (upd [0%Z] 0 (Z.of_nat 0)) * 0) with (1 * PI) by (unfold point; cbn; ring). ring. }
    rewrite Eq, Cabs2_mul, Cabs2_cis. assert (S0 : 0 < sqrt (2 * PI)) by (apply sqrt_lt_R0; assert (H := PI_RGT_0); lra). assert (0 < 3 / sqrt (2 * PI)) by (apply Rdiv_lt_0_compat; lra). unfold Cabs2, RtoC. cbn [fst snd]. nra. }
  intro W. apply Q. assert (W1 := f_equal fst W). assert (W2 := f_equal snd W). destruct q as [q1 q2]. unfold Cmul, RtoC, Cabs2 in *. cbn [fst snd] in *. nra.
Qed.
(** two dimensions in space *)
Definition square : rfield := mkrf (mkarr [2; 3]%Z (fun _ => C1)) [mkra "x" "m" (grid_of u2) (node_of u2); mkra "y" "m" (grid_of u3) (node_of u3)] [Some false; Some false] [None; None].
Lemma square_ok : consistent square /\ on_grid square (seq 0 (ndim square)) U23 /\ all_in false square.
Proof.
  split; [split; cbn; try reflexivity; lia|]. split.
  - intros a [<-|[<-|[]]]; eexists; (split; [reflexivity|]; split; [|reflexivity]); (split; [reflexivity|]; split; [reflexivity|]); [exact u2_proper|exact u3_proper].
  - intros a [<-|[<-|[]]]; reflexivity.
Qed.
