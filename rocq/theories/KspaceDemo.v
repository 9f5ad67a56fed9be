(** Concrete fields for the reconstruction and propagation of waves, and the cases which fail. *)
From Coq Require Import Reals String Ascii List ZArith Lia Lra Bool FunctionalExtensionality.
From Verif Require Import PyBase PyBaseFacts NumpyModel NdModel NdFacts FieldModel CplxModel CplxFacts FftModel FftSpec FftAxes FftKernel FftFacts FftLaws FftMore FftShift FftDemo KspaceModel KspaceSpec KspaceFrame KspaceFacts KspaceTotal KspaceWave KspaceProp.
Import ListNotations.
Local Open Scope R_scope.

Lemma prefactor_factor el om axes idx : (length axes <= 3)%nat -> prefactor el om axes idx = factor el (om axes idx) (wave_vector axes idx).
Proof.
  intro L. unfold prefactor, factor. rewrite k_squared_dot by exact L. destruct el; [reflexivity|]. destruct (Req_EM_T (om axes idx) 0); [reflexivity|]. unfold Rdiv. ring.
Qed.
Lemma formula spl lin omega ip el p fields s s' a' : linear_spline spl -> ip <> ILinear -> (p < 3)%nat -> distinct fields s -> all_wellformed fields s ->
  kspace spl lin None omega ip (comp el p) fields s = (s', Ok a') ->
  exists a f F r, dget fields (comp el p) = Some a /\ nth_error s a = Some f /\ ensure_domain spl f true = Ok F /\ nth_error s' a' = Some r /\
    rf_axes r = rf_axes F /\ rf_ats r = rf_ats F /\ rf_tao r = rf_tao F /\ a_shape (rf_data r) = a_shape (rf_data F) /\
    (forall idx, let k := wave_vector (rf_axes F) idx in
       a_at (rf_data r) idx = Csub (spectrum spl s fields (comp el p) idx) (Cmul (RtoC (factor el (omega (rf_axes F) idx) k)) (cross k (fun i => spectrum spl s fields (comp (negb el) i) idx) p))) /\
    forall key, In key (needed el p (ndim f)) -> exists b, dget fields key = Some b.
Proof.
  intros Sp Ip Hp Di Wf E. destruct (kspace_value spl lin omega ip el p fields s s' a' Sp Ip Hp Di Wf E) as (a & f & F & r & Ha & Hf & EF & Hr & X1 & X2 & X3 & X4 & V & N & _).
  destruct (ensure_wf spl f true Sp (Wf _ _ _ Ha Hf)) as (F' & EF' & WF & _ & Sh & _). rewrite EF in EF'. injection EF' as <-. assert (LF : length (rf_axes F) = ndim f) by (rewrite (c_axes F (proj1 WF)); unfold ndim; now rewrite Sh).
  assert (L3 : (length (rf_axes F) <= 3)%nat) by (rewrite LF; apply (c_dims f (proj1 (Wf _ _ _ Ha Hf)))).
  exists a, f, F, r. do 8 (split; [assumption|]). split.
  - intro idx. cbv zeta. rewrite V. unfold spectrum at 2. rewrite Ha, Hf, EF. rewrite prefactor_factor by exact L3. reflexivity.
  - intros key [<-|I]; [exists a; exact Ha|]. change (In key (tl (needed el p (ndim f)))) in I. unfold needed in I. cbn [tl] in I. apply in_map_iff in I as (d & <- & I). apply filter_In in I as [I Nd]. apply in_seq in I. rewrite LF in N. apply negb_true_iff, Nat.eqb_neq in Nd.
    assert (Hd : (d < 3)%nat) by lia. assert (Hi : exists i, (i = 1 \/ i = 2)%nat /\ d = turn3 p (3 - i) /\ (3 - p - d)%nat = turn3 p i).
    { destruct p as [|[|[|]]], d as [|[|[|]]]; try lia; [exists 2%nat|exists 1%nat|exists 1%nat|exists 2%nat|exists 2%nat|exists 1%nat]; (split; [lia|]; split; reflexivity). }
    destruct Hi as (i & Hi & Ed & Ek). rewrite Ek. apply N; [exact Hi|]. lia.
Qed.
Lemma wave_result spl lin omega ip el p fields s s' a' (E B : nat -> C) idx sg : linear_spline spl -> ip <> ILinear -> (p < 3)%nat -> distinct fields s -> all_wellformed fields s ->
  kspace spl lin None omega ip (comp el p) fields s = (s', Ok a') ->
  exists a f F r, dget fields (comp el p) = Some a /\ nth_error s a = Some f /\ ensure_domain spl f true = Ok F /\ nth_error s' a' = Some r /\
  let k := wave_vector (rf_axes F) idx in let w := omega (rf_axes F) idx in
  w <> 0 -> dot3 k k <> 0 -> cdot k E = C0 -> (sg = 1 \/ sg = -1) -> (forall i, (i < 3)%nat -> B i = Cmul (RtoC (sg / w)) (cross k E i)) ->
  (forall el' i, (i < 3)%nat -> dget fields (comp el' i) <> None -> spectrum spl s fields (comp el' i) idx = if el' then E i else B i) ->
  a_at (rf_data r) idx = Cmul (RtoC (1 + sg)) (if el then E p else B p).
Proof.
  intros Sp Ip Hp Di Wf Ek. destruct (kspace_value spl lin omega ip el p fields s s' a' Sp Ip Hp Di Wf Ek) as (a & f & F & r & Ha & Hf & EF & Hr & X1 & X2 & X3 & X4 & V & N & _).
  exists a, f, F, r. do 4 (split; [assumption|]). intros k w Hw Hk T Sg HB Hs.
  destruct (ensure_wf spl f true Sp (Wf _ _ _ Ha Hf)) as (F' & EF' & WF & _ & Sh & _). rewrite EF in EF'. injection EF' as <-.
  assert (L3 : (length (rf_axes F) <= 3)%nat) by (rewrite (c_axes F (proj1 WF)); apply (c_dims F (proj1 WF))).
  rewrite V. fold k. assert (Em : a_at (rf_data F) idx = if el then E p else B p) by (rewrite <- (Hs el p Hp ltac:(congruence)); unfold spectrum; now rewrite Ha, Hf, EF).
  assert (Ec : cross k (fun i => spectrum spl s fields (comp (negb el) i) idx) p = cross k (if el then B else E) p).
  { unfold cross. assert (Q : forall i, (i = 1 \/ i = 2)%nat -> Cmul (RtoC (k (turn3 p (3 - i)))) (spectrum spl s fields (comp (negb el) (turn3 p i)) idx) = Cmul (RtoC (k (turn3 p (3 - i)))) ((if el then B else E) (turn3 p i))).
    { intros i Hi. destruct (Nat.lt_ge_cases (turn3 p (3 - i)) (length (rf_axes F))) as [L|L].
      - destruct (N i Hi L) as [b Hb]. rewrite (Hs (negb el) (turn3 p i) (turn_lt p i) ltac:(congruence)). now destruct el.
      - unfold k. rewrite wave_none by exact L. change (RtoC 0) with C0. ring. }
    assert (Q1 := Q 1%nat (or_introl eq_refl)). assert (Q2 := Q 2%nat (or_intror eq_refl)). change (3 - 1)%nat with 2%nat in Q1. change (3 - 2)%nat with 1%nat in Q2. now rewrite Q1, Q2. }
  rewrite Ec, Em. rewrite prefactor_factor by exact L3. fold k w. unfold factor. destruct el.
  - destruct (Req_EM_T (dot3 k k) 0) as [Z|_]; [contradiction|]. apply wave_electric; assumption.
  - destruct (Req_EM_T w 0) as [Z|_]; [contradiction|]. replace (- (1 / w)) with (-1 / w) by (field; exact Hw). apply wave_magnetic; [assumption|assumption|assumption|]. destruct Sg as [-> | ->]; ring.
Qed.
(** * One dimension: Ey and Bz *)
Definition grid1 := mkuni 2 1 3.
Definition wave1 (st : bool) (ey bz : C) : store := [field1 "x" "m" grid1 st (Some 0) (fun _ => ey); field1 "x" "m" grid1 st (Some 0) (fun _ => bz)].
Definition names1 : dict := [("Ey"%string, 0%nat); ("Bz"%string, 1%nat)].
Lemma grid1_proper : proper grid1. Proof. split; cbn; [lia|lra]. Qed.
Lemma field1_wf st o data : wellformed (field1 "x" "m" grid1 st o data) /\ all_in st (field1 "x" "m" grid1 st o data).
Proof.
  destruct (field1_ok "x" "m" grid1 st o data grid1_proper) as (A1 & A2 & A3). destruct (field1_all "x" "m" grid1 st o data grid1_proper) as (A4 & A5). split; [|exact A3].
  split; [exact A1|]. split; [eexists; exact A4|]. split; [cbn; lia|exact A5].
Qed.
Lemma names1_get k a : dget names1 k = Some a -> (k = "Ey"%string /\ a = 0%nat) \/ (k = "Bz"%string /\ a = 1%nat).
Proof. cbn [names1 dget]. destruct (String.eqb_spec "Ey" k) as [<-|]; [intros [= <-]; now left|]. destruct (String.eqb_spec "Bz" k) as [<-|]; [intros [= <-]; now right|discriminate]. Qed.
Lemma wave1_distinct st ey bz : distinct names1 (wave1 st ey bz).
Proof.
  split.
  - intros k j a Hk Hj. destruct (names1_get _ _ Hk) as [[-> ->]|[-> ->]], (names1_get _ _ Hj) as [[-> E]|[-> E]]; (reflexivity || discriminate).
  - intros k a Hk. destruct (names1_get _ _ Hk) as [[-> ->]|[-> ->]]; cbn; lia.
Qed.
Lemma wave1_wf st ey bz : all_wellformed names1 (wave1 st ey bz).
Proof. intros k a f Hk Hf. destruct (names1_get _ _ Hk) as [[-> ->]|[-> ->]]; injection Hf as <-; apply field1_wf. Qed.
Definition place1 (st : bool) (a : nat) : uni := if st then dual (Some 0) grid1 else grid1.
Lemma wave1_lives st data : lives_on (field1 "x" "m" grid1 st (Some 0) data) 1 (place1 st).
Proof.
  destruct (field1_ok "x" "m" grid1 st (Some 0) data grid1_proper) as (A1 & A2 & A3). apply (whole_lives st _ 1 (fun _ => grid1)); [exact A1|reflexivity|exact A2|exact A3|].
  intros a L. assert (a = 0%nat) by lia. subst a. reflexivity.
Qed.
Lemma wave1_given ip el p st ey bz : (el = true /\ p = 1%nat) \/ (el = false /\ p = 2%nat) -> given ip el p 1 (place1 st) names1 (wave1 st ey bz).
Proof.
  intro H. assert (PP : forall a, 0 < u_dx (place1 st a)) by (intro a; unfold place1; destruct st; [apply (dual_proper (Some 0) grid1 grid1_proper)|apply grid1_proper]).
  assert (Ok1 : forall data, exists V, lives_on (field1 "x" "m" grid1 st (Some 0) data) 1 V /\ compatible ip 1 (place1 st) V /\ (ip = IFourier -> origins_known (field1 "x" "m" grid1 st (Some 0) data))).
  { intro data. exists (place1 st). split; [apply wave1_lives|]. split.
    - intros a L. split; [reflexivity|]. split; [reflexivity|]. specialize (PP a). destruct ip; [reflexivity| |]; rewrite Rminus_diag_eq, Rabs_R0 by reflexivity; lra.
    - intros _. apply known_all. intros a L. cbn in L. assert (a = 0%nat) by lia. subst a. eexists. reflexivity. }
  split.
  - destruct H as [[-> ->]|[-> ->]]; [exists 0%nat|exists 1%nat]; eexists; (split; [reflexivity|]; split; [reflexivity|apply wave1_lives]).
  - intros key I. destruct (Ok1 (fun _ => ey)) as (V0 & Q0). destruct (Ok1 (fun _ => bz)) as (V1 & Q1). destruct H as [[-> ->]|[-> ->]]; cbn in I; destruct I as [<-|[]].
    + exists 1%nat. eexists. exists V1. split; [reflexivity|]. split; [reflexivity|exact Q1].
    + exists 0%nat. eexists. exists V0. split; [reflexivity|]. split; [reflexivity|exact Q0].
Qed.
Lemma wave1_spectrum spl el i ey bz idx : dget names1 (comp el i) <> None -> (i < 3)%nat -> spectrum spl (wave1 true ey bz) names1 (comp el i) idx = if el then ey else bz.
Proof.
  intros H L. assert (E : forall d, ensure_domain spl (field1 "x" "m" grid1 true (Some 0) d) true = Ok (field1 "x" "m" grid1 true (Some 0) d)) by (intro d; apply in_domain_ensure, in_domain_wf; apply field1_wf).
  destruct el, i as [|[|[|]]]; try lia; try (exfalso; apply H; reflexivity); unfold spectrum; cbn [comp names1 dget String.eqb Ascii.eqb Bool.eqb wave1 nth_error]; rewrite E; reflexivity.
Qed.
(** the reconstruction of Ey from fields in the frequency domain: the object of the caller *)
Lemma ey_run ey bz : exists s' r, kspace line_spline (fun f _ => Ok f) None (omega_free 1) INone "Ey" names1 (wave1 true ey bz) = (s', Ok 0%nat) /\ nth_error s' 0 = Some r /\ a_at (rf_data r) [0%Z] = Cadd ey bz.
Proof.
  destruct (kspace_total line_spline (fun f _ => Ok f) (omega_free 1) INone true 1 1 (place1 true) names1 (wave1 true ey bz) line_spline_ok) as (s' & a' & E); [discriminate|lia|lia|apply wave1_distinct|apply wave1_given; auto|].
  assert (NI : INone <> ILinear) by discriminate. assert (L13 : (1 < 3)%nat) by lia. destruct (kspace_value _ _ _ _ _ _ _ _ _ _ line_spline_ok NI L13 (wave1_distinct true ey bz) (wave1_wf true ey bz) E) as (a & f & F & r & Ha & Hf & EF & Hr & X1 & X2 & X3 & X4 & V & N & Ad).
  change (Some 0%nat = Some a) in Ha. injection Ha as <-. change (Some (field1 "x" "m" grid1 true (Some 0) (fun _ => ey)) = Some f) in Hf. injection Hf as <-. change (comp true 1) with "Ey"%string in *.
  assert (EF' : ensure_domain line_spline (field1 "x" "m" grid1 true (Some 0) (fun _ => ey)) true = Ok (field1 "x" "m" grid1 true (Some 0) (fun _ => ey))) by (apply in_domain_ensure, in_domain_wf; apply field1_wf). rewrite EF in EF'. injection EF' as ->.
  assert (A0 : a' = 0%nat).
  { rewrite kspace_unfold with (el := true) (p := 1%nat) in E by lia. cbv zeta in E. change (dget names1 (comp true 1)) with (Some 0%nat) in E. cbv iota in E. unfold sbind at 1 in E. assert (Ee : ensure_at line_spline true 0 (wave1 true ey bz) = (wave1 true ey bz, Ok 0%nat)).
    { unfold ensure_at, sbind, load, lift. cbn [wave1 nth_error]. rewrite (proj2 (in_domain_wf _ true (proj1 (field1_wf true (Some 0) (fun _ => ey)))) (proj2 (field1_wf true (Some 0) (fun _ => ey)))). reflexivity. }
    rewrite Ee in E. do 7 (apply sbind_ok in E as (? & ? & _ & E)). apply sret_ok in E as [_ ->]. reflexivity. }
  subst a'. exists s', r. split; [exact E|]. split; [exact Hr|]. rewrite V.
  assert (K0 : wave_vector [mkra "x" "m" (grid_of grid1) (node_of grid1)] [0%Z] 0 = 1) by (unfold wave_vector; cbn; unfold point; cbn; ring).
  assert (K2 : wave_vector [mkra "x" "m" (grid_of grid1) (node_of grid1)] [0%Z] 2 = 0) by reflexivity.
  unfold cross. change (turn3 1 1) with 2%nat. change (turn3 1 2) with 0%nat. change (rf_axes (field1 "x" "m" grid1 true (Some 0) (fun _ => ey))) with [mkra "x" "m" (grid_of grid1) (node_of grid1)].
  rewrite K0, K2, (wave1_spectrum line_spline false 2) by (discriminate || lia). change (a_at (rf_data (field1 "x" "m" grid1 true (Some 0) (fun _ => ey))) [0%Z]) with ey.
  rewrite prefactor_factor by (cbn; lia). assert (K1 : wave_vector [mkra "x" "m" (grid_of grid1) (node_of grid1)] [0%Z] 1 = 0) by reflexivity.
  assert (D : dot3 (wave_vector [mkra "x" "m" (grid_of grid1) (node_of grid1)] [0%Z]) (wave_vector [mkra "x" "m" (grid_of grid1) (node_of grid1)] [0%Z]) = 1) by (unfold dot3; rewrite K0, K1, K2; ring).
  unfold factor. rewrite D. destruct (Req_EM_T 1 0); [lra|]. rewrite omega_frequency by (cbn; lia). unfold frequency. rewrite D, sqrt_1. replace (1 * 1 / 1) with 1 by field. change (RtoC 0) with C0. change (RtoC 1) with C1. ring.
Qed.
Lemma kspace_keeps spl lin cut omega ip el p fields s s' r : (p < 3)%nat -> all_wellformed fields s -> kspace spl lin cut omega ip (comp el p) fields s = (s', r) ->
  unchanged_except (fun a => cut = None /\ dget fields (comp el p) = Some a /\ exists f, nth_error s a = Some f /\ all_in true f) s s'.
Proof.
  intros Hp Wf E a f Hf N. apply (kspace_frame _ _ _ _ _ _ _ _ _ _ E a f Hf). intros (pol & ax & rest & q & key & g & Ec & Hc & Ax & Ek & Hd & Hg & D). apply N.
  destruct (comp_shape el p Hp) as (ax' & Ec' & Ax' & Ek'). rewrite Ec in Ec'. injection Ec' as -> -> ->. rewrite Ax in Ax'. injection Ax' as ->. rewrite Ek in Ek'. injection Ek' as ->.
  split; [exact Hc|]. split; [exact Hd|]. exists g. split; [exact Hg|]. apply in_domain_wf; [exact (Wf _ _ _ Hd Hg)|exact D].
Qed.
Lemma epoch_keeps c spl lin cut omega dt al el p fields s s' r : (p < 3)%nat -> all_wellformed fields s -> kspace_epoch_like c spl lin cut omega dt al (comp el p) fields s = (s', r) ->
  unchanged_except (fun a => cut = None /\ al <> (if el then "E" else "B")%char /\ dget fields (comp el p) = Some a /\ exists f, nth_error s a = Some f /\ all_in true f) s s'.
Proof.
  intros Hp Wf E a f Hf N. apply (epoch_frame _ _ _ _ _ _ _ _ _ _ _ _ _ Hp E a f Hf). intros (Hc & Np & Hd & g & Hg & D). apply N. split; [exact Hc|]. split; [unfold pol_of in Np; congruence|]. split; [exact Hd|]. exists g. split; [exact Hg|].
  apply in_domain_wf; [exact (Wf _ _ _ Hd Hg)|exact D].
Qed.
Lemma own_object : exists s' r, distinct names1 (wave1 true C0 C1) /\ all_wellformed names1 (wave1 true C0 C1) /\ dget names1 "Ey" = Some 0%nat /\
  kspace line_spline (fun f _ => Ok f) None (omega_free 1) INone "Ey" names1 (wave1 true C0 C1) = (s', Ok 0%nat) /\ nth_error s' 0 = Some r /\ nth_error (wave1 true C0 C1) 0 <> Some r.
Proof.
  destruct (ey_run C0 C1) as (s' & r & E & Hr & V). exists s', r. split; [apply wave1_distinct|]. split; [apply wave1_wf|]. split; [reflexivity|]. split; [exact E|]. split; [exact Hr|]. cbn. intros [= H]. subst r. cbn in V. unfold C0, C1, Cadd in V. cbn in V. injection V as V. lra.
Qed.
Lemma not_half : exists s s' r F, kspace line_spline (fun f _ => Ok f) None (omega_free 1) INone "Ey" names1 s = (s', Ok 0%nat) /\ nth_error s' 0 = Some r /\ nth_error s 0 = Some F /\ ensure_domain line_spline F true = Ok F /\
  a_at (rf_data r) [0%Z] <> Cmul (RtoC (/ 2)) (Csub (a_at (rf_data F) [0%Z]) (Cmul (RtoC (factor true (omega_free 1 (rf_axes F) [0%Z]) (wave_vector (rf_axes F) [0%Z]))) (cross (wave_vector (rf_axes F) [0%Z]) (fun i => spectrum line_spline s names1 (comp false i) [0%Z]) 1))).
Proof.
  destruct (ey_run C1 C0) as (s' & r & E & Hr & V). exists (wave1 true C1 C0), s', r, (field1 "x" "m" grid1 true (Some 0) (fun _ => C1)). split; [exact E|]. split; [exact Hr|]. split; [reflexivity|].
  split; [apply in_domain_ensure, in_domain_wf; apply field1_wf|].
  assert (NI : INone <> ILinear) by discriminate. assert (L13 : (1 < 3)%nat) by lia. destruct (formula _ _ _ _ true 1 _ _ _ _ line_spline_ok NI L13 (wave1_distinct true C1 C0) (wave1_wf true C1 C0) E) as (a & f & F & r' & Ha & Hf & EF & Hr' & _ & _ & _ & _ & V' & _).
  change (Some 0%nat = Some a) in Ha. injection Ha as <-. change (Some (field1 "x" "m" grid1 true (Some 0) (fun _ => C1)) = Some f) in Hf. injection Hf as <-.
  rewrite (in_domain_ensure line_spline (field1 "x" "m" grid1 true (Some 0) (fun _ => C1)) true) in EF by (apply in_domain_wf; apply field1_wf). injection EF as <-. rewrite Hr in Hr'. injection Hr' as <-. specialize (V' [0%Z]). cbv zeta in V'. rewrite (wave1_spectrum line_spline true 1) in V' by (discriminate || lia).
  change (a_at (rf_data (field1 "x" "m" grid1 true (Some 0) (fun _ => C1))) [0%Z]) with C1. change (negb true) with false in V'. rewrite <- V', V. unfold Cmul, RtoC, Cadd, C1, C0. cbn. intros [= H]. lra.
Qed.
(** a field which is needed is missing *)
Lemma missing_other : exists s', kspace line_spline (fun f _ => Ok f) None (omega_free 1) INone "Ey" [("Ey"%string, 0%nat)] (wave1 true C1 C0) = (s', Err AttributeError).
Proof.
  change "Ey"%string with (comp true 1) at 1. rewrite kspace_unfold by lia. cbv zeta. change (dget [("Ey"%string, 0%nat)] (comp true 1)) with (Some 0%nat). cbv iota.
  set (f := field1 "x" "m" grid1 true (Some 0) (fun _ => C1)). assert (Hf : nth_error (wave1 true C1 C0) 0 = Some f) by reflexivity. destruct (field1_wf true (Some 0) (fun _ => C1)) as [W A]. fold f in W, A.
  unfold sbind at 1. assert (Ee : ensure_at line_spline true 0 (wave1 true C1 C0) = (wave1 true C1 C0, Ok 0%nat)) by (unfold ensure_at, sbind, load, lift; rewrite Hf, (proj2 (in_domain_wf f true W) A); reflexivity). rewrite Ee.
  unfold sbind at 1, load at 1. rewrite Hf. do 4 (unfold sbind at 1, lift at 1). assert (L := wave1_lives true (fun _ => C1)). fold f in L. assert (P1 : forall a, (a < 1)%nat -> proper (place1 true a)) by (intros a La; apply (lives_proper f 1 _ L a La)).
  assert (P0 : (0 < 1)%nat) by lia. rewrite (lives_grids f 1 (place1 true) P0 L A). destruct (grids_data 1 (place1 true) P1) as (D1 & D2 & D3). cbv zeta in D1, D2, D3. rewrite D1, D2, D3.
  assert (O1 : forall pre o D d i, other_field line_spline (fun f _ => Ok f) INone "B" [("Ey"%string, 0%nat)] (Z.of_nat 1) (a_shape (rf_data f)) (rf_axes f) pre o D d 0 1 i = (i, Err AttributeError)) by reflexivity.
  change (if negb true then "E"%char else "B"%char) with "B"%char. unfold sbind at 1. rewrite O1. eexists. reflexivity.
Qed.
Lemma missing_main spl lin omega ip el p fields s : (p < 3)%nat -> dget fields (comp el p) = None -> kspace spl lin None omega ip (comp el p) fields s = (s, Err ValueError).
Proof. intros Hp H. rewrite kspace_unfold by exact Hp. cbv zeta. now rewrite H. Qed.
Lemma reads_needed el p nd : (p < 3)%nat -> (1 <= nd <= 3)%nat -> forall k, In k (fields_read (comp el p) (Z.of_nat nd)) <-> In k (needed el p nd).
Proof. intros Hp Hn k. destruct el, p as [|[|[|]]], nd as [|[|[|[|]]]]; try lia; cbn; tauto. Qed.
Lemma epoch_cos c spl lin cut om om' dt dt' align_to component fields s : (forall axes idx, Rabs (cos (dt * om axes idx / 2)) = Rabs (cos (dt' * om' axes idx / 2))) ->
  kspace_epoch_like c spl lin cut om dt align_to component fields s = kspace_epoch_like c spl lin cut om' dt' align_to component fields s.
Proof.
  intro H. unfold kspace_epoch_like. destruct component as [|pol [|ax rest]]; try reflexivity.
  assert (Eq : forall fm, (fun idx => lin_response dt (om (rf_axes fm) idx)) = (fun idx => lin_response dt' (om' (rf_axes fm) idx))) by (intro; apply functional_extensionality; intro; rewrite !lin_response_cos; apply H).
  cbv zeta. unfold sbind, lift, load. destruct (axis_letter ax); [|reflexivity]. destruct (dget fields _); [|reflexivity].
  destruct (cut_fields _ _ _ _ _) as [s1 [d1|]]; [|reflexivity]. destruct (dmap _ _ _) as [s2 [d2|]]; [|reflexivity]. destruct (dget d2 _); [|reflexivity]. destruct (nth_error s2 _) as [fm|]; [|reflexivity]. now rewrite (Eq fm).
Qed.
(** * Propagation *)
Lemma start_advanced p c dt d j f : start_of p (advanced c dt d j f) = advanced c dt d j (start_of p f).
Proof.
  unfold start_of. destruct (removes p) as [v|]; [|reflexivity]. unfold only_along, advanced. cbn [rf_data rf_axes rf_ats rf_tao a_shape a_at]. f_equal. f_equal. apply functional_extensionality. intro idx. destruct (Rltb _ 0); [ring|reflexivity].
Qed.
Lemma start_start p f : start_of p (start_of p f) = start_of p f.
Proof.
  unfold start_of. destruct (removes p) as [v|]; [|reflexivity]. unfold only_along. cbn [rf_data rf_axes rf_ats rf_tao a_shape a_at]. f_equal. f_equal. apply functional_extensionality. intro idx. destruct (Rltb _ 0); reflexivity.
Qed.
Lemma moves_scale c p z : moves c (with_dt p (z * p_dt p)) = option_map (fun d a => z * d a) (moves c p).
Proof. unfold moves, with_dt. cbn [p_vect p_move p_dt]. destruct (p_vect p); [|reflexivity]. destruct (p_move p) as [[|]|]; cbn [option_map]; try reflexivity; f_equal; apply functional_extensionality; intro; ring. Qed.
Lemma last_ok {A} (l : list A) d n : length l = S n -> nth_error l n = Some (last l d).
Proof. revert l. induction n as [|n IH]; intros [|x [|y l]]; cbn [length]; try discriminate; intro H; [reflexivity|]. cbn [nth_error]. rewrite (IH (y :: l)) by (cbn [length]; lia). reflexivity. Qed.
Lemma freq_last c spl p n a s f : wellformed f -> all_in true f -> nth_error s a = Some f -> sensible p (ndim f) -> window_ok c p f -> p_zeroth p = false ->
  exists s' ys, prop_run c spl p (S n) a s = (s', Ok ys) /\ length ys = S n /\ nth_error s' (last ys 0%nat) = Some (advanced c (p_dt p) (moves c p) (S n) (start_of p f)).
Proof.
  intros Wf A H Se Wi Z. destruct (propagate_freq c spl p (S n) a s f Wf A H Se Wi) as (s' & ys & E & L & _ & Hj). exists s', ys. split; [exact E|]. split; [exact L|]. destruct (Hj n) as (y & Hy & Hr & _); [lia|]. rewrite (last_ok ys 0%nat n L) in Hy. injection Hy as ->. now rewrite Z in Hr.
Qed.
Lemma advanced_wf c dt d j p f : wellformed f -> all_in true f -> wellformed (advanced c dt d j (start_of p f)) /\ all_in true (advanced c dt d j (start_of p f)) /\ ndim (advanced c dt d j (start_of p f)) = ndim f.
Proof.
  intros (C & (U & G) & P & Hb) A. set (g := advanced c dt d j (start_of p f)). assert (Ng : ndim g = ndim f) by (unfold g; transitivity (ndim (start_of p f)); [reflexivity|apply start_ndim]).
  assert (Sg : a_shape (rf_data g) = a_shape (rf_data f)) by (unfold g, advanced; cbn [rf_data a_shape]; unfold start_of; now destruct (removes p)).
  assert (Xg : rf_axes g = rf_axes f) by (unfold g, advanced; cbn [rf_axes]; apply start_axes). assert (Tg : rf_ats g = rf_ats f) by (unfold g, advanced; cbn [rf_ats]; unfold start_of; now destruct (removes p)).
  split; [split; [apply advanced_consistent, start_consistent, C|]; split; [exists U; rewrite Ng; intros b I; destruct (G b I) as (ax & Q1 & Q2 & Q3); exists ax; rewrite Xg, Sg; auto|]; split; [lia|intros b L; rewrite Tg; apply Hb; lia]|].
  split; [intros b I; rewrite Tg; apply A; now rewrite <- Ng|exact Ng].
Qed.
Lemma group_one c spl p n a s f : wellformed f -> all_in true f -> nth_error s a = Some f -> sensible p (ndim f) -> window_ok c p f -> p_zeroth p = false ->
  exists s1 y1 s2 y2 r, prop_run c spl p (S n) a s = (s1, Ok y1) /\ prop_run c spl (with_dt p (INR (S n) * p_dt p)) 1 a s = (s2, Ok y2) /\
    nth_error s1 (last y1 0%nat) = Some r /\ nth_error s2 (last y2 0%nat) = Some r.
Proof.
  intros Wf A H Se Wi Z. destruct (freq_last c spl p n a s f Wf A H Se Wi Z) as (s1 & y1 & E1 & _ & H1).
  assert (Wi2 : window_ok c (with_dt p (INR (S n) * p_dt p)) f) by (destruct Wi as [W|W]; [left; rewrite moves_scale, W; reflexivity|now right]).
  destruct (freq_last c spl (with_dt p (INR (S n) * p_dt p)) 0 a s f Wf A H Se Wi2 Z) as (s2 & y2 & E2 & _ & H2).
  exists s1, y1, s2, y2. eexists. split; [exact E1|]. split; [exact E2|]. split; [exact H1|]. rewrite H2, moves_scale, (advanced_scale c (p_dt p)). reflexivity.
Qed.
Lemma group_back c spl p n a s f : wellformed f -> all_in true f -> nth_error s a = Some f -> sensible p (ndim f) -> window_ok c p f -> p_zeroth p = false ->
  exists s1 y1 s2 y2, prop_run c spl p (S n) a s = (s1, Ok y1) /\ prop_run c spl (with_dt p (-1 * p_dt p)) (S n) (last y1 0%nat) s1 = (s2, Ok y2) /\
    nth_error s2 (last y2 0%nat) = Some (start_of p f).
Proof.
  intros Wf A H Se Wi Z. destruct (freq_last c spl p n a s f Wf A H Se Wi Z) as (s1 & y1 & E1 & _ & H1).
  destruct (advanced_wf c (p_dt p) (moves c p) (S n) p f Wf A) as (W1 & A1 & N1). set (g := advanced c (p_dt p) (moves c p) (S n) (start_of p f)) in *.
  assert (Wi2 : window_ok c (with_dt p (-1 * p_dt p)) g).
  { destruct Wi as [W|W]; [left; rewrite moves_scale, W; reflexivity|]. right. assert (K : known (moves c p) g) by (apply known_advanced; right; rewrite start_ndim, start_tao; exact W). destruct K as [K|K]; [|exact K].
    unfold g, advanced. rewrite K. cbn [rf_tao]. rewrite start_tao. intros b L. apply W. rewrite <- N1. exact L. }
  assert (Se2 : sensible (with_dt p (-1 * p_dt p)) (ndim g)) by (rewrite N1; exact Se).
  destruct (freq_last c spl (with_dt p (-1 * p_dt p)) n _ s1 g W1 A1 H1 Se2 Wi2 Z) as (s2 & y2 & E2 & _ & H2). exists s1, y1, s2, y2. split; [exact E1|]. split; [exact E2|]. rewrite H2, moves_scale. change (start_of (with_dt p (-1 * p_dt p)) g) with (start_of p g). unfold g. rewrite start_advanced, start_start.
  cbn [with_dt p_dt]. f_equal. replace (-1 * p_dt p) with (- p_dt p) by ring. replace (option_map (fun d a0 => -1 * d a0) (moves c p)) with (option_map (fun (d : nat -> R) a0 => - d a0) (moves c p)); [apply advanced_inverse|].
  destruct (moves c p); [|reflexivity]. cbn [option_map]. f_equal. apply functional_extensionality. intro. ring.
Qed.
(** a window for a field which does not know its origins *)
Lemma no_origins : exists s', prop_run 1 line_spline (mkpa 1 (Some [1]) None None false) 1 0 [field1 "kx" "1/m" grid1 true None (fun _ => C1)] = (s', Err TypeError).
Proof.
  set (f := field1 "kx" "1/m" grid1 true None (fun _ => C1)). unfold prop_run.
  destruct (field1_ok "kx" "1/m" grid1 true None (fun _ => C1) grid1_proper) as (A1 & A2 & A3). fold f in A1, A2, A3.
  assert (Rs : rstate (rf_ats f) (all_dims f) = Ok (Some true)) by (rewrite (all_dims_grid f (fun _ => grid1) A2); apply rstate_nat; [discriminate|exact A3]).
  assert (Se : sensible (mkpa 1 (Some [1]) None None false) (ndim f)) by (split; [reflexivity|]; exists 1; split; [now left|lra]).
  destruct (start_ok 1 line_spline (mkpa 1 (Some [1]) None None false) 0 [f] f true [f] 0 f Rs eq_refl eq_refl eq_refl A1 eq_refl Se) as (s2 & a2 & E2 & H2 & _).
  cbn [p_zeroth p_vect]. unfold sbind at 1. rewrite E2. unfold sbind at 1, sret at 1. cbv iota.
  set (g := gen_of 1 (p_dt (mkpa 1 (Some [1]) None None false)) (negb true) (moves 1 (mkpa 1 (Some [1]) None None false)) (ndim f) (rf_axes f) a2).
  assert (Ew : exists w0, g_window g = Some [(0%Z, w0)]) by (eexists; reflexivity). destruct Ew as [w0 Ew]. rewrite Ew. cbv iota.
  assert (Es : exists s3, prop_step line_spline g s2 = (s3, Err TypeError)).
  { unfold prop_step. unfold sbind at 1, load at 1. change (g_cur g) with a2. rewrite H2. unfold sbind at 1, alloc at 1. rewrite Ew. unfold sbind at 1, sbind at 1, load at 1. rewrite nth_error_app2, Nat.sub_diag by lia. cbn [nth_error].
    unfold sbind at 1, lift at 1. eexists. reflexivity. }
  destruct Es as [s3 Es]. cbn [prop_steps]. unfold sbind at 1, sbind at 1. rewrite Es. eexists. reflexivity.
Qed.
Lemma vector_changed : vect_after true [3; 4] = [3 / 5; 4 / 5] /\ vect_after true [3; 4] <> [3; 4].
Proof.
  assert (N : norm2 [3; 4] = 5) by (unfold norm2; cbn; replace (3 * (3 * 1) + (4 * (4 * 1) + 0)) with (5 * 5) by ring; apply sqrt_square; lra). unfold vect_after, unit_vector. cbn [map]. rewrite N. split; [reflexivity|]. intros [= H _]. lra.
Qed.
Lemma frequency_positive c axes idx : 0 <= c -> 0 <= frequency c axes idx.
Proof. intro H. unfold frequency. apply Rmult_le_pos; [exact H|apply sqrt_pos]. Qed.
Lemma modulus_kept c dt d j f idx : Cabs2 (a_at (rf_data (advanced c dt d j f)) idx) = Cabs2 (a_at (rf_data f) idx).
Proof. unfold advanced. cbn [rf_data a_at]. now rewrite Cabs2_mul, Cabs2_cis, Rmult_1_r. Qed.
Lemma freq_energy c spl p n a s f : wellformed f -> all_in true f -> nth_error s a = Some f -> sensible p (ndim f) -> window_ok c p f ->
  exists s' ys, prop_run c spl p n a s = (s', Ok ys) /\ length ys = n /\ forall y r, In y ys -> nth_error s' y = Some r -> energy r = energy (start_of p f).
Proof.
  intros Wf A H Se Wi. destruct (propagate_freq c spl p n a s f Wf A H Se Wi) as (s' & ys & E & L & _ & Hj). exists s', ys. split; [exact E|]. split; [exact L|]. intros y r I Hr. apply In_nth_error in I. destruct I as [j Hy].
  assert (Lj : (j < n)%nat) by (rewrite <- L; apply nth_error_Some; congruence). destruct (Hj j Lj) as (y' & Hy' & Hr' & _). rewrite Hy in Hy'. injection Hy' as <-. rewrite Hr in Hr'. injection Hr' as ->. apply advanced_energy.
Qed.
Lemma origins_move c dt d j f a x : nth_error (rf_tao f) a = Some (Some x) -> nth_error (rf_tao (advanced c dt (Some d) j f)) a = Some (Some (x + INR j * d a)).
Proof.
  intro H. unfold advanced. cbn [rf_tao]. assert (L : (a < length (rf_tao f))%nat) by (apply nth_error_Some; congruence).
  rewrite nth_error_map. assert (E : nth_error (combine (seq 0 (length (rf_tao f))) (rf_tao f)) a = Some (a, Some x)).
  { clear c dt d j. generalize dependent (rf_tao f). clear f. intros l H L. assert (G : forall (k : nat) (l : list (option R)) (a : nat) (y : option R), nth_error l a = Some y -> nth_error (combine (seq k (length l)) l) a = Some ((k + a)%nat, y)).
    { clear. intros k l. revert k. induction l as [|z l IH]; intros k [|a] y; cbn; try discriminate; intro E; [injection E as ->; now rewrite Nat.add_0_r|]. rewrite (IH (S k) a y E). do 2 f_equal. lia. }
    exact (G 0%nat l a _ H). }
  rewrite E. reflexivity.
Qed.
Lemma window_origins c spl p n a s f v b x : wellformed f -> all_in true f -> nth_error s a = Some f -> (forall a, (a < ndim f)%nat -> exists x, nth_error (rf_tao f) a = Some (Some x)) -> p_vect p = Some v -> sensible p (ndim f) -> p_move p <> Some false ->
  p_zeroth p = true -> nth_error (rf_tao f) b = Some (Some x) ->
  exists s' ys, prop_run c spl p n a s = (s', Ok ys) /\ forall j, (j < n)%nat -> exists y r, nth_error ys j = Some y /\ nth_error s' y = Some r /\ nth_error (rf_tao r) b = Some (Some (x + INR j * (c * p_dt p * (nth b v 0 / sqrt (fold_right Rplus 0 (map (fun z => z * z) v)))))).
Proof.
  intros Wf A H K Hv Se Hm Hz Hx. assert (Wi : window_ok c p f) by now right. destruct (propagate_freq c spl p n a s f Wf A H Se Wi) as (s' & ys & E & L & _ & Hj). exists s', ys. split; [exact E|]. intros j Lj. destruct (Hj j Lj) as (y & Hy & Hr & _). rewrite Hz in Hr.
  exists y. eexists. split; [exact Hy|]. split; [exact Hr|]. unfold moves. rewrite Hv. destruct (p_move p) as [[|]|]; [|now elim Hm|]; (rewrite (origins_move _ _ _ j _ b x); [reflexivity|]; now rewrite start_tao).
Qed.
Lemma zeroth_own c spl dt a s f : wellformed f -> all_in true f -> nth_error s a = Some f -> exists s', kspace_propagate c spl (mkpa dt None None None true) 1 a s = (s', Ok [a]) /\ nth_error s' a = Some f.
Proof.
  intros Wf A H. unfold kspace_propagate. cbn [Z.ltb Z.compare]. change (Z.to_nat 1) with 1%nat. assert (Se : sensible (mkpa dt None None None true) (ndim f)) by (split; discriminate).
  destruct (propagate_freq c spl (mkpa dt None None None true) 1 a s f Wf A H Se (or_introl eq_refl)) as (s' & ys & E & L & F & Hj). exists s'. destruct (Hj 0%nat) as (y & Hy & Hr & _ & Own); [lia|]. rewrite E. rewrite (Own eq_refl eq_refl eq_refl) in *. destruct ys as [|y0 [|]]; try discriminate. cbn in Hy. injection Hy as ->. split; [reflexivity|]. rewrite F; [exact H|]. apply nth_error_Some. congruence.
Qed.
Lemma epoch_no_step c spl lin cut om om' align_to component fields s : kspace_epoch_like c spl lin cut om 0 align_to component fields s = kspace_epoch_like c spl lin cut om' 0 align_to component fields s.
Proof. apply epoch_cos. intros. f_equal. f_equal. field. Qed.
(** ** Two fields with one axis in space and one in the frequency domain *)
Definition mixed2 : store := [field2 false true; field2 false true].
Definition place2 (a : nat) : uni := match a with O => u2 | _ => dual (Some (/ 3)) u3 end.
Lemma mixed_lives : lives_on (field2 false true) 2 place2 /\ (~ exists b, all_in b (field2 false true)) /\ origins_known (field2 false true).
Proof.
  destruct (field2_ok false true) as (A1 & _ & A2 & _). split; [|split].
  - split; [exact A1|]. split; [reflexivity|]. exists (fun a => match a with O => false | _ => true end), U23. split; [exact A2|]. intros a L. destruct a as [|[|a]]; [split; reflexivity|split; reflexivity|lia].
  - intros (b & H). assert (H0 := all_in_at b _ 0 H ltac:(cbn; lia)). assert (H1 := all_in_at b _ 1 H ltac:(cbn; lia)). cbn in H0, H1. congruence.
  - intros a L. cbn in L. destruct a as [|[|a]]; [left; reflexivity|right; eexists; reflexivity|lia].
Qed.
Lemma mixed_distinct : distinct names1 mixed2.
Proof. destruct (wave1_distinct false C1 C1) as [A B]. split; [exact A|]. intros k a K. exact (B k a K). Qed.
Lemma mixed_given ip : given ip true 1 2 place2 names1 mixed2.
Proof.
  destruct mixed_lives as (L & _ & O). split; [exists 0%nat; eexists; split; [reflexivity|]; split; [reflexivity|exact L]|].
  intros key I. cbn in I. destruct I as [<-|[]]. exists 1%nat. eexists. exists place2. split; [reflexivity|]. split; [reflexivity|]. split; [exact L|]. split; [|intros _; exact O].
  intros a La. split; [reflexivity|]. split; [reflexivity|]. assert (P := proj1 (lives_proper _ _ _ L a La)). destruct P as [_ P]. destruct ip; [reflexivity| |]; rewrite Rminus_diag_eq, Rabs_R0 by reflexivity; lra.
Qed.
