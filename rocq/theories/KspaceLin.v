(** Lemmas on the reconstruction of waves with linear interpolation. *)
From Coq Require Import Reals String Ascii List ZArith Lia Lra Bool.
From Verif Require Import PyBase PyBaseFacts NumpyModel NdModel NdFacts FieldModel CplxModel CplxFacts FftModel FftSpec FftAxes FftKernel FftFacts FftLaws FftMore FftShift FftDemo KspaceModel KspaceSpec KspaceFrame KspaceFacts KspaceTotal KspaceWave KspaceDemo KspaceCutSpec KspaceCut KspaceLinSpec.
Import ListNotations.
Local Open Scope R_scope.

Lemma linear_turn spl lin other fields pol axes pre nd W V result i s r key a f H : linear_spline spl -> (0 < nd)%nat -> (forall a, (a < nd)%nat -> proper (W a)) ->
  nth_error s result = Some r -> field_key other ((pol + i) mod 3) = Some key -> dget fields key = Some a -> nth_error s a = Some f -> lives_on f nd V -> compatible ILinear nd W V -> moved_spectrum spl lin nd W V f H ->
  ((pol - i) mod 3 <? Z.of_nat (length axes))%Z = true ->
  exists s', other_field spl lin ILinear other fields pol (a_shape (rf_data f)) axes pre (map (fun a => u_x0 (W a)) (seq 0 nd)) (map (fun a => INR (u_n (W a) - 1) * u_dx (W a)) (seq 0 nd)) (map (fun a => u_dx (W a)) (seq 0 nd)) result i s = (s', Ok tt) /\
    nth_error s' result = Some (pure_turn r pre axes (if (i =? 1)%Z then 1 else -1) ((pol - i) mod 3) (fun idx => a_at (rf_data H) idx)).
Proof.
  intros Sp Pn PW Hr Hk Ha Hf Lf0 Co (g & h & Eg & Eh & Wh & EH) Lm.
  destruct (other_checked spl lin ILinear pol (a_shape (rf_data f)) axes pre (map (fun a => u_x0 (W a)) (seq 0 nd)) (map (fun a => INR (u_n (W a) - 1) * u_dx (W a)) (seq 0 nd)) (map (fun a => u_dx (W a)) (seq 0 nd)) result i nd V other fields key a f s Sp Pn Lf0 Lm Hk Ha Hf)
    as (s1 & b & g0 & st & -> & H1 & Lb & Old & Lf & A & Shg & Kn & Ens).
  assert (Lr : (result < b)%nat) by (assert (result < length s)%nat by (apply nth_error_Some; congruence); lia). assert (Ls1 : (b < length s1)%nat) by (apply nth_error_Some; congruence).
  assert (Hr1 : nth_error s1 result = Some r) by (rewrite Old; [exact Hr|apply nth_error_Some; congruence]).
  assert (Eg0 : ensure_domain spl g0 false = Ok g) by (destruct Ens as [->|Ens]; [exact Eg|]; cbn [aims] in Ens; assert (g0 = g) by congruence; subst g0; exact (ensure_again spl f g false Sp (lives_wf f nd V Pn Lf0) Eg)).
  rewrite <- Shg. clear Kn Ens Shg Old Hr Hf Lf0 Eg a Ha s Lb. clear f. rename g0 into f. rename Eg0 into Eg.
  assert (Wf := lives_wf f nd V Pn Lf).
  destruct (lives_whole st f nd V Lf A) as (C & Nd & U & Gd & HV). assert (Ug : on_grid f (seq 0 (ndim f)) U) by now rewrite Nd.
  assert (Rs : rstate (rf_ats f) (all_dims f) = Ok (Some st)) by (rewrite (all_dims_grid f U Ug); apply rstate_nat; [rewrite Nd; destruct nd; [lia|discriminate]|exact A]).
  unfold checked, load, alloc. unfold sbind at 1. rewrite H1. unfold sbind at 1, lift at 1. rewrite Rs.
  assert (Gs : (match st with true => spatial_grids f | false => Ok (map ra_grid (rf_axes f)) end) = Ok (map (fun a => grid_of (V a)) (seq 0 nd))).
  { destruct st; [now apply lives_grids|]. f_equal. apply nth_error_eq. intro c. rewrite !nth_error_map'. destruct (Nat.lt_ge_cases c nd) as [L|L].
    - destruct (Gd c) as (ax & Ea & (Eg' & _) & _); [apply in_seq; lia|]. rewrite Ea. rewrite (nth_error_nth' _ 0%nat) by (rewrite seq_length; lia). rewrite seq_nth by lia. cbn [option_map plus]. now rewrite Eg', HV.
    - rewrite !(proj2 (nth_error_None _ _)); [reflexivity|rewrite seq_length; lia|rewrite (c_axes f C); lia]. }
  assert (PV : forall a, (a < nd)%nat -> proper (V a)) by (intros c L; apply (lives_proper f nd V Lf c L)). destruct (grids_data nd V PV) as (D1 & D2 & _). cbv zeta in D1, D2.
  unfold sbind at 1, lift at 1. replace (match st with true => spatial_grids f | false => Ok (map ra_grid (rf_axes f)) end) with (Ok (map (fun a => grid_of (V a)) (seq 0 nd))) by (symmetry; exact Gs).
  unfold sbind at 1, lift at 1. rewrite D1. unfold sbind at 1, lift at 1. rewrite D2.
  destruct (list_eq_dec Z.eq_dec (a_shape (rf_data f)) (a_shape (rf_data f))) as [_|N]; [|congruence]. cbn [negb].
  rewrite all_close_map by (intros c I; apply in_seq in I; destruct (Co c) as (-> & -> & _); [lia|reflexivity]). cbn [negb].
  cbv zeta. set (shift := combine (zrange _) _). assert (Es : shift = distance nd W V).
  { unfold shift, distance. rewrite map_length, seq_length, map2_map. unfold zrange. rewrite Nat2Z.id. now rewrite combine_map. }
  clearbody shift. subst shift.
  assert (Gd2 : forallb (fun p : Z * R * R => Rltb (Rabs (snd (fst p))) (2 * snd p)) (combine (distance nd W V) (map (fun a => u_dx (W a)) (seq 0 nd))) = true).
  { unfold distance. rewrite combine_map. apply forallb_map_true. intros c I. apply in_seq in I. destruct (Co c) as (_ & _ & E); [lia|]. now apply Rltb_true. }
  rewrite Gd2. cbn [negb].
  destruct (ensure_at_ok spl false b f s1 Sp Wf H1) as (s2 & b2 & E2). destruct (ensure_at_value spl false b f s1 s2 b2 H1 E2) as (g' & Eg' & H2 & Cs). rewrite Eg in Eg'. injection Eg' as <-.
  unfold sbind at 1. unfold sbind at 1. rewrite E2. unfold sbind at 1. rewrite H2. unfold sbind at 1, lift at 1. rewrite Eh.
  assert (Hr2 : nth_error s2 result = Some r) by (destruct Cs as [(-> & _)|(-> & _)]; [exact Hr1|rewrite nth_app_old by lia; exact Hr1]). assert (Lr2 : (result < length s2)%nat) by (apply nth_error_Some; congruence). clear Cs.
  assert (H3 : nth_error (s2 ++ [h]) (length s2) = Some h) by now rewrite nth_error_app2, Nat.sub_diag by lia.
  assert (Hr3 : nth_error (s2 ++ [h]) result = Some r) by (rewrite nth_app_old; assumption).
  destruct (ensure_at_ok spl true (length s2) h (s2 ++ [h]) Sp Wh H3) as (s4 & b4 & E4). destruct (ensure_at_value spl true _ h _ s4 b4 H3 E4) as (H' & EH' & H4 & Cs). rewrite EH in EH'. injection EH' as <-.
  unfold sbind at 1. rewrite E4. assert (Hr4 : nth_error s4 result = Some r) by (destruct Cs as [(-> & _)|(-> & _)]; [exact Hr3|rewrite nth_app_old by (rewrite app_length; cbn; lia); exact Hr3]).
  unfold sbind at 1, sret at 1. unfold sbind at 1. rewrite H4. unfold sbind at 1. rewrite Hr4. eexists. split; [reflexivity|].
  rewrite nth_error_upd, Nat.eqb_refl. assert (L4 : (result < length s4)%nat) by (apply nth_error_Some; congruence). destruct (Nat.ltb_spec result (length s4)); [|lia]. reflexivity.
Qed.
Lemma turn_linear spl lin (el : bool) p nd W fields axes pre result r i s M : linear_spline spl -> (0 < nd)%nat -> (p < 3)%nat -> (i = 1 \/ i = 2)%nat -> length axes = nd -> nth_error s result = Some r -> lives_on r nd W ->
  (forall key, In key (tl (needed el p nd)) -> exists a f V, dget fields key = Some a /\ nth_error s a = Some f /\ lives_on f nd V /\ compatible ILinear nd W V /\ moved_spectrum spl lin nd W V f (M key)) ->
  exists s' r', other_field spl lin ILinear (if negb el then "E" else "B")%char fields (Z.of_nat p) (a_shape (rf_data r)) axes pre (map (fun a => u_x0 (W a)) (seq 0 nd)) (map (fun a => INR (u_n (W a) - 1) * u_dx (W a)) (seq 0 nd)) (map (fun a => u_dx (W a)) (seq 0 nd)) result (Z.of_nat i) s = (s', Ok tt) /\
    nth_error s' result = Some r' /\ rf_axes r' = rf_axes r /\ rf_ats r' = rf_ats r /\ rf_tao r' = rf_tao r /\ a_shape (rf_data r') = a_shape (rf_data r) /\
    (forall idx, a_at (rf_data r') idx = Cadd (a_at (rf_data r) idx) (Cmul (RtoC ((if (i =? 1)%nat then 1 else -1) * pre idx * wave_vector axes idx (turn3 p (3 - i)))) (a_at (rf_data (M (comp (negb el) (turn3 p i)))) idx))).
Proof.
  intros Sp Pn Hp Hi La Hr Lr H. destruct (turn_mod p i Hi) as [M1 M2]. destruct (Nat.lt_ge_cases (turn3 p (3 - i)) nd) as [L|L].
  - destruct (H _ (needed_third el p nd i Hp Hi L)) as (a & f & V & Ha & Hf & Lf & Co & Mo).
    assert (Sh : a_shape (rf_data f) = a_shape (rf_data r)) by (apply (lives_shape r f nd W V Lr Lf); intros c Lc; apply (Co c Lc)).
    destruct (linear_turn spl lin (if negb el then "E" else "B")%char fields (Z.of_nat p) axes pre nd W V result (Z.of_nat i) s r (comp (negb el) (turn3 p i)) a f (M (comp (negb el) (turn3 p i)))) as (s' & E & Er); try assumption.
    + intros c Lc; apply (lives_proper r nd W Lr c Lc).
    + rewrite M1; apply key_comp; [apply turn_lt|reflexivity].
    + rewrite M2. apply Z.ltb_lt. lia.
    + rewrite Sh in E. exists s'. eexists. split; [exact E|]. split; [exact Er|]. do 4 (split; [reflexivity|]). intro idx. cbn [pure_turn with_data rf_data a_at]. rewrite M2, mesh_wave. replace (Z.of_nat i =? 1)%Z with (i =? 1)%nat by (destruct Hi as [-> | ->]; reflexivity). reflexivity.
  - exists s, r. unfold other_field. rewrite M2. destruct (Z.ltb_spec (Z.of_nat (turn3 p (3 - i))) (Z.of_nat (length axes))); [lia|]. split; [reflexivity|]. split; [exact Hr|]. do 4 (split; [reflexivity|]). intro idx. rewrite wave_none by lia. rewrite Rmult_0_r. change (RtoC 0) with C0. ring.
Qed.
Lemma linear_formula spl lin omega el p nd W fields s M : linear_spline spl -> (p < 3)%nat -> (0 < nd)%nat -> distinct fields s -> given_moved spl lin el p nd W fields s M ->
  exists s' a' a f F r, kspace spl lin None omega ILinear (comp el p) fields s = (s', Ok a') /\ dget fields (comp el p) = Some a /\ nth_error s a = Some f /\ ensure_domain spl f true = Ok F /\ nth_error s' a' = Some r /\
    rf_axes r = rf_axes F /\ rf_ats r = rf_ats F /\ rf_tao r = rf_tao F /\ a_shape (rf_data r) = a_shape (rf_data F) /\
    forall idx, let k := wave_vector (rf_axes F) idx in
      a_at (rf_data r) idx = Csub (a_at (rf_data F) idx) (Cmul (RtoC (factor el (omega (rf_axes F) idx) k)) (cross k (fun i => a_at (rf_data (M (comp (negb el) i))) idx) p)).
Proof.
  intros Sp Hp Pn [Di Ex] ((a & f & Ha & Hf & Lf) & H). rewrite kspace_unfold by exact Hp. cbv zeta. rewrite Ha.
  assert (Wf := lives_wf f nd W Pn Lf). destruct (ensure_lives spl f nd W Sp Pn Lf) as (F & EF & LF & AF & ShF & _). destruct (ensure_at_ok spl true a f s Sp Wf Hf) as (s1 & a1 & E1). destruct (ensure_at_value spl true a f s s1 a1 Hf E1) as (F' & EF' & H1 & Cs). rewrite EF in EF'. injection EF' as <-.
  destruct (tame_ensure (length s) (fun _ => False) spl true a _ _ _ (le_n _) E1) as (Len1 & Fr1 & _).
  assert (Far : forall key b, In key (tl (needed el p nd)) -> dget fields key = Some b -> (b < length s)%nat /\ b <> a1).
  { intros key b Hk Hb. assert (Lb := Ex _ _ Hb). split; [exact Lb|]. intro. subst b. destruct Cs as [(_ & -> & _)|(_ & ->)]; [|lia].
    specialize (Di _ _ _ Ha Hb). subst key. unfold needed in Hk. cbn [tl] in Hk. apply in_map_iff in Hk as (d & D & _). destruct el, p as [|[|[|]]], (3 - _ - d)%nat as [|[|?]]; discriminate D. }
  unfold sbind at 1. rewrite E1. unfold sbind at 1, load at 1. rewrite H1.
  assert (PW : forall a, (a < nd)%nat -> proper (W a)) by (intros c L; apply (lives_proper f nd W Lf c L)). destruct (grids_data nd W PW) as (D1 & D2 & D3). cbv zeta in D1, D2, D3.
  do 4 (unfold sbind at 1, lift at 1). rewrite (lives_grids F nd W Pn LF AF), D1, D2, D3.
  assert (L1 : (a1 < length s1)%nat) by (apply nth_error_Some; congruence). assert (LaF : length (rf_axes F) = nd) by (destruct LF as (CF & NF & _); rewrite (c_axes F CF); exact NF).
  destruct (turn_linear spl lin el p nd W fields (rf_axes F) (prefactor el omega (rf_axes F)) a1 F 1 s1 M Sp Pn Hp (or_introl eq_refl) LaF H1 LF) as (s2 & r & T1 & H2 & X1 & X2 & X3 & X4 & V1).
  { intros key Hk. destruct (H key Hk) as (b & g & V & Hb & Hg & R). exists b, g, V. split; [exact Hb|]. split; [|exact R]. destruct (Far key b Hk Hb). rewrite Fr1; auto. }
  change (Z.of_nat 1) with 1%Z in T1. unfold sbind at 1. rewrite T1.
  destruct (tame_other (length s1) (fun a => a = a1) spl lin ILinear _ fields _ _ _ _ _ _ _ a1 _ (or_intror eq_refl) _ _ _ (le_n _) T1) as (Len2 & Fr2 & _).
  assert (Lr : lives_on r nd W).
  { destruct LF as ([A1 A2 A3 A4] & NF & B & U & G & HW). assert (Nr : ndim r = ndim F) by (unfold ndim; now rewrite X4).
    split; [split; rewrite ?Nr, ?X1, ?X2, ?X3; assumption|]. split; [congruence|]. exists B, U. split; [intros c Ic; destruct (G c Ic) as (ax & Q1 & Q2 & Q3); exists ax; rewrite X1, X4; auto|]. intros c Lc. rewrite X2, X3. now apply HW. }
  rewrite <- X4.
  destruct (turn_linear spl lin el p nd W fields (rf_axes F) (prefactor el omega (rf_axes F)) a1 r 2 s2 M Sp Pn Hp (or_intror eq_refl) LaF H2 Lr) as (s3 & r3 & T2 & H3 & Y1 & Y2 & Y3 & Y4 & V2).
  { intros key Hk. destruct (H key Hk) as (b & g & V & Hb & Hg & R). exists b, g, V. split; [exact Hb|]. split; [|exact R]. destruct (Far key b Hk Hb). rewrite Fr2, Fr1; auto; lia. }
  change (Z.of_nat 2) with 2%Z in T2. unfold sbind at 1. rewrite T2. exists s3, a1, a, f, F, r3. split; [reflexivity|]. split; [reflexivity|]. split; [exact Hf|]. split; [exact EF|]. split; [exact H3|].
  split; [congruence|]. split; [congruence|]. split; [congruence|]. split; [congruence|]. intro idx. cbv zeta. rewrite V2, V1.
  assert (L3 : (length (rf_axes F) <= 3)%nat) by (destruct LF as (CF & NF & _); rewrite (c_axes F CF); apply (c_dims F CF)). rewrite <- prefactor_factor by exact L3. unfold cross.
  change (3 - 1)%nat with 2%nat. change (3 - 2)%nat with 1%nat. change (1 =? 1)%nat with true. change (2 =? 1)%nat with false. cbv iota.
  set (pr := prefactor el omega (rf_axes F) idx). set (k1 := wave_vector (rf_axes F) idx (turn3 p 1)). set (k2 := wave_vector (rf_axes F) idx (turn3 p 2)).
  replace (1 * pr * k2) with (pr * k2) by ring. replace (-1 * pr * k1) with (- 1 * (pr * k1)) by ring. rewrite !RtoC_mul. replace (RtoC (-1)) with (Copp C1) by (unfold RtoC, Copp, C1; cbn; f_equal; ring). ring.
Qed.
(** ** Waves *)
Lemma wave_algebra (el : bool) p (k : nat -> R) (w sg : R) (E B : nat -> C) (Sm : C) (So : nat -> C) : (p < 3)%nat -> w <> 0 -> dot3 k k <> 0 -> cdot k E = C0 -> (sg = 1 \/ sg = -1) -> (forall i, (i < 3)%nat -> B i = Cmul (RtoC (sg / w)) (cross k E i)) ->
  Sm = (if el then E p else B p) -> (forall i, (i = 1 \/ i = 2)%nat -> k (turn3 p (3 - i)) <> 0 -> So (turn3 p i) = (if el then B else E) (turn3 p i)) ->
  Csub Sm (Cmul (RtoC (factor el w k)) (cross k So p)) = Cmul (RtoC (1 + sg)) (if el then E p else B p).
Proof.
  intros Hp Hw Hk T Sg HB -> Ho.
  assert (Ec : cross k So p = cross k (if el then B else E) p).
  { unfold cross. assert (Q : forall i, (i = 1 \/ i = 2)%nat -> Cmul (RtoC (k (turn3 p (3 - i)))) (So (turn3 p i)) = Cmul (RtoC (k (turn3 p (3 - i)))) ((if el then B else E) (turn3 p i))).
    { intros i Hi. destruct (Req_dec (k (turn3 p (3 - i))) 0) as [Z|N]; [rewrite Z; change (RtoC 0) with C0; ring|now rewrite (Ho i Hi N)]. }
    assert (Q1 := Q 1%nat (or_introl eq_refl)). assert (Q2 := Q 2%nat (or_intror eq_refl)). change (3 - 1)%nat with 2%nat in Q1. change (3 - 2)%nat with 1%nat in Q2. now rewrite Q1, Q2. }
  rewrite Ec. unfold factor. destruct el.
  - destruct (Req_EM_T (dot3 k k) 0) as [Z|_]; [contradiction|]. apply wave_electric; assumption.
  - destruct (Req_EM_T w 0) as [Z|_]; [contradiction|]. replace (- (1 / w)) with (-1 / w) by (field; exact Hw). apply wave_magnetic; [assumption|assumption|assumption|]. destruct Sg as [-> | ->]; ring.
Qed.
Lemma linear_wave spl lin omega (el : bool) p nd W fields s M (E B : nat -> C) idx sg : linear_spline spl -> (p < 3)%nat -> (0 < nd)%nat -> distinct fields s -> given_moved spl lin el p nd W fields s M ->
  exists s' a' a f F r, kspace spl lin None omega ILinear (comp el p) fields s = (s', Ok a') /\ dget fields (comp el p) = Some a /\ nth_error s a = Some f /\ ensure_domain spl f true = Ok F /\ nth_error s' a' = Some r /\
  let k := wave_vector (rf_axes F) idx in let w := omega (rf_axes F) idx in
  w <> 0 -> dot3 k k <> 0 -> cdot k E = C0 -> (sg = 1 \/ sg = -1) -> (forall i, (i < 3)%nat -> B i = Cmul (RtoC (sg / w)) (cross k E i)) ->
  a_at (rf_data F) idx = (if el then E p else B p) -> (forall i, (i < 3)%nat -> In (comp (negb el) i) (tl (needed el p nd)) -> a_at (rf_data (M (comp (negb el) i))) idx = if el then B i else E i) ->
  a_at (rf_data r) idx = Cmul (RtoC (1 + sg)) (if el then E p else B p).
Proof.
  intros Sp Hp Pn Di G. destruct (linear_formula spl lin omega el p nd W fields s M Sp Hp Pn Di G) as (s' & a' & a & f & F & r & Ek & Ha & Hf & EF & Hr & X1 & X2 & X3 & X4 & V).
  exists s', a', a, f, F, r. do 5 (split; [assumption|]). intros k w Hw Hk T Sg HB Hm Ho. rewrite V. fold k w.
  destruct G as ((a0 & f0 & Ha0 & Hf0 & Lf0) & _). rewrite Ha in Ha0. injection Ha0 as <-. rewrite Hf in Hf0. injection Hf0 as <-.
  destruct (ensure_lives spl f nd W Sp Pn Lf0) as (F' & EF' & LF & _). rewrite EF in EF'. injection EF' as <-. assert (LaF : length (rf_axes F) = nd) by (destruct LF as (CF & NF & _); rewrite (c_axes F CF); exact NF).
  apply (wave_algebra el p k w sg E B (a_at (rf_data F) idx) (fun i => a_at (rf_data (M (comp (negb el) i))) idx)); try assumption. intros i Hi Nk.
  destruct (Nat.lt_ge_cases (turn3 p (3 - i)) nd) as [L|L]; [|exfalso; apply Nk; unfold k; apply wave_none; lia]. cbv beta. rewrite (Ho _ (turn_lt p i) (needed_third el p nd i Hp Hi L)). now destruct el.
Qed.
Lemma part_wave spl lin ct omega ip (el : bool) p fields s s' a' (E B : nat -> C) idx sg : linear_spline spl -> ip <> ILinear -> (p < 3)%nat -> all_there fields s ->
  kspace spl lin (Some ct) omega ip (comp el p) fields s = (s', Ok a') ->
  exists m f fm, dget fields (comp el p) = Some m /\ nth_error s m = Some f /\ ensure_domain spl f false = Ok fm /\
    ((forall k a g h, dget fields k = Some a -> nth_error s a = Some g -> part_of spl ct fm g h -> wellformed h) ->
     exists h F r, part_of spl ct fm f h /\ ensure_domain spl h true = Ok F /\ nth_error s' a' = Some r /\
       let k := wave_vector (rf_axes F) idx in let w := omega (rf_axes F) idx in
       w <> 0 -> dot3 k k <> 0 -> cdot k E = C0 -> (sg = 1 \/ sg = -1) -> (forall i, (i < 3)%nat -> B i = Cmul (RtoC (sg / w)) (cross k E i)) ->
       (forall el' i, (i < 3)%nat -> dget fields (comp el' i) <> None -> part_spectrum spl ct fm s fields (comp el' i) idx = if el' then E i else B i) ->
       a_at (rf_data r) idx = Cmul (RtoC (1 + sg)) (if el then E p else B p)).
Proof.
  intros Sp Ip Hp Th Ek. destruct (part_formula spl lin ct omega ip el p fields s s' a' Sp Ip Hp Th Ek) as (m & f & fm & Hm & Hf & EF & K). exists m, f, fm. do 3 (split; [assumption|]). intro Wf.
  destruct (K Wf) as (h & F & r & Ph & EFh & Hr & X1 & X2 & X3 & X4 & V & N). exists h, F, r. do 3 (split; [assumption|]). intros k w Hw Hk T Sg HB Hs. rewrite V. fold k w.
  destruct (ensure_wf spl h true Sp (Wf _ _ _ _ Hm Hf Ph)) as (F' & EF' & WF & _ & Sh & _). rewrite EFh in EF'. injection EF' as <-. assert (LaF : length (rf_axes F) = ndim h) by (rewrite (c_axes F (proj1 WF)); unfold ndim; now rewrite Sh).
  apply (wave_algebra el p k w sg E B); try assumption.
  - apply Hs; [exact Hp|congruence].
  - intros i Hi Nk. destruct (Nat.lt_ge_cases (turn3 p (3 - i)) (ndim h)) as [L|L]; [|exfalso; apply Nk; unfold k; apply wave_none; lia].
    destruct (N _ (or_intror (needed_third el p (ndim h) i Hp Hi L))) as [b Hb]. cbv beta. rewrite (Hs _ _ (turn_lt p i)) by congruence. now destruct el.
Qed.
(** ** Parts of fields *)
Lemma part_reduces spl lin ct omega ip el p fields s s' a' : (p < 3)%nat -> all_there fields s -> kspace spl lin (Some ct) omega ip (comp el p) fields s = (s', Ok a') ->
  exists m f fm s1 d, dget fields (comp el p) = Some m /\ nth_error s m = Some f /\ ensure_domain spl f false = Ok fm /\ distinct d s1 /\
    (forall k, match dget fields k, dget d k with
               | None, None => True
               | Some a, Some b => exists g h, nth_error s a = Some g /\ part_of spl ct fm g h /\ nth_error s1 b = Some h
               | _, _ => False end) /\
    kspace spl lin None omega ip (comp el p) d s1 = (s', Ok a').
Proof.
  intros Hp Th E. assert (Ec : exists s1 d, cut_fields spl (Some ct) (comp el p) fields s = (s1, Ok d)).
  { destruct (axis_comp p Hp) as (ax & E1 & E2 & _). destruct el; [rewrite E1 in *|rewrite E2 in *]; cbn [kspace] in E; apply sbind_ok in E as (s1 & d & E & _); now exists s1, d. }
  destruct Ec as (s1 & d & Ec). rewrite (kspace_split _ _ _ _ _ _ _ _ _ _ _ Hp Ec) in E. destruct (cut_value _ _ _ _ _ _ _ Th Ec) as (m & f & fm & Hm & Hf & EF & Di & _ & Get).
  exists m, f, fm, s1, d. auto 10.
Qed.
(** ** An example: Bz on a grid which is a third of a cell further on *)
Definition grid_off := mkuni 2 2 3.
Definition to_grid1 (f : rfield) (sh : list (Z * R)) : res rfield := Ok (field1 "x" "m" grid1 false (Some 0) (fun i => a_at (rf_data f) [i])).
Definition wave_off (ey bz : C) : store := [field1 "x" "m" grid1 false (Some 0) (fun _ => ey); field1 "x" "m" grid_off false (Some 0) (fun _ => bz)].
Lemma off_lives u data : proper u -> lives_on (field1 "x" "m" u false (Some 0) data) 1 (fun _ => u).
Proof.
  intro P. destruct (field1_ok "x" "m" u false (Some 0) data P) as (A1 & A2 & A3). apply (whole_lives false _ 1 (fun _ => u)); [exact A1|reflexivity|exact A2|exact A3|]. intros; reflexivity.
Qed.
Lemma off_given ey bz : exists M, given_moved line_spline to_grid1 true 1 1 (fun _ => grid1) names1 (wave_off ey bz) M /\ distinct names1 (wave_off ey bz).
Proof.
  destruct (field1_wf false (Some 0) (fun _ => bz)) as [Wh _]. destruct (ensure_wf line_spline _ true line_spline_ok Wh) as (H & EH & _).
  exists (fun _ => H). assert (Po : proper grid_off) by (split; cbn; [lia|lra]). split; [split|].
  - exists 0%nat. eexists. split; [reflexivity|]. split; [reflexivity|]. apply off_lives, grid1_proper.
  - intros key I. cbn in I. destruct I as [<-|[]]. exists 1%nat. eexists. exists (fun _ => grid_off). split; [reflexivity|]. split; [reflexivity|]. split; [apply off_lives, Po|]. split.
    + intros a _. cbn. split; [reflexivity|]. split; [reflexivity|]. replace (1 - 2) with (-1) by ring. rewrite Rabs_left by lra. lra.
    + eexists. eexists. split; [apply in_domain_ensure; reflexivity|]. split; [reflexivity|]. split; [exact Wh|exact EH].
  - split.
    + intros k j c Hk Hj. destruct (names1_get _ _ Hk) as [[-> ->]|[-> ->]], (names1_get _ _ Hj) as [[-> Q]|[-> Q]]; (reflexivity || discriminate).
    + intros k c Hk. destruct (names1_get _ _ Hk) as [[-> ->]|[-> ->]]; cbn; lia.
Qed.
