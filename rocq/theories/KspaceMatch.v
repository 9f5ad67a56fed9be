(** Which fields kspace accepts (C88). *)
From Coq Require Import Reals String Ascii List ZArith Lia Lra Bool.
From Verif Require Import PyBase PyBaseFacts NumpyModel NdModel NdFacts FieldModel CplxModel CplxFacts FftModel FftSpec FftAxes FftKernel FftFacts FftLaws FftMore FftShift UnstagFacts KspaceModel KspaceSpec KspaceFrame KspaceFacts KspaceTotal KspaceMatchSpec.
Import ListNotations.
Local Open Scope R_scope.

Definition check (ip : interp) (sh shf : list Z) (P Q : place) : bool :=
  (if list_eq_dec Z.eq_dec shf sh then true else false) &&
  KspaceModel.all_close (map (fun a => INR (u_n (pl_at P a) - 1) * u_dx (pl_at P a)) (seq 0 (pl_nd P))) (map (fun a => INR (u_n (pl_at Q a) - 1) * u_dx (pl_at Q a)) (seq 0 (pl_nd Q))) &&
  match ip with
  | INone => KspaceModel.all_close (map (fun a => u_x0 (pl_at P a)) (seq 0 (pl_nd P))) (map (fun a => u_x0 (pl_at Q a)) (seq 0 (pl_nd Q)))
  | _ => forallb (fun p : Z * R * R => Rltb (Rabs (snd (fst p))) (2 * snd p)) (combine (combine (zrange (Z.of_nat (length (map (fun a => u_x0 (pl_at P a)) (seq 0 (pl_nd P)))))) (map2 (fun so fo => so - fo) (map (fun a => u_x0 (pl_at P a)) (seq 0 (pl_nd P))) (map (fun a => u_x0 (pl_at Q a)) (seq 0 (pl_nd Q))))) (map (fun a => u_dx (pl_at P a)) (seq 0 (pl_nd P))))
  end.
Lemma close_map_iff (g h : nat -> R) l : KspaceModel.all_close (map g l) (map h l) = true <-> forall a, In a l -> close_to (g a) (h a).
Proof.
  unfold KspaceModel.all_close. rewrite combine_map. rewrite forallb_forall. split.
  - intros H a I. apply rclose_true, (H (g a, h a)), in_map_iff. exists a. auto.
  - intros H x I. apply in_map_iff in I as (a & <- & I). apply rclose_true, H, I.
Qed.
Lemma Rltb_iff a b : Rltb a b = true <-> a < b.
Proof. unfold Rltb. destruct (Rlt_dec a b); split; intro; try tauto; discriminate. Qed.
Lemma check_fits ip r f P Q : ip <> ILinear -> lives_on r (pl_nd P) (pl_at P) -> lives_on f (pl_nd Q) (pl_at Q) -> check ip (a_shape (rf_data r)) (a_shape (rf_data f)) P Q = true <-> fits ip P Q.
Proof.
  intros Ip Lr Lf. unfold check, fits. destruct (Nat.eq_dec (pl_nd Q) (pl_nd P)) as [En|En].
  - rewrite En. rewrite !andb_true_iff, close_map_iff. rewrite map_length, seq_length, map2_map. unfold zrange. rewrite Nat2Z.id, combine_map, combine_map.
    assert (Sh : (if list_eq_dec Z.eq_dec (a_shape (rf_data f)) (a_shape (rf_data r)) then true else false) = true <-> forall a, (a < pl_nd P)%nat -> u_n (pl_at Q a) = u_n (pl_at P a)).
    { destruct (list_eq_dec Z.eq_dec (a_shape (rf_data f)) (a_shape (rf_data r))) as [E|E]; split; intro H; try discriminate; try reflexivity.
      - intros a La. rewrite En in Lf. assert (A := proj2 (lives_proper r _ _ Lr a La)). assert (B := proj2 (lives_proper f _ _ Lf a La)). rewrite E, A in B. injection B as B. lia.
      - destruct E. rewrite En in Lf. exact (lives_shape r f _ _ _ Lr Lf H). }
    rewrite Sh. assert (O : match ip with INone => KspaceModel.all_close (map (fun a => u_x0 (pl_at P a)) (seq 0 (pl_nd P))) (map (fun a => u_x0 (pl_at Q a)) (seq 0 (pl_nd P)))
        | _ => forallb (fun p : Z * R * R => Rltb (Rabs (snd (fst p))) (2 * snd p)) (map (fun a : nat => (Z.of_nat a, u_x0 (pl_at P a) - u_x0 (pl_at Q a), u_dx (pl_at P a))) (seq 0 (pl_nd P))) end = true <->
        forall a, (a < pl_nd P)%nat -> match ip with INone => close_to (u_x0 (pl_at P a)) (u_x0 (pl_at Q a)) | _ => Rabs (u_x0 (pl_at P a) - u_x0 (pl_at Q a)) < 2 * u_dx (pl_at P a) end).
    { destruct ip; [|congruence|].
      - rewrite close_map_iff. split; intros H a L; apply H; [apply in_seq; lia|apply in_seq in L; lia].
      - rewrite forallb_forall. split.
        + intros H a L. apply Rltb_iff. apply (H (Z.of_nat a, u_x0 (pl_at P a) - u_x0 (pl_at Q a), u_dx (pl_at P a))), in_map_iff. exists a. split; [reflexivity|apply in_seq; lia].
        + intros H x I. apply in_map_iff in I as (a & <- & I). apply Rltb_iff. cbn [fst snd]. apply H. apply in_seq in I. lia. }
    rewrite O. unfold extent. split.
    + intros ((A & B) & D). split; [reflexivity|]. intros a L. split; [now apply A|]. split; [apply B, in_seq; lia|now apply D].
    + intros [_ H]. split; [split|].
      * intros a L. now apply H.
      * intros a L. apply in_seq in L. apply H. lia.
      * intros a L. now apply H.
  - split; [|tauto]. intro H. exfalso. apply En. destruct (list_eq_dec Z.eq_dec (a_shape (rf_data f)) (a_shape (rf_data r))) as [E|E]; [|discriminate H].
    destruct Lr as (_ & Nr & _), Lf as (_ & Nf & _). unfold ndim in *. congruence.
Qed.
Lemma other_case spl lin ip other fields pol axes pre P Q result i s r key a f : linear_spline spl -> (0 < pl_nd Q)%nat -> ip <> ILinear -> (forall a, (a < pl_nd P)%nat -> proper (pl_at P a)) ->
  nth_error s result = Some r -> field_key other ((pol + i) mod 3) = Some key -> dget fields key = Some a -> nth_error s a = Some f -> lives_on f (pl_nd Q) (pl_at Q) -> (ip = IFourier -> origins_known f) ->
  ((pol - i) mod 3 < Z.of_nat (length axes))%Z -> pl_nd P = pl_nd (if check ip (a_shape (rf_data r)) (a_shape (rf_data f)) P Q then Q else P) ->
  exists s', other_field spl lin ip other fields pol (a_shape (rf_data r)) axes pre (map (fun a => u_x0 (pl_at P a)) (seq 0 (pl_nd P))) (map (fun a => INR (u_n (pl_at P a) - 1) * u_dx (pl_at P a)) (seq 0 (pl_nd P))) (map (fun a => u_dx (pl_at P a)) (seq 0 (pl_nd P))) result i s =
    (s', if check ip (a_shape (rf_data r)) (a_shape (rf_data f)) P Q then Ok tt else Err ValueError).
Proof.
  intros Sp Pn Ip PW Hr Hk Ha Hf Lf0 Or Lt Nq. assert (Lm := proj2 (Z.ltb_lt _ _) Lt).
  destruct (other_checked spl lin ip pol (a_shape (rf_data r)) axes pre (map (fun a => u_x0 (pl_at P a)) (seq 0 (pl_nd P))) (map (fun a => INR (u_n (pl_at P a) - 1) * u_dx (pl_at P a)) (seq 0 (pl_nd P))) (map (fun a => u_dx (pl_at P a)) (seq 0 (pl_nd P))) result i (pl_nd Q) (pl_at Q) other fields key a f s Sp Pn Lf0 Lm Hk Ha Hf)
    as (s1 & b & g0 & st & -> & H1 & Lb & Old & Lf & A & Shg & Kn & Ens).
  assert (Lr : (result < b)%nat) by (assert (result < length s)%nat by (apply nth_error_Some; congruence); lia). assert (Ls1 : (b < length s1)%nat) by (apply nth_error_Some; congruence).
  assert (Hr1 : nth_error s1 result = Some r) by (rewrite Old; [exact Hr|apply nth_error_Some; congruence]).
  assert (Or' : ip = IFourier -> origins_known g0) by auto. rewrite <- Shg in *. clear Kn Ens Shg Old Hr Hf Lf0 Or a Ha s Lb. clear f. rename g0 into f. rename Or' into Or.
  revert Nq. set (nd := pl_nd Q) in *. set (V := pl_at Q) in *. intro Nq.
  assert (Wf := lives_wf f nd V Pn Lf). destruct (ensure_lives spl f nd V Sp Pn Lf) as (G & EG & LG & AG & ShG & TG).
  destruct (lives_whole st f nd V Lf A) as (C & Nd & U & Gd & HV). assert (Ug : on_grid f (seq 0 (ndim f)) U) by now rewrite Nd.
  assert (Rs : rstate (rf_ats f) (all_dims f) = Ok (Some st)) by (rewrite (all_dims_grid f U Ug); apply rstate_nat; [rewrite Nd; destruct nd; [lia|discriminate]|exact A]).
  unfold checked, load, alloc. unfold sbind at 1. rewrite H1. unfold sbind at 1, lift at 1. rewrite Rs.
  assert (Gs : (match st with true => spatial_grids f | false => Ok (map ra_grid (rf_axes f)) end) = Ok (map (fun a => grid_of (V a)) (seq 0 nd))).
  { destruct st; [now apply lives_grids|]. f_equal. apply nth_error_eq. intro c. rewrite !nth_error_map'. destruct (Nat.lt_ge_cases c nd) as [L|L].
    - destruct (Gd c) as (ax & Ea & (Eg & _) & _); [apply in_seq; lia|]. rewrite Ea. rewrite (nth_error_nth' _ 0%nat) by (rewrite seq_length; lia). rewrite seq_nth by lia. cbn [option_map plus]. now rewrite Eg, HV.
    - rewrite !(proj2 (nth_error_None _ _)); [reflexivity|rewrite seq_length; lia|rewrite (c_axes f C); lia]. }
  assert (PV : forall a, (a < nd)%nat -> proper (V a)) by (intros c L; apply (lives_proper f nd V Lf c L)). destruct (grids_data nd V PV) as (D1 & D2 & _). cbv zeta in D1, D2.
  unfold sbind at 1, lift at 1. replace (match st with true => spatial_grids f | false => Ok (map ra_grid (rf_axes f)) end) with (Ok (map (fun a => grid_of (V a)) (seq 0 nd))) by (symmetry; exact Gs).
  unfold sbind at 1, lift at 1. rewrite D1. unfold sbind at 1, lift at 1. rewrite D2.
  destruct (check ip (a_shape (rf_data r)) (a_shape (rf_data f)) P Q) eqn:Ck; unfold check in Ck; fold V in Ck; fold nd in Ck.
  2: { cbv zeta. apply andb_false_iff in Ck as [Ck|Ck].
    - destruct (list_eq_dec Z.eq_dec (a_shape (rf_data f)) (a_shape (rf_data r))); [|eexists; reflexivity]. cbn [andb] in Ck. cbn [negb]. rewrite Ck. eexists. reflexivity.
    - rewrite Ck. destruct (list_eq_dec Z.eq_dec (a_shape (rf_data f)) (a_shape (rf_data r))); [|eexists; reflexivity]. cbn [negb].
      match goal with |- context [if negb ?c then _ else _] => destruct c; eexists; reflexivity end. }
  cbv zeta. apply andb_true_iff in Ck as [Ck C3]. apply andb_true_iff in Ck as [C1 C2]. rewrite C3, C2. destruct (list_eq_dec Z.eq_dec (a_shape (rf_data f)) (a_shape (rf_data r))); [|discriminate C1]. cbn [negb].
  clear C1 C2 C3. fold nd in Nq. clearbody nd V. clear Q. destruct P as [nP W]. cbn [pl_nd pl_at] in *. subst nP.
  rewrite map_length, seq_length, map2_map. unfold zrange. rewrite Nat2Z.id, combine_map.
  replace (match ip with ILinear => _ | _ => sret b end) with (@sret nat b) by (destruct ip; [reflexivity|congruence|reflexivity]).
  unfold sbind at 1, sret at 1. destruct (ensure_at_ok spl true b f s1 Sp Wf H1) as (s2 & b2 & E2). destruct (ensure_at_value spl true b f s1 s2 b2 H1 E2) as (G' & EG' & H2 & Cs). rewrite EG in EG'. injection EG' as <-.
  unfold sbind at 1. rewrite E2. assert (Hr2 : nth_error s2 result = Some r) by (destruct Cs as [(-> & _)|(-> & _)]; [exact Hr1|rewrite nth_app_old by lia; exact Hr1]).
  assert (Nr : result <> b2) by (destruct Cs as [(_ & -> & _)|(_ & ->)]; lia). assert (Lb2 : (b2 < length s2)%nat) by (apply nth_error_Some; congruence). clear Cs.
  destruct ip; [|congruence|].
  - unfold sbind at 1, sret at 1. unfold sbind at 1. rewrite H2. unfold sbind at 1. rewrite Hr2. eexists. reflexivity.
  - specialize (TG (Or eq_refl)). assert (TG' : exists x : nat -> R, forall c, In c (seq 0 nd) -> nth_error (rf_tao G) c = Some (Some (x c))).
    { exists (fun c => match nth_error (rf_tao G) c with Some (Some x) => x | _ => 0 end). intros c I. apply in_seq in I. destruct (TG c) as [x E]; [lia|]. now rewrite E. }
    destruct TG' as (x & Hx). destruct (move_ok (fun c => u_x0 (W c) - u_x0 (V c)) (seq 0 nd) (rf_tao G) x (seq_NoDup _ _) Hx) as (tao & Em & _).
    unfold sbind at 1. unfold sbind at 1. rewrite H2. unfold sbind at 1, lift at 1. rewrite Em. unfold assign at 1. unfold sbind at 1.
    rewrite nth_error_upd, Nat.eqb_refl. destruct (Nat.ltb_spec b2 (length s2)); [|lia]. unfold sbind at 1. rewrite nth_error_upd. destruct (Nat.eqb_spec result b2); [congruence|]. rewrite Hr2. eexists. reflexivity.
Qed.
Lemma needed_inv el p nd key : (p < 3)%nat -> (nd <= 3)%nat -> In key (tl (needed el p nd)) -> exists i, (i = 1 \/ i = 2)%nat /\ key = comp (negb el) (turn3 p i) /\ (turn3 p (3 - i) < nd)%nat.
Proof.
  intros Hp L I. unfold needed in I. cbn [tl] in I. apply in_map_iff in I as (d & <- & I). apply filter_In in I as [I N]. apply in_seq in I.
  assert (Hd : (d < 3)%nat) by lia. assert (d <> p) by (intro; subst; rewrite Nat.eqb_refl in N; discriminate N).
  exists (if Nat.eqb (turn3 p 2) d then 1%nat else 2%nat). destruct p as [|[|[|]]], d as [|[|[|]]]; try lia; cbn; (split; [lia|]); (split; [reflexivity|lia]).
Qed.
Lemma turn_case spl lin ip (el : bool) p P G fields axes pre result r i s : linear_spline spl -> ip <> ILinear -> (p < 3)%nat -> (i = 1 \/ i = 2)%nat -> length axes = pl_nd P -> nth_error s result = Some r -> lives_on r (pl_nd P) (pl_at P) ->
  (forall key, In key (tl (needed el p (pl_nd P))) -> exists a f, dget fields key = Some a /\ nth_error s a = Some f /\ (0 < pl_nd (G key))%nat /\ lives_on f (pl_nd (G key)) (pl_at (G key)) /\ (ip = IFourier -> origins_known f)) ->
  exists s' (b : bool), other_field spl lin ip (if negb el then "E" else "B")%char fields (Z.of_nat p) (a_shape (rf_data r)) axes pre (map (fun a => u_x0 (pl_at P a)) (seq 0 (pl_nd P))) (map (fun a => INR (u_n (pl_at P a) - 1) * u_dx (pl_at P a)) (seq 0 (pl_nd P))) (map (fun a => u_dx (pl_at P a)) (seq 0 (pl_nd P))) result (Z.of_nat i) s
    = (s', if b then Ok tt else Err ValueError) /\ (b = true <-> ((turn3 p (3 - i) < pl_nd P)%nat -> fits ip P (G (comp (negb el) (turn3 p i))))).
Proof.
  intros Sp Ip Hp Hi La Hr Lr H. destruct (turn_mod p i Hi) as [M1 M2]. destruct (Nat.lt_ge_cases (turn3 p (3 - i)) (pl_nd P)) as [L|L].
  - destruct (H _ (needed_third el p (pl_nd P) i Hp Hi L)) as (a & f & Ha & Hf & Pq & Lf & Or).
    assert (Ck := check_fits ip r f P _ Ip Lr Lf).
    edestruct (other_case spl lin ip (if negb el then "E" else "B")%char fields (Z.of_nat p) axes pre P (G (comp (negb el) (turn3 p i))) result (Z.of_nat i) s r (comp (negb el) (turn3 p i)) a f) as (s' & E); try eassumption.
    + intros c Lc. apply (lives_proper r _ _ Lr c Lc).
    + rewrite M1. apply key_comp; [apply turn_lt|reflexivity].
    + rewrite M2, La. lia.
    + destruct (check _ _ _ _ _); [|reflexivity]. symmetry. exact (proj1 (proj1 Ck eq_refl)).
    + exists s', (check ip (a_shape (rf_data r)) (a_shape (rf_data f)) P (G (comp (negb el) (turn3 p i)))). split; [exact E|]. tauto.
  - exists s, true. split; [|split; [intros _ L2; lia|reflexivity]]. unfold other_field. rewrite M2. destruct (Z.ltb_spec (Z.of_nat (turn3 p (3 - i))) (Z.of_nat (length axes))); [lia|]. reflexivity.
Qed.
Lemma kspace_case spl lin omega ip el p P G fields s : linear_spline spl -> ip <> ILinear -> (p < 3)%nat -> (0 < pl_nd P <= 3)%nat -> distinct fields s -> placed ip el p P G fields s ->
  exists s' a' (b : bool), kspace spl lin None omega ip (comp el p) fields s = (s', if b then Ok a' else Err ValueError) /\ (b = true <-> forall key, In key (tl (needed el p (pl_nd P))) -> fits ip P (G key)).
Proof.
  intros Sp Ip Hp [Pn P3] [Di Ex] ((a & f & Ha & Hf & Lf) & H). rewrite kspace_unfold by exact Hp. cbv zeta. rewrite Ha. set (nd := pl_nd P) in *. set (W := pl_at P) in *.
  assert (Wf := lives_wf f nd W Pn Lf). destruct (ensure_lives spl f nd W Sp Pn Lf) as (F & EF & LF & AF & ShF & _). destruct (ensure_at_ok spl true a f s Sp Wf Hf) as (s1 & a1 & E1). destruct (ensure_at_value spl true a f s s1 a1 Hf E1) as (F' & EF' & H1 & Cs). rewrite EF in EF'. injection EF' as <-.
  destruct (tame_ensure (length s) (fun _ => False) spl true a _ _ _ (le_n _) E1) as (Len1 & Fr1 & _).
  assert (Far : forall key b, In key (tl (needed el p nd)) -> dget fields key = Some b -> (b < length s)%nat /\ b <> a1).
  { intros key b Hk Hb. assert (Lb := Ex _ _ Hb). split; [exact Lb|]. intro. subst b. destruct Cs as [(_ & -> & _)|(_ & ->)]; [|lia].
    specialize (Di _ _ _ Ha Hb). subst key. unfold needed in Hk. cbn [tl] in Hk. apply in_map_iff in Hk as (d & D & _). destruct el, p as [|[|[|]]], (3 - _ - d)%nat as [|[|?]]; discriminate D. }
  unfold sbind at 1. rewrite E1. unfold sbind at 1, load at 1. rewrite H1.
  assert (PW : forall a, (a < nd)%nat -> proper (W a)) by (intros c L; apply (lives_proper f nd W Lf c L)). destruct (grids_data nd W PW) as (D1 & D2 & D3). cbv zeta in D1, D2, D3.
  do 4 (unfold sbind at 1, lift at 1). rewrite (lives_grids F nd W Pn LF AF), D1, D2, D3.
  assert (L1 : (a1 < length s1)%nat) by (apply nth_error_Some; congruence). assert (LaF : length (rf_axes F) = nd) by (destruct LF as (CF & NF & _); rewrite (c_axes F CF); exact NF).
  destruct (turn_case spl lin ip el p P G fields (rf_axes F) (prefactor el omega (rf_axes F)) a1 F 1 s1 Sp Ip Hp (or_introl eq_refl) LaF H1 LF) as (s2 & b1 & T1 & B1).
  { intros key Hk. destruct (H key Hk) as (b & g & Hb & Hg & R). exists b, g. split; [exact Hb|]. split; [|exact R]. destruct (Far key b Hk Hb). rewrite Fr1; auto. }
  fold nd in T1, B1. fold W in T1. change (Z.of_nat 1) with 1%Z in T1. unfold sbind at 1. rewrite T1.
  destruct b1.
  2: { exists s2, a1, false. split; [reflexivity|]. split; [discriminate|]. intro Fi. exfalso. assert (X : false = true) by (apply B1; intro L; apply Fi, (needed_third el p nd 1 Hp (or_introl eq_refl) L)). discriminate X. }
  destruct (tame_other (length s1) (fun a => a = a1) spl lin ip _ fields _ _ _ _ _ _ _ a1 _ (or_intror eq_refl) _ _ _ (le_n _) T1) as (Len2 & Fr2 & _).
  assert (Wfo : forall b g, dget fields (comp (negb el) (turn3 p 1)) = Some b -> nth_error s1 b = Some g -> (turn3 p 2 < nd)%nat -> wellformed g).
  { intros b g Hb Hg L. assert (Hk := needed_third el p nd 1 Hp (or_introl eq_refl) L). destruct (H _ Hk) as (b' & g' & Hb' & Hg' & Pg & Lg & _). destruct (Far _ _ Hk Hb). rewrite Hb in Hb'. injection Hb' as <-. rewrite Fr1 in Hg by auto. rewrite Hg' in Hg. injection Hg as <-. exact (lives_wf _ _ _ Pg Lg). }
  assert (H2 : exists r, nth_error s2 a1 = Some r /\ lives_on r nd W /\ a_shape (rf_data r) = a_shape (rf_data F)).
  { destruct (Nat.lt_ge_cases (turn3 p 2) nd) as [L|L].
    - apply (turn_value spl lin ip el fields p _ _ _ _ _ _ a1 1) in T1; [|exact Sp|exact Ip|exact L1|now left|intros b g Hb Hg; exact (Wfo b g Hb Hg L)].
      destruct T1 as (r0 & r & R0 & R & X1 & X2 & X3 & X4 & _). rewrite H1 in R0. injection R0 as <-. exists r. split; [exact R|]. split; [|exact X4].
      destruct LF as ([A1 A2 A3 A4] & NF & B & U & Gu & HW). assert (Nr : ndim r = ndim F) by (unfold ndim; now rewrite X4).
      split; [split; rewrite ?Nr, ?X1, ?X2, ?X3; assumption|]. split; [congruence|]. exists B, U. split; [intros c Ic; destruct (Gu c Ic) as (ax & Q1 & Q2 & Q3); exists ax; rewrite X1, X4; auto|]. intros c Lc. rewrite X2, X3. now apply HW.
    - unfold other_field in T1. destruct (turn_mod p 1 (or_introl eq_refl)) as [_ M2]. change (Z.of_nat 1) with 1%Z in M2. rewrite M2 in T1. change (3 - 1)%nat with 2%nat in T1. destruct (Z.ltb_spec (Z.of_nat (turn3 p 2)) (Z.of_nat (length (rf_axes F)))); [lia|]. injection T1 as <-. exists F. auto. }
  destruct H2 as (r & H2 & Lr & Shr). rewrite <- Shr.
  destruct (turn_case spl lin ip el p P G fields (rf_axes F) (prefactor el omega (rf_axes F)) a1 r 2 s2 Sp Ip Hp (or_intror eq_refl) LaF H2 Lr) as (s3 & b2 & T2 & B2).
  { intros key Hk. destruct (H key Hk) as (b & g & Hb & Hg & R). exists b, g. split; [exact Hb|]. split; [|exact R]. destruct (Far key b Hk Hb). rewrite Fr2, Fr1; auto; lia. }
  fold nd in T2, B2. fold W in T2. change (Z.of_nat 2) with 2%Z in T2. unfold sbind at 1. rewrite T2. exists s3, a1, b2. split; [destruct b2; reflexivity|]. split.
  - intros E2 key Hk. destruct (needed_inv el p nd key Hp P3 Hk) as (i & [-> | ->] & -> & L); [exact (proj1 B1 eq_refl L)|exact (proj1 B2 E2 L)].
  - intro Fi. apply B2. intro L. apply Fi, (needed_third el p nd 2 Hp (or_intror eq_refl) L).
Qed.
Lemma kspace_decides spl lin omega ip el p P G fields s : linear_spline spl -> ip <> ILinear -> (p < 3)%nat -> (0 < pl_nd P <= 3)%nat -> distinct fields s -> placed ip el p P G fields s ->
  let fit := forall key, In key (tl (needed el p (pl_nd P))) -> fits ip P (G key) in
  (fit -> exists s' a', kspace spl lin None omega ip (comp el p) fields s = (s', Ok a')) /\ (~ fit -> exists s', kspace spl lin None omega ip (comp el p) fields s = (s', Err ValueError)).
Proof.
  intros Sp Ip Hp Hn D Pl fit. destruct (kspace_case spl lin omega ip el p P G fields s Sp Ip Hp Hn D Pl) as (s' & a' & b & E & B). rewrite E. fold fit in B. split; intro F.
  - exists s', a'. now rewrite (proj2 B F).
  - exists s'. destruct b; [destruct F; now apply B|reflexivity].
Qed.
