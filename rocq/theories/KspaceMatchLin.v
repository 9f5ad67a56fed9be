(** Which fields kspace accepts with linear interpolation (C88). *)
From Coq Require Import Reals String Ascii List ZArith Lia Lra Bool.
From Verif Require Import PyBase PyBaseFacts NumpyModel NdModel NdFacts FieldModel CplxModel CplxFacts FftModel FftSpec FftAxes FftKernel FftFacts FftLaws FftMore FftShift UnstagFacts KspaceModel KspaceSpec KspaceFrame KspaceFacts KspaceTotal KspaceLinSpec KspaceMatchSpec KspaceMatch KspacePartSpec.
Import ListNotations.
Local Open Scope R_scope.

Lemma other_linear spl lin other fields pol axes pre P Q result i s r key a f : linear_spline spl -> (0 < pl_nd Q)%nat -> (forall a, (a < pl_nd P)%nat -> proper (pl_at P a)) -> lives_on r (pl_nd P) (pl_at P) ->
  nth_error s result = Some r -> field_key other ((pol + i) mod 3) = Some key -> dget fields key = Some a -> nth_error s a = Some f -> lives_on f (pl_nd Q) (pl_at Q) -> (fits ILinear P Q -> exists H, moved_spectrum spl lin (pl_nd P) (pl_at P) (pl_at Q) f H) ->
  ((pol - i) mod 3 < Z.of_nat (length axes))%Z ->
  exists s' (b : bool), other_field spl lin ILinear other fields pol (a_shape (rf_data r)) axes pre (map (fun a => u_x0 (pl_at P a)) (seq 0 (pl_nd P))) (map (fun a => INR (u_n (pl_at P a) - 1) * u_dx (pl_at P a)) (seq 0 (pl_nd P))) (map (fun a => u_dx (pl_at P a)) (seq 0 (pl_nd P))) result i s =
    (s', if b then Ok tt else Err ValueError) /\ (b = true <-> fits ILinear P Q) /\
    (b = true -> exists r', nth_error s' result = Some r' /\ rf_axes r' = rf_axes r /\ rf_ats r' = rf_ats r /\ rf_tao r' = rf_tao r /\ a_shape (rf_data r') = a_shape (rf_data r)).
Proof.
  intros Sp Pn PW LiveR Hr Hk Ha Hf Lf0 Mo0 Lt. assert (Lm := proj2 (Z.ltb_lt _ _) Lt).
  destruct (other_checked spl lin ILinear pol (a_shape (rf_data r)) axes pre (map (fun a => u_x0 (pl_at P a)) (seq 0 (pl_nd P))) (map (fun a => INR (u_n (pl_at P a) - 1) * u_dx (pl_at P a)) (seq 0 (pl_nd P))) (map (fun a => u_dx (pl_at P a)) (seq 0 (pl_nd P))) result i (pl_nd Q) (pl_at Q) other fields key a f s Sp Pn Lf0 Lm Hk Ha Hf)
    as (s1 & b & g0 & st & -> & H1 & Lb & Old & Lf & A & Shg & Kn & Ens).
  assert (Lr : (result < b)%nat) by (assert (result < length s)%nat by (apply nth_error_Some; congruence); lia). assert (Ls1 : (b < length s1)%nat) by (apply nth_error_Some; congruence).
  assert (Hr1 : nth_error s1 result = Some r) by (rewrite Old; [exact Hr|apply nth_error_Some; congruence]).
  assert (Mo : fits ILinear P Q -> exists H, moved_spectrum spl lin (pl_nd P) (pl_at P) (pl_at Q) g0 H).
  { intro Fi. destruct (Mo0 Fi) as (H & g & h & Eg & R). exists H, g, h. split; [|exact R]. destruct Ens as [->|Ens]; [exact Eg|]; cbn [aims] in Ens; assert (g0 = g) by congruence; subst g0; exact (ensure_again spl f g false Sp (lives_wf f _ _ Pn Lf0) Eg). }
  clear Kn Ens Shg Old Hr Hf Lf0 Mo0 a Ha s Lb. clear f. rename g0 into f.
  assert (CF : check IFourier (a_shape (rf_data r)) (a_shape (rf_data f)) P Q = true <-> fits IFourier P Q) by (apply check_fits; [discriminate|exact LiveR|exact Lf]).
  change (check IFourier (a_shape (rf_data r)) (a_shape (rf_data f)) P Q = true <-> fits ILinear P Q) in CF.
  assert (Wf := lives_wf f _ _ Pn Lf). set (nd := pl_nd Q) in *. set (V := pl_at Q) in *.
  destruct (lives_whole st f nd V Lf A) as (C & Nd & U & Gd & HV). assert (Ug : on_grid f (seq 0 (ndim f)) U) by now rewrite Nd.
  assert (Rs : rstate (rf_ats f) (all_dims f) = Ok (Some st)) by (rewrite (all_dims_grid f U Ug); apply rstate_nat; [rewrite Nd; destruct nd; [lia|discriminate]|exact A]).
  unfold checked, load, alloc. unfold sbind at 1. rewrite H1. unfold sbind at 1, lift at 1. rewrite Rs.
  assert (Gs : (match st with true => spatial_grids f | false => Ok (map ra_grid (rf_axes f)) end) = Ok (map (fun a => grid_of (V a)) (seq 0 nd))).
  { destruct st; [now apply lives_grids|]. f_equal. apply nth_error_eq. intro c. rewrite !nth_error_map'. destruct (Nat.lt_ge_cases c nd) as [L|L].
    - destruct (Gd c) as (ax & Ea & (Eg & _) & _); [apply in_seq; lia|]. rewrite Ea. rewrite (nth_error_nth' _ 0%nat) by (rewrite seq_length; lia). rewrite seq_nth by lia. cbn [option_map plus]. now rewrite Eg, HV.
    - rewrite !(proj2 (nth_error_None _ _)); [reflexivity|rewrite seq_length; lia|rewrite (c_axes f C); lia]. }
  assert (PV : forall a, (a < nd)%nat -> proper (V a)) by (intros c L; apply (lives_proper f nd V Lf c L)). destruct (grids_data nd V PV) as (D1 & D2 & _). cbv zeta in D1, D2.
  unfold sbind at 1, lift at 1. replace (match st with true => spatial_grids f | false => Ok (map ra_grid (rf_axes f)) end) with (Ok (map (fun a => grid_of (V a)) (seq 0 nd))) by (symmetry; exact Gs).
  unfold sbind at 1, lift at 1. rewrite D1. unfold sbind at 1, lift at 1. rewrite D2.
  destruct (check IFourier (a_shape (rf_data r)) (a_shape (rf_data f)) P Q) eqn:Ck; unfold check in Ck; fold V in Ck; fold nd in Ck.
  2: { cbv zeta. assert (NF : ~ fits ILinear P Q) by (intro F; apply CF in F; discriminate F). assert (Fin : forall s' : store, exists s'0 (b0 : bool), (s', Err ValueError) = (s'0, if b0 then Ok tt else Err ValueError) /\ (b0 = true <-> fits ILinear P Q) /\
      (b0 = true -> exists r', nth_error s'0 result = Some r' /\ rf_axes r' = rf_axes r /\ rf_ats r' = rf_ats r /\ rf_tao r' = rf_tao r /\ a_shape (rf_data r') = a_shape (rf_data r))).
    { intro s'. exists s', false. split; [reflexivity|]. split; [split; [discriminate|tauto]|discriminate]. }
    apply andb_false_iff in Ck as [Ck|Ck].
    - destruct (list_eq_dec Z.eq_dec (a_shape (rf_data f)) (a_shape (rf_data r))); [|apply Fin]. cbn [andb] in Ck. cbn [negb]. rewrite Ck. apply Fin.
    - rewrite Ck. destruct (list_eq_dec Z.eq_dec (a_shape (rf_data f)) (a_shape (rf_data r))); [|apply Fin]. cbn [negb].
      match goal with |- context [if negb ?c then _ else _] => destruct c; apply Fin end. }
  cbv zeta. apply andb_true_iff in Ck as [Ck C3]. apply andb_true_iff in Ck as [C1 C2]. rewrite C3, C2. destruct (list_eq_dec Z.eq_dec (a_shape (rf_data f)) (a_shape (rf_data r))); [|discriminate C1]. cbn [negb].
  assert (Fi : fits ILinear P Q) by now apply CF. destruct (Mo Fi) as (H & g & h & Eg & Eh & Wh & EH). assert (Nq : nd = pl_nd P) by exact (proj1 Fi).
  set (shift := combine (zrange _) _). assert (Es : shift = distance (pl_nd P) (pl_at P) V).
  { unfold shift, distance. rewrite map_length, seq_length, Nq, map2_map. unfold zrange. rewrite Nat2Z.id. now rewrite combine_map. }
  clearbody shift. subst shift.
  destruct (ensure_at_ok spl false b f s1 Sp Wf H1) as (s2 & b2 & E2). destruct (ensure_at_value spl false b f s1 s2 b2 H1 E2) as (g' & Eg' & H2 & Cs). rewrite Eg in Eg'. injection Eg' as <-.
  unfold sbind at 1. unfold sbind at 1. rewrite E2. unfold sbind at 1. rewrite H2. unfold sbind at 1, lift at 1. rewrite Eh.
  assert (Hr2 : nth_error s2 result = Some r) by (destruct Cs as [(-> & _)|(-> & _)]; [exact Hr1|rewrite nth_app_old by lia; exact Hr1]). assert (Lr2 : (result < length s2)%nat) by (apply nth_error_Some; congruence). clear Cs.
  assert (H3 : nth_error (s2 ++ [h]) (length s2) = Some h) by now rewrite nth_error_app2, Nat.sub_diag by lia.
  assert (Hr3 : nth_error (s2 ++ [h]) result = Some r) by (rewrite nth_app_old; assumption).
  destruct (ensure_at_ok spl true (length s2) h (s2 ++ [h]) Sp Wh H3) as (s4 & b4 & E4). destruct (ensure_at_value spl true _ h _ s4 b4 H3 E4) as (H' & EH' & H4 & Cs). rewrite EH in EH'. injection EH' as <-.
  unfold sbind at 1. rewrite E4. assert (Hr4 : nth_error s4 result = Some r) by (destruct Cs as [(-> & _)|(-> & _)]; [exact Hr3|rewrite nth_app_old by (rewrite app_length; cbn; lia); exact Hr3]).
  unfold sbind at 1, sret at 1. unfold sbind at 1. rewrite H4. unfold sbind at 1. rewrite Hr4. eexists. exists true. split; [reflexivity|]. split; [tauto|]. intros _. eexists.
  rewrite nth_error_upd, Nat.eqb_refl. assert (L4 : (result < length s4)%nat) by (apply nth_error_Some; congruence). destruct (Nat.ltb_spec result (length s4)); [|lia]. split; [reflexivity|]. repeat split; reflexivity.
Qed.
Lemma turn_linear_case spl lin (el : bool) p P G fields axes pre result r i s : linear_spline spl -> (p < 3)%nat -> (i = 1 \/ i = 2)%nat -> length axes = pl_nd P -> nth_error s result = Some r -> lives_on r (pl_nd P) (pl_at P) ->
  (forall key, In key (tl (needed el p (pl_nd P))) -> exists a f, dget fields key = Some a /\ nth_error s a = Some f /\ (0 < pl_nd (G key))%nat /\ lives_on f (pl_nd (G key)) (pl_at (G key)) /\ (fits ILinear P (G key) -> exists H, moved_spectrum spl lin (pl_nd P) (pl_at P) (pl_at (G key)) f H)) ->
  exists s' (b : bool), other_field spl lin ILinear (if negb el then "E" else "B")%char fields (Z.of_nat p) (a_shape (rf_data r)) axes pre (map (fun a => u_x0 (pl_at P a)) (seq 0 (pl_nd P))) (map (fun a => INR (u_n (pl_at P a) - 1) * u_dx (pl_at P a)) (seq 0 (pl_nd P))) (map (fun a => u_dx (pl_at P a)) (seq 0 (pl_nd P))) result (Z.of_nat i) s
    = (s', if b then Ok tt else Err ValueError) /\ (b = true <-> ((turn3 p (3 - i) < pl_nd P)%nat -> fits ILinear P (G (comp (negb el) (turn3 p i))))) /\
    (b = true -> exists r', nth_error s' result = Some r' /\ rf_axes r' = rf_axes r /\ rf_ats r' = rf_ats r /\ rf_tao r' = rf_tao r /\ a_shape (rf_data r') = a_shape (rf_data r)).
Proof.
  intros Sp Hp Hi La Hr Lr H. destruct (turn_mod p i Hi) as [M1 M2]. destruct (Nat.lt_ge_cases (turn3 p (3 - i)) (pl_nd P)) as [L|L].
  - destruct (H _ (needed_third el p (pl_nd P) i Hp Hi L)) as (a & f & Ha & Hf & Pq & Lf & Mo).
    destruct (other_linear spl lin (if negb el then "E" else "B")%char fields (Z.of_nat p) axes pre P (G (comp (negb el) (turn3 p i))) result (Z.of_nat i) s r (comp (negb el) (turn3 p i)) a f) as (s' & b & E & B & R); try assumption.
    + intros c Lc. apply (lives_proper r _ _ Lr c Lc).
    + rewrite M1. apply key_comp; [apply turn_lt|reflexivity].
    + rewrite M2, La. lia.
    + exists s', b. split; [exact E|]. split; [tauto|exact R].
  - exists s, true. split; [|split; [split; [intros _ L2; lia|reflexivity]|intros _; exists r; auto]]. unfold other_field. rewrite M2. destruct (Z.ltb_spec (Z.of_nat (turn3 p (3 - i))) (Z.of_nat (length axes))); [lia|]. reflexivity.
Qed.
Lemma kspace_linear_case spl lin omega el p P G fields s : linear_spline spl -> (p < 3)%nat -> (0 < pl_nd P <= 3)%nat -> distinct fields s -> placed ILinear el p P G fields s -> movable spl lin el p P G fields s ->
  exists s' a' (b : bool), kspace spl lin None omega ILinear (comp el p) fields s = (s', if b then Ok a' else Err ValueError) /\ (b = true <-> forall key, In key (tl (needed el p (pl_nd P))) -> fits ILinear P (G key)).
Proof.
  intros Sp Hp [Pn P3] [Di Ex] ((a & f & Ha & Hf & Lf) & H0) Mv. rewrite kspace_unfold by exact Hp. cbv zeta. rewrite Ha. set (nd := pl_nd P) in *. set (W := pl_at P) in *.
  assert (H : forall key, In key (tl (needed el p nd)) -> exists a f, dget fields key = Some a /\ nth_error s a = Some f /\ (0 < pl_nd (G key))%nat /\ lives_on f (pl_nd (G key)) (pl_at (G key)) /\ (fits ILinear P (G key) -> exists H, moved_spectrum spl lin nd W (pl_at (G key)) f H)).
  { intros key Hk. destruct (H0 key Hk) as (b & g & Hb & Hg & Pg & Lg & _). exists b, g. do 4 (split; [assumption|]). exact (Mv key b g Hk Hb Hg). }
  assert (Wf := lives_wf f nd W Pn Lf). destruct (ensure_lives spl f nd W Sp Pn Lf) as (F & EF & LF & AF & ShF & _). destruct (ensure_at_ok spl true a f s Sp Wf Hf) as (s1 & a1 & E1). destruct (ensure_at_value spl true a f s s1 a1 Hf E1) as (F' & EF' & H1 & Cs). rewrite EF in EF'. injection EF' as <-.
  destruct (tame_ensure (length s) (fun _ => False) spl true a _ _ _ (le_n _) E1) as (Len1 & Fr1 & _).
  assert (Far : forall key b, In key (tl (needed el p nd)) -> dget fields key = Some b -> (b < length s)%nat /\ b <> a1).
  { intros key b Hk Hb. assert (Lb := Ex _ _ Hb). split; [exact Lb|]. intro. subst b. destruct Cs as [(_ & -> & _)|(_ & ->)]; [|lia].
    specialize (Di _ _ _ Ha Hb). subst key. unfold needed in Hk. cbn [tl] in Hk. apply in_map_iff in Hk as (d & D & _). destruct el, p as [|[|[|]]], (3 - _ - d)%nat as [|[|?]]; discriminate D. }
  unfold sbind at 1. rewrite E1. unfold sbind at 1, load at 1. rewrite H1.
  assert (PW : forall a, (a < nd)%nat -> proper (W a)) by (intros c L; apply (lives_proper f nd W Lf c L)). destruct (grids_data nd W PW) as (D1 & D2 & D3). cbv zeta in D1, D2, D3.
  do 4 (unfold sbind at 1, lift at 1). rewrite (lives_grids F nd W Pn LF AF), D1, D2, D3.
  assert (L1 : (a1 < length s1)%nat) by (apply nth_error_Some; congruence). assert (LaF : length (rf_axes F) = nd) by (destruct LF as (CF & NF & _); rewrite (c_axes F CF); exact NF).
  destruct (turn_linear_case spl lin el p P G fields (rf_axes F) (prefactor el omega (rf_axes F)) a1 F 1 s1 Sp Hp (or_introl eq_refl) LaF H1 LF) as (s2 & b1 & T1 & B1 & R1).
  { intros key Hk. destruct (H key Hk) as (b & g & Hb & Hg & R). exists b, g. split; [exact Hb|]. split; [|exact R]. destruct (Far key b Hk Hb). rewrite Fr1; auto. }
  fold nd in T1, B1. fold W in T1. change (Z.of_nat 1) with 1%Z in T1. unfold sbind at 1. rewrite T1.
  destruct b1.
  2: { exists s2, a1, false. split; [reflexivity|]. split; [discriminate|]. intro Fi. exfalso. assert (X : false = true) by (apply B1; intro L; apply Fi, (needed_third el p nd 1 Hp (or_introl eq_refl) L)). discriminate X. }
  destruct (tame_other (length s1) (fun a => a = a1) spl lin ILinear _ fields _ _ _ _ _ _ _ a1 _ (or_intror eq_refl) _ _ _ (le_n _) T1) as (Len2 & Fr2 & _).
  destruct (R1 eq_refl) as (r & H2 & X1 & X2 & X3 & X4).
  assert (Lr : lives_on r nd W).
  { destruct LF as ([A1 A2 A3 A4] & NF & B & U & Gu & HW). assert (Nr : ndim r = ndim F) by (unfold ndim; now rewrite X4).
    split; [split; rewrite ?Nr, ?X1, ?X2, ?X3; assumption|]. split; [congruence|]. exists B, U. split; [intros c Ic; destruct (Gu c Ic) as (ax & Q1 & Q2 & Q3); exists ax; rewrite X1, X4; auto|]. intros c Lc. rewrite X2, X3. now apply HW. }
  rewrite <- X4.
  destruct (turn_linear_case spl lin el p P G fields (rf_axes F) (prefactor el omega (rf_axes F)) a1 r 2 s2 Sp Hp (or_intror eq_refl) LaF H2 Lr) as (s3 & b2 & T2 & B2 & _).
  { intros key Hk. destruct (H key Hk) as (b & g & Hb & Hg & R). exists b, g. split; [exact Hb|]. split; [|exact R]. destruct (Far key b Hk Hb). rewrite Fr2, Fr1; auto; lia. }
  fold nd in T2, B2. fold W in T2. change (Z.of_nat 2) with 2%Z in T2. unfold sbind at 1. rewrite T2. exists s3, a1, b2. split; [destruct b2; reflexivity|]. split.
  - intros E2 key Hk. destruct (needed_inv el p nd key Hp P3 Hk) as (i & [-> | ->] & -> & L); [exact (proj1 B1 eq_refl L)|exact (proj1 B2 E2 L)].
  - intro Fi. apply B2. intro L. apply Fi, (needed_third el p nd 2 Hp (or_intror eq_refl) L).
Qed.
Lemma linear_decides spl lin omega el p P G fields s : linear_spline spl -> (p < 3)%nat -> (0 < pl_nd P <= 3)%nat -> distinct fields s -> placed ILinear el p P G fields s -> movable spl lin el p P G fields s ->
  let fit := forall key, In key (tl (needed el p (pl_nd P))) -> fits ILinear P (G key) in
  (fit -> exists s' a', kspace spl lin None omega ILinear (comp el p) fields s = (s', Ok a')) /\ (~ fit -> exists s', kspace spl lin None omega ILinear (comp el p) fields s = (s', Err ValueError)).
Proof.
  intros Sp Hp Hn D Pl Mv fit. destruct (kspace_linear_case spl lin omega el p P G fields s Sp Hp Hn D Pl Mv) as (s' & a' & b & E & B). rewrite E. fold fit in B. split; intro F.
  - exists s', a'. now rewrite (proj2 B F).
  - exists s'. destruct b; [destruct F; now apply B|reflexivity].
Qed.
