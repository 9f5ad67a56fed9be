(** Lemmas on kspace_epoch_like_old. *)
From Coq Require Import Reals String Ascii List ZArith Lia Lra Bool.
From Verif Require Import PyBase PyBaseFacts NumpyModel NdModel NdFacts FieldModel CplxModel CplxFacts FftModel FftSpec FftAxes FftKernel FftFacts FftLaws FftMore FftShift FftDemo KspaceModel KspaceSpec KspaceFrame KspaceFacts KspaceTotal KspaceDemo KspaceWave KspaceEpoch KspaceCutSpec KspaceCut KspaceLinSpec KspaceLin KspaceEpochCut EpochOldModel EpochOldSpec.
Import ListNotations.
Local Open Scope R_scope.

Lemma dset_distinct fields s k f g : distinct fields s -> distinct (dset fields k (S (length s))) (s ++ [f; g]).
Proof.
  intros [D B]. split.
  - intros i j a H1 H2. destruct (string_dec i k) as [->|Ni], (string_dec j k) as [->|Nj]; rewrite ?dset_get, ?dset_other in * by assumption; [reflexivity| | |exact (D i j a H1 H2)].
    + injection H1 as <-. apply B in H2. lia.
    + injection H2 as <-. apply B in H1. lia.
  - intros i a H. rewrite app_length. cbn. destruct (string_dec i k) as [->|Ni]; [rewrite dset_get in H; injection H as <-; lia|rewrite dset_other in H by exact Ni; apply B in H; lia].
Qed.
Section Facts.
Variables (spl : rspline) (lin : rfield -> list (Z * R) -> res rfield).
Notation old cut := (kspace_epoch_like_old spl lin cut).

Lemma letter_shape el p : (p < 3)%nat -> exists ax, comp el p = String (letter el) (String ax "") /\ axis_letter ax = Ok (Z.of_nat p).
Proof. intro Hp. destruct (comp_shape el p Hp) as (ax & E & A & _). exists ax. split; [destruct el; exact E|exact A]. Qed.
Lemma old_aligned cut omega el p fields s : (p < 3)%nat ->
  old cut omega (letter el) (comp el p) fields s = let (s', r) := kspace spl lin cut omega ILinear (comp el p) fields s in (s', (fields, r)).
Proof.
  intro Hp. destruct (letter_shape el p Hp) as (ax & E & Ax). unfold kspace_epoch_like_old. rewrite E. rewrite <- E. rewrite Ax. destruct (cut_fields spl cut (comp el p) fields s) as [s1 [d|e]] eqn:Ec.
  - rewrite Ascii.eqb_refl. destruct cut as [ct|]; [|now injection Ec as <- <-]. now rewrite (kspace_split spl lin ct omega ILinear el p fields s s1 d Hp Ec).
  - unfold kspace. rewrite E. rewrite <- E. unfold sbind at 1. now rewrite Ec.
Qed.
Lemma not_letter el al : al <> letter el -> Ascii.eqb (letter el) al = false.
Proof. intro N. apply Ascii.eqb_neq. congruence. Qed.
(** what is left of the dictionary *)
Lemma old_names cut omega al el p fields s s' d' r : (p < 3)%nat -> old cut omega al (comp el p) fields s = (s', (d', r)) ->
  (cut <> None \/ al = letter el -> d' = fields) /\ forall key, key <> comp el p -> dget d' key = dget fields key.
Proof.
  intros Hp. destruct (ascii_dec al (letter el)) as [->|N].
  - rewrite old_aligned by exact Hp. destruct (kspace _ _ _ _ _ _ _ s) as [s1 r1]. intros [= <- <- <-]. auto.
  - destruct (letter_shape el p Hp) as (ax & E & Ax). unfold kspace_epoch_like_old. rewrite E. rewrite <- E. rewrite Ax, (not_letter _ _ N). destruct (cut_fields spl cut (comp el p) fields s) as [s1 [here|e]] eqn:Ec; [|intros [= <- <- <-]; auto].
    destruct (dget here (comp el p)) as [m|] eqn:Hm; [|intros [= <- <- <-]; auto].
    destruct (sbind (load m) _ s1) as [s2 [dx|e]]; [|intros [= <- <- <-]; auto].
    destruct (deepcopy m s2) as [s3 [m1|e]]; [|intros [= <- <- <-]; auto].
    destruct (sbind (load m1) _ s3) as [s4 [m2|e]].
    + destruct (kspace _ _ _ _ _ _ _ s4) as [s5 r5]. intros [= <- <- <-]. destruct cut as [ct|]; [auto|]. cbn in Ec. injection Ec as <- <-. split; [intros [K|K]; congruence|].
      intros key Nk. now rewrite !dset_other.
    + intros [= <- <- <-]. destruct cut as [ct|]; [auto|]. cbn in Ec. injection Ec as <- <-. split; [intros [K|K]; congruence|]. intros key Nk. now rewrite !dset_other.
Qed.
Lemma keeps_in (s s1 s' : store) : (forall a f, nth_error s a = Some f -> nth_error s1 a = Some f) -> forall X, unchanged_except X s1 s' -> (forall a, (a < length s)%nat -> X a -> False) -> forall a f, nth_error s a = Some f -> nth_error s' a = Some f.
Proof. intros H X U N a f Hf. apply (U a f (H a f Hf)). intro Xa. apply (N a); [|exact Xa]. apply nth_error_Some. congruence. Qed.
Lemma old_keeps cut omega al el p fields s s' d' r : (p < 3)%nat -> old cut omega al (comp el p) fields s = (s', (d', r)) ->
  unchanged_except (fun a => cut = None /\ al = letter el /\ dget fields (comp el p) = Some a /\ exists f, nth_error s a = Some f /\ in_domain f true = Ok true) s s'.
Proof.
  intros Hp E a0 f0 H0 HX. destruct (ascii_dec al (letter el)) as [->|N].
  - rewrite old_aligned in E by exact Hp. destruct (kspace _ _ _ _ _ _ _ s) as [s1 r1] eqn:Ek. injection E as <- <- <-. apply (kspace_frame _ _ _ _ _ _ _ _ _ _ Ek a0 f0 H0).
    intros (pol & ax & rest & q & key & g & Ec & Hc & Ax & Eky & Hd & Hg & D). apply HX.
    destruct (comp_shape el p Hp) as (ax' & Ec' & Ax' & Ek'). rewrite Ec in Ec'. injection Ec' as -> -> ->. rewrite Ax in Ax'. injection Ax' as ->. rewrite Eky in Ek'. injection Ek' as ->. split; [exact Hc|]. split; [reflexivity|]. split; [exact Hd|]. now exists g.
  - clear HX. destruct (letter_shape el p Hp) as (ax & Es & Ax). unfold kspace_epoch_like_old in E. rewrite Es in E. rewrite <- Es in E. rewrite Ax, (not_letter _ _ N) in E.
    assert (Lt : (a0 < length s)%nat) by (apply nth_error_Some; congruence).
    destruct (cut_fields spl cut (comp el p) fields s) as [s1 rc] eqn:Ec. destruct (tame_cut (length s) (fun _ => False) spl cut (comp el p) fields _ _ _ (le_n _) Ec) as (L1 & F1 & _).
    assert (K1 : nth_error s1 a0 = Some f0) by (rewrite F1; auto).
    destruct rc as [here|e]; [|injection E as <- <- <-; exact K1].
    destruct (dget here (comp el p)) as [m|] eqn:Hm; [|injection E as <- <- <-; exact K1].
    destruct (sbind (load m) _ s1) as [s2 rd] eqn:Ed. assert (s2 = s1) as -> by (unfold sbind, load, lift in Ed; destruct (nth_error s1 m); now injection Ed).
    destruct rd as [dx|e]; [|injection E as <- <- <-; exact K1].
    destruct (deepcopy m s1) as [s3 rm] eqn:Em. destruct (tame_deepcopy (length s) (fun _ => False) m _ _ _ L1 Em) as (L3 & F3 & Q3). assert (K3 : nth_error s3 a0 = Some f0) by (rewrite F3; auto).
    destruct rm as [m1|e]; [|injection E as <- <- <-; exact K3]. specialize (Q3 _ eq_refl).
    destruct (sbind (load m1) _ s3) as [s4 rl] eqn:El.
    assert (K4 : nth_error s4 a0 = Some f0 /\ forall m2, rl = Ok m2 -> (length s <= m2)%nat).
    { unfold sbind, load, lift, alloc in El. destruct (nth_error s3 m1) as [f|]; [destruct (lin f dx) as [g|]|]; injection El as <- <-; (split; [|intros m2 [= <-] || discriminate]); try exact K3.
      - rewrite nth_error_app1; [exact K3|lia].
      - lia. }
    destruct K4 as [K4 Q4]. destruct rl as [m2|e]; [|injection E as <- <- <-; exact K4]. specialize (Q4 _ eq_refl).
    destruct (kspace _ _ _ _ _ _ _ s4) as [s5 r5] eqn:Ek. injection E as <- <- <-. apply (kspace_frame _ _ _ _ _ _ _ _ _ _ Ek a0 f0 K4).
    intros (pol & ax2 & rest & q & key & g & Ec2 & Hc & Ax2 & Eky & Hd & Hg & D).
    destruct (comp_shape el p Hp) as (ax' & Ec' & Ax' & Ek'). rewrite Ec2 in Ec'. injection Ec' as -> -> ->. rewrite Ax2 in Ax'. injection Ax' as ->. rewrite Eky in Ek'. injection Ek' as ->. rewrite dset_get in Hd. injection Hd as <-. lia.
Qed.
Lemma half_cells_grid el p f U : consistent f -> on_grid f (seq 0 (ndim f)) U -> half_cells (letter el) (Z.of_nat p) f = Ok (half_cell el p (ndim f) U).
Proof.
  intros C G. unfold half_cells.
  assert (Sp : spacings (map ra_grid (rf_axes f)) = Ok (map (fun a => u_dx (U a)) (seq 0 (ndim f)))).
  { unfold spacings. rewrite <- (c_axes f C). assert (H : forall l k, (forall a ax, nth_error l a = Some ax -> ra_grid ax = grid_of (U (k + a)%nat) /\ proper (U (k + a)%nat)) ->
      mapM (fun g : list R => let! b := getidx g 1 in let! a := getidx g 0 in Ok (b - a)) (map ra_grid l) = Ok (map (fun a => u_dx (U a)) (seq k (length l)))).
    { induction l as [|ax l IH]; intros k Hl; [reflexivity|]. cbn [map length seq]. cbn [mapM]. destruct (Hl 0%nat ax eq_refl) as (Eg & P). rewrite Nat.add_0_r in *. rewrite Eg.
      destruct P as [P2 _]. assert (Nt : forall i, (i < u_n (U k))%nat -> nth_error (grid_of (U k)) i = Some (point (U k) (Z.of_nat i))).
      { intros i Li. unfold grid_of. rewrite nth_error_map. rewrite nth_error_seq_lt by exact Li. reflexivity. }
      assert (G1 := getidx_nat _ 1 _ (Nt 1%nat P2)). assert (G0 := getidx_nat _ 0 _ (Nt 0%nat ltac:(lia))). cbn in G1, G0.
      rewrite G1, G0. cbn [bind]. rewrite (IH (S k)); [|intros a ax' Ha; destruct (Hl (S a) ax' Ha) as (X & Y); rewrite Nat.add_succ_r in *; split; assumption].
      cbn [bind]. do 2 f_equal. unfold point. ring. }
    apply (H (rf_axes f) 0%nat). intros a ax Ha. assert (La : (a < ndim f)%nat) by (rewrite <- (c_axes f C); apply nth_error_Some; congruence).
    destruct (G a) as (ax' & Ha' & (X & _ & Y) & _); [apply in_seq; lia|]. rewrite Ha in Ha'. injection Ha' as <-. split; assumption. }
  rewrite Sp. cbn [bind]. f_equal. unfold half_cell, half_step. assert (Hh : map (fun v => v / 2) (map (fun a => u_dx (U a)) (seq 0 (ndim f))) = map (fun a => u_dx (U a) / 2) (seq 0 (ndim f))) by apply map_map. rewrite Hh, map_length, seq_length.
  assert (Zr : forall n, zrange (Z.of_nat n) = map Z.of_nat (seq 0 n)) by (intro n; unfold zrange; rewrite Nat2Z.id; reflexivity). rewrite Zr.
  assert (Cb : forall {X Y} (g : nat -> X) (h : nat -> Y) l, combine (map g l) (map h l) = map (fun a => (g a, h a)) l) by (intros X Y g h l; induction l as [|x l IH]; cbn; [reflexivity|now rewrite IH]). rewrite Cb.
  assert (Eqz : forall a, (Z.of_nat a =? Z.of_nat p)%Z = Nat.eqb a p) by (intro a; destruct (Nat.eqb_spec a p) as [->|Ne]; [apply Z.eqb_refl|apply Z.eqb_neq; lia]).
  destruct el; cbn [letter].
  - change (Ascii.eqb "E" "B") with false. cbv iota. rewrite map_map. apply map_ext. intro a. cbn [fst snd]. now rewrite Eqz.
  - change (Ascii.eqb "B" "B") with true. cbv iota. rewrite !map_map. apply map_ext. intro a. cbn [fst snd]. rewrite Eqz. destruct (Nat.eqb a p); f_equal; field.
Qed.
(** the steps of a call which does not align *)
Lemma old_steps omega al el p fields s a f U : (p < 3)%nat -> al <> letter el -> dget fields (comp el p) = Some a -> nth_error s a = Some f -> consistent f -> on_grid f (seq 0 (ndim f)) U ->
  old None omega al (comp el p) fields s =
    match lin f (half_cell el p (ndim f) U) with
    | Err e => (s ++ [f], (dset fields (comp el p) (length s), Err e))
    | Ok g => let here := dset fields (comp el p) (S (length s)) in
              let (s', r) := kspace spl lin None omega IFourier (comp el p) here (s ++ [f; g]) in (s', (here, r))
    end.
Proof.
  intros Hp N Ha Hf C G. destruct (letter_shape el p Hp) as (ax & E & Ax). unfold kspace_epoch_like_old. rewrite E. rewrite <- E. rewrite Ax, (not_letter _ _ N). cbn [cut_fields]. unfold sret at 1. rewrite Ha.
  unfold sbind at 1, load at 1, lift at 1. rewrite Hf, (half_cells_grid _ _ _ U C G). unfold deepcopy, sbind at 1, load at 1. rewrite Hf. unfold alloc at 1.
  unfold sbind at 1, load at 1. rewrite nth_error_app2, Nat.sub_diag by lia. cbn [nth_error]. unfold sbind at 1, lift at 1. destruct (lin f _) as [g|e]; [|reflexivity]. unfold alloc at 1. rewrite <- app_assoc. cbn [app]. rewrite app_length. cbn [length]. rewrite Nat.add_1_r.
  assert (Ds : forall (d : dict) k x y, dset (dset d k x) k y = dset d k y).
  { intros d k x y. induction d as [|[j b] d IH]; cbn [dset]; [now rewrite String.eqb_refl|]. destruct (String.eqb_spec j k) as [->|Nj]; cbn [dset]; [now rewrite String.eqb_refl|]. assert (Nj' : String.eqb j k = false) by now apply String.eqb_neq. now rewrite Nj', IH. }
  rewrite Ds. reflexivity.
Qed.
Lemma old_value omega al el p fields s s' d' a' : linear_spline spl -> (p < 3)%nat -> al <> letter el -> distinct fields s -> all_wellformed fields s ->
  (forall a f U g, dget fields (comp el p) = Some a -> nth_error s a = Some f -> on_grid f (seq 0 (ndim f)) U -> lin f (half_cell el p (ndim f) U) = Ok g -> wellformed g) ->
  old None omega al (comp el p) fields s = (s', (d', Ok a')) ->
  exists a f U g G r b, dget fields (comp el p) = Some a /\ nth_error s a = Some f /\ on_grid f (seq 0 (ndim f)) U /\ lin f (half_cell el p (ndim f) U) = Ok g /\ ensure_domain spl g true = Ok G /\ nth_error s' a' = Some r /\
    rf_axes r = rf_axes G /\ rf_ats r = rf_ats G /\ rf_tao r = rf_tao G /\ a_shape (rf_data r) = a_shape (rf_data G) /\
    (forall idx, let k := wave_vector (rf_axes G) idx in
       a_at (rf_data r) idx = Csub (a_at (rf_data G) idx) (Cmul (RtoC (factor el (omega (rf_axes G) idx) k)) (cross k (fun i => spectrum spl s fields (comp (negb el) i) idx) p))) /\
    dget d' (comp el p) = Some b /\ (length s <= b)%nat /\ (in_domain g true = Ok false -> nth_error s' b = Some g).
Proof.
  intros Sp Hp N Di Wf Wl E.
  destruct (dget fields (comp el p)) as [a|] eqn:Ha.
  2: { destruct (letter_shape el p Hp) as (ax & Es & Ax). unfold kspace_epoch_like_old in E. rewrite Es in E. rewrite <- Es in E. rewrite Ax, (not_letter _ _ N) in E. cbn [cut_fields] in E. unfold sret at 1 in E. rewrite Ha in E. discriminate. }
  destruct (there_some s a (proj2 Di _ _ Ha)) as [f Hf]. destruct (Wf _ _ _ Ha Hf) as (C & (U & G0) & _). rewrite (old_steps omega al el p fields s a f U Hp N Ha Hf C G0) in E.
  destruct (lin f (half_cell el p (ndim f) U)) as [g|e] eqn:Eg; [|discriminate]. cbv zeta in E. set (here := dset fields (comp el p) (S (length s))) in *.
  destruct (kspace spl lin None omega IFourier (comp el p) here (s ++ [f; g])) as [s5 r5] eqn:Ek. injection E as <- <- ->.
  assert (Wg : wellformed g) by (eapply Wl; eauto). assert (D1 : distinct here (s ++ [f; g])) by now apply dset_distinct.
  assert (Gn : nth_error (s ++ [f; g]) (S (length s)) = Some g) by (rewrite nth_error_app2 by lia; replace (S (length s) - length s)%nat with 1%nat by lia; reflexivity).
  assert (W1 : all_wellformed here (s ++ [f; g])).
  { intros k b h Hb Hh. unfold here in Hb. destruct (string_dec k (comp el p)) as [->|Nk]; [rewrite dset_get in Hb; injection Hb as <-; rewrite Gn in Hh; now injection Hh as <-|].
    rewrite dset_other in Hb by exact Nk. assert (Lb := proj2 Di _ _ Hb). rewrite nth_error_app1 in Hh by exact Lb. exact (Wf _ _ _ Hb Hh). }
  assert (NI : IFourier <> ILinear) by discriminate.
  destruct (formula spl lin omega IFourier el p here (s ++ [f; g]) s5 a' Sp NI Hp D1 W1 Ek) as (b & g' & G & r & Hb & Hg' & EG & Hr & X1 & X2 & X3 & X4 & V & _).
  assert (b = S (length s)) by (unfold here in Hb; rewrite dset_get in Hb; congruence). subst b. rewrite Gn in Hg'. injection Hg' as <-.
  exists a, f, U, g, G, r, (S (length s)). do 10 (split; [first [assumption|reflexivity]|]). split.
  - intros idx k. specialize (V idx). cbv zeta in V. fold k in V. rewrite V. f_equal.
    + unfold spectrum. unfold here. rewrite dset_get, Gn, EG. reflexivity.
    + f_equal. unfold cross. assert (Sc : forall i, spectrum spl (s ++ [f; g]) here (comp (negb el) i) idx = spectrum spl s fields (comp (negb el) i) idx).
      { intro i. unfold spectrum, here. rewrite dset_other by (destruct el; discriminate). destruct (dget fields (comp (negb el) i)) as [c|] eqn:Hc; [|reflexivity]. now rewrite nth_error_app1 by exact (proj2 Di _ _ Hc). }
      now rewrite !Sc.
  - split; [unfold here; apply dset_get|]. split; [lia|]. intro Nd. assert (K := kspace_frame _ _ _ _ _ _ _ _ _ _ Ek). apply (K _ _ Gn).
    intros (pol & ax2 & rest & q & key & h & Ec2 & Hc & Ax2 & Eky & Hd & Hh & D). rewrite Gn in Hh. injection Hh as <-. rewrite Nd in D. discriminate.
Qed.
(** with an extent *)
Lemma old_split ct omega al el p fields s s' d' r : (p < 3)%nat -> old (Some ct) omega al (comp el p) fields s = (s', (d', Ok r)) ->
  exists s1 d d2, cut_fields spl (Some ct) (comp el p) fields s = (s1, Ok d) /\ old None omega al (comp el p) d s1 = (s', (d2, Ok r)).
Proof.
  intros Hp E. destruct (letter_shape el p Hp) as (ax & Es & Ax). unfold kspace_epoch_like_old in *. rewrite Es in *. rewrite <- Es in *. rewrite Ax in *.
  destruct (cut_fields spl (Some ct) (comp el p) fields s) as [s1 [d|e]] eqn:Ec; [|discriminate]. exists s1, d. cbn [cut_fields]. unfold sret at 1.
  destruct (Ascii.eqb (letter el) al).
  - destruct (kspace _ _ _ _ _ _ _ s1) as [s2 r2]. injection E as <- <- ->. now exists d.
  - destruct (dget d (comp el p)) as [m|]; [|discriminate]. destruct (sbind (load m) _ s1) as [s2 [dx|e]]; [|discriminate]. destruct (deepcopy m s2) as [s3 [m1|e]]; [|discriminate]. destruct (sbind (load m1) _ s3) as [s4 [m2|e]]; [|discriminate].
    destruct (kspace _ _ _ _ _ _ _ s4) as [s5 r5]. injection E as <- <- ->. eexists. split; reflexivity.
Qed.
Lemma old_parts ct omega al el p fields s s' d' r : (p < 3)%nat -> all_there fields s -> old (Some ct) omega al (comp el p) fields s = (s', (d', Ok r)) ->
  exists m f fm s1 d d2, dget fields (comp el p) = Some m /\ nth_error s m = Some f /\ ensure_domain spl f false = Ok fm /\ distinct d s1 /\
    (forall k, match dget fields k, dget d k with
               | None, None => True
               | Some a, Some b => exists g h, nth_error s a = Some g /\ part_of spl ct fm g h /\ nth_error s1 b = Some h
               | _, _ => False end) /\
    old None omega al (comp el p) d s1 = (s', (d2, Ok r)).
Proof.
  intros Hp Th E. destruct (old_split _ _ _ _ _ _ _ _ _ _ Hp E) as (s1 & d & d2 & Ec & E1). destruct (cut_value _ _ _ _ _ _ _ Th Ec) as (m & f & fm & Hm & Hf & EF & Di & _ & Get).
  exists m, f, fm, s1, d, d2. repeat (split; [assumption|]). exact E1.
Qed.
End Facts.
