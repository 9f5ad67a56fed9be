(** kspace_epoch_like_old with the linear shift of fields of real numbers. *)
From Coq Require Import Reals String Ascii List ZArith Lia Lra Bool.
From Verif Require Import PyBase PyBaseFacts NumpyModel NdModel NdFacts FieldModel CplxModel CplxFacts FftModel FftSpec FftAxes FftKernel FftFacts FftLaws FftMore FftShift FftDemo UnstagModel MapModel MapSpec LinShiftSpec LinShift KspaceModel KspaceSpec KspaceFrame KspaceFacts KspaceTotal KspaceDemo KspaceWave KspaceEpoch KspaceCutSpec KspaceCut KspaceEpochCut EpochOldModel EpochOldSpec EpochOldFacts.
Import ListNotations.
Local Open Scope R_scope.

Lemma real_shift_lives f nd W d : (0 < nd)%nat -> lives_on f nd W -> all_in false f ->
  exists g, real_shift f (map (fun a => (Z.of_nat a, d a)) (seq 0 nd)) = Ok g /\ lives_on g nd (fun a => moved_by (d a) (W a)) /\ all_in false g /\ wellformed g.
Proof.
  intros P L0 A0. destruct (lives_whole false f nd W L0 A0) as (C & Nd & U & G & HW).
  assert (Uf : uniform_field (mksf true f) nd U) by (split; [exact C|]; split; [exact Nd|]; split; [exact P|exact G]).
  assert (HA : forall a, In a (seq 0 nd) -> (a < nd)%nat) by (intros a I; apply in_seq in I; lia).
  destruct (linear_ok (mksf true f) nd U (seq 0 nd) d Uf HA eq_refl) as (g & Eg & (La & Ma) & (_ & Sh & At & Ta) & _). exists (sf_field g). unfold real_shift. rewrite Eg. split; [reflexivity|]. cbn [sf_field] in *.
  assert (Ng : ndim (sf_field g) = nd) by (unfold ndim in *; rewrite Sh; exact Nd).
  assert (Cg : consistent (sf_field g)) by (destruct C; split; rewrite ?Ng, ?La, ?At, ?Ta; lia).
  assert (Gg : on_grid (sf_field g) (seq 0 nd) (fun a => moved_by (d a) (U a))).
  { intros a I. destruct (G a I) as (ax & Hax & Iax & Hs). destruct (Ma a ax Hax) as (ax' & Hax' & Q). assert (Ex : existsb (Nat.eqb a) (seq 0 nd) = true) by (apply existsb_exists; exists a; split; [exact I|apply Nat.eqb_refl]). rewrite Ex in Q. exists ax'. split; [exact Hax'|]. split; [apply Q|]. rewrite Sh. exact Hs. }
  assert (Ag : all_in false (sf_field g)) by (intros a I; rewrite At; apply A0; unfold ndim in *; rewrite <- Sh; exact I).
  assert (Lg : lives_on (sf_field g) nd (fun a => moved_by (d a) (W a))).
  { apply (whole_lives false _ nd (fun a => moved_by (d a) (U a))); [exact Cg|exact Ng|exact Gg|exact Ag|]. intros a L. now rewrite (HW a L). }
  split; [exact Lg|]. split; [exact Ag|]. exact (lives_wf _ _ _ P Lg).
Qed.
Lemma old_total spl omega al el p nd W fields s a f : linear_spline spl -> (p < 3)%nat -> (0 < nd)%nat -> al <> letter el -> distinct fields s ->
  dget fields (comp el p) = Some a -> nth_error s a = Some f -> lives_on f nd W -> all_in false f ->
  (forall key, In key (tl (needed el p nd)) -> exists a f V, dget fields key = Some a /\ nth_error s a = Some f /\ lives_on f nd V /\ compatible IFourier nd (fun a => moved_by (half_step el p a W) (W a)) V /\ origins_known f) ->
  exists s' a' b g, kspace_epoch_like_old spl real_shift None omega al (comp el p) fields s = (s', (dset fields (comp el p) b, Ok a')) /\ (length s <= b < length s')%nat /\
    nth_error s' b = Some g /\ lives_on g nd (fun a => moved_by (half_step el p a W) (W a)) /\ all_in false g.
Proof.
  intros Sp Hp Pn N Di Ha Hf Lf A0 H. assert (L0 := Lf). destruct (lives_whole false f nd W Lf A0) as (C & Nd & U & G & HW).
  assert (G' : on_grid f (seq 0 (ndim f)) U) by (rewrite Nd; exact G). rewrite (old_steps spl real_shift omega al el p fields s a f U Hp N Ha Hf C G'). rewrite Nd.
  destruct (real_shift_lives f nd W (fun a => half_step el p a W) Pn L0 A0) as (g & Eg & Lg & Ag & Wg).
  assert (Hc : half_cell el p nd U = map (fun a => (Z.of_nat a, half_step el p a W)) (seq 0 nd)).
  { unfold half_cell. apply map_ext_in. intros c I. apply in_seq in I. unfold half_step. now rewrite (HW c) by lia. }
  rewrite Hc, Eg. cbv zeta. set (here := dset fields (comp el p) (S (length s))).
  assert (Gn : nth_error (s ++ [f; g]) (S (length s)) = Some g) by (rewrite nth_error_app2 by lia; replace (S (length s) - length s)%nat with 1%nat by lia; reflexivity).
  destruct (kspace_total spl real_shift omega IFourier el p nd (fun a => moved_by (half_step el p a W) (W a)) here (s ++ [f; g]) Sp) as (s' & a' & Ek); [discriminate|exact Hp|exact Pn|exact (dset_distinct _ _ _ _ _ Di)| |].
  { split.
    - exists (S (length s)), g. split; [apply dset_get|]. split; [exact Gn|exact Lg].
    - intros key I. destruct (H key I) as (c & h & V & Hc1 & Hh & Lh & Cp & Or). exists c, h, V. split; [unfold here; rewrite dset_other; [exact Hc1|]|].
      + intro K. subst key. unfold needed in I. cbn [tl] in I. apply in_map_iff in I as (x & D & _). destruct el, p as [|[|[|]]], (3 - _ - x)%nat as [|[|?]]; discriminate D.
      + split; [rewrite nth_error_app1 by exact (proj2 Di _ _ Hc1); exact Hh|]. split; [exact Lh|]. split; [exact Cp|]. intros _. exact Or. }
  rewrite Ek. exists s', a', (S (length s)), g.
  assert (Nd' : in_domain g true <> Ok true).
  { intro K. apply (in_domain_wf g true Wg) in K. assert (Q : true = false); [|discriminate]. apply (all_in_one _ _ g); [destruct Lg as (_ & -> & _); lia|exact K|exact Ag]. }
  assert (Kp : nth_error s' (S (length s)) = Some g).
  { apply (kspace_frame _ _ _ _ _ _ _ _ _ _ Ek _ _ Gn). intros (pol & ax2 & rest & q & key & h & Ec2 & Hcc & Ax2 & Eky & Hd & Hh & D). rewrite Gn in Hh. injection Hh as <-. contradiction. }
  split; [reflexivity|]. split; [split; [lia|]; apply nth_error_Some; congruence|]. split; [exact Kp|]. split; [exact Lg|exact Ag].
Qed.
Lemma lives_start g nd W d s key b : lives_on g nd W -> all_in false g -> (0 < nd)%nat -> dget d key = Some b -> nth_error s b = Some g -> starts_at d s key (u_x0 (W 0%nat)).
Proof.
  intros Lg A0 P Hd Hs. destruct (lives_whole false g nd W Lg A0) as (C & Nd & U & G & HW).
  destruct (G 0%nat) as (ax & Hax & (Eg & _ & (P2 & _)) & _); [apply in_seq; lia|]. exists b, g, ax. unfold grid_of in Eg. destruct (u_n (U 0%nat)) as [|n] eqn:En; [lia|]. cbn [seq map] in Eg. eexists. split; [exact Hd|]. split; [exact Hs|]. split; [exact Hax|]. rewrite Eg. f_equal. rewrite (HW 0%nat P). unfold point. cbn. ring.
Qed.
(** two calls: the field wanders by half a cell each time *)
Lemma wanders : exists s s1 s2 d1 d2 r1 r2, distinct names1 s /\ all_wellformed names1 s /\
  kspace_epoch_like_old line_spline real_shift None (omega_free 1) "B"%char (comp true 1) names1 s = (s1, (d1, Ok r1)) /\
  kspace_epoch_like_old line_spline real_shift None (omega_free 1) "B"%char (comp true 1) d1 s1 = (s2, (d2, Ok r2)) /\
  starts_at names1 s (comp true 1) 1 /\ starts_at d1 s1 (comp true 1) (1 + 3 / 2) /\ starts_at d2 s2 (comp true 1) (1 + 3).
Proof.
  set (s := wave1 false C1 C1). set (f := field1 "x" "m" grid1 false (Some 0) (fun _ => C1)).
  assert (Lf : lives_on f 1 (place1 false)) by apply wave1_lives. assert (Af : all_in false f) by apply field1_wf.
  assert (Di := wave1_distinct false C1 C1). fold s in Di.
  destruct (old_total line_spline (omega_free 1) "B"%char true 1 1 (place1 false) names1 s 0 f) as (s1 & r1 & b1 & g1 & E1 & L1 & H1 & Lg1 & Ag1); try reflexivity; try exact Lf; try exact Af; try exact Di; try exact line_spline_ok; try lia; try discriminate.
  { intros key I. cbn in I. destruct I as [<-|[]]. exists 1%nat, f, (place1 false). split; [reflexivity|]. split; [reflexivity|]. split; [exact Lf|]. split; [|now apply known_space].
    intros a La. assert (a = 0%nat) by lia. subst a. unfold half_step, moved_by, place1. cbn. split; [reflexivity|]. split; [reflexivity|]. replace (1 + 3 / 2 - 1) with (3 / 2) by ring. rewrite Rabs_pos_eq; lra. }
  set (d1 := dset names1 (comp true 1) b1) in *.
  assert (Di1 : distinct d1 s1).
  { split.
    - intros i j c H2 H3. unfold d1 in *. destruct (string_dec i (comp true 1)) as [->|Ni], (string_dec j (comp true 1)) as [->|Nj]; rewrite ?dset_get, ?dset_other in * by assumption; [reflexivity| | |exact (proj1 Di i j c H2 H3)].
      + injection H2 as <-. apply (proj2 Di) in H3. lia.
      + injection H3 as <-. apply (proj2 Di) in H2. lia.
    - intros i c H2. unfold d1 in H2. destruct (string_dec i (comp true 1)) as [->|Ni]; rewrite ?dset_get, ?dset_other in * by assumption; [injection H2 as <-; lia|]. apply (proj2 Di) in H2. lia. }
  assert (K := old_keeps line_spline real_shift None (omega_free 1) "B"%char true 1 names1 s s1 d1 (Ok r1) ltac:(lia) E1).
  assert (Hz : nth_error s1 1 = Some f) by (apply (K 1%nat f eq_refl); intros (_ & Q & _); discriminate).
  destruct (old_total line_spline (omega_free 1) "B"%char true 1 1 (fun a => moved_by (half_step true 1 a (place1 false)) (place1 false a)) d1 s1 b1 g1) as (s2 & r2 & b2 & g2 & E2 & L2 & H2 & Lg2 & Ag2); try exact Lg1; try exact Ag1; try exact Di1; try exact line_spline_ok; try lia; try discriminate; try exact H1.
  { unfold d1. apply dset_get. }
  { intros key I. cbn in I. destruct I as [<-|[]]. exists 1%nat, f, (place1 false). split; [reflexivity|]. split; [exact Hz|]. split; [exact Lf|]. split; [|now apply known_space].
    intros a La. assert (a = 0%nat) by lia. subst a. unfold half_step, moved_by, place1. cbn. split; [reflexivity|]. split; [reflexivity|]. replace (1 + 3 / 2 + 3 / 2 - 1) with 3 by field. rewrite Rabs_pos_eq; lra. }
  exists s, s1, s2, d1, (dset d1 (comp true 1) b2), r1, r2. split; [exact Di|]. split; [apply wave1_wf|]. split; [exact E1|]. split; [exact E2|].
  split; [exact (lives_start f 1 (place1 false) names1 s (comp true 1) 0 Lf Af ltac:(lia) eq_refl eq_refl)|].
  split; [exact (lives_start g1 1 _ d1 s1 (comp true 1) b1 Lg1 Ag1 ltac:(lia) (dset_get _ _ _) H1)|].
  replace (1 + 3) with (u_x0 (moved_by (half_step true 1 0 (fun a => moved_by (half_step true 1 a (place1 false)) (place1 false a))) (moved_by (half_step true 1 0 (place1 false)) (place1 false 0%nat)))) by (unfold half_step, moved_by, place1; cbn; field).
  exact (lives_start g2 1 _ (dset d1 (comp true 1) b2) s2 (comp true 1) b2 Lg2 Ag2 ltac:(lia) (dset_get _ _ _) H2).
Qed.
(** with an extent *)
Lemma old_part_runs : exists s' d' r, all_there names1 (wave4 C1 C1) /\ kspace_epoch_like_old line_spline real_shift (Some first_two) (omega_free 1) "B"%char (comp true 1) names1 (wave4 C1 C1) = (s', (d', Ok r)).
Proof.
  set (d := [("Ey"%string, 2%nat); ("Bz"%string, 3%nat)]). set (s1 := wave4 C1 C1 ++ wave1 false C1 C1). set (f := field1 "x" "m" grid1 false (Some 0) (fun _ => C1)).
  destruct (old_total line_spline (omega_free 1) "B"%char true 1 1 (place1 false) d s1 2 f) as (s' & r & b & g & E & _).
  - exact line_spline_ok.
  - lia.
  - lia.
  - discriminate.
  - split.
    + intros k j c. unfold d. cbn [dget]. destruct (String.eqb_spec "Ey" k) as [<-|], (String.eqb_spec "Ey" j) as [<-|]; try (destruct (String.eqb_spec "Bz" k) as [<-|]); try (destruct (String.eqb_spec "Bz" j) as [<-|]); intros; congruence.
    + intros k c. unfold d. cbn [dget]. destruct (String.eqb "Ey" k); [|destruct (String.eqb "Bz" k); [|discriminate]]; intros [= <-]; cbn; lia.
  - reflexivity.
  - reflexivity.
  - apply wave1_lives.
  - apply field1_wf.
  - intros key I. cbn in I. destruct I as [<-|[]]. exists 3%nat, f, (place1 false). split; [reflexivity|]. split; [reflexivity|]. split; [apply wave1_lives|]. split; [|apply known_space, field1_wf].
    intros a La. assert (a = 0%nat) by lia. subst a. unfold half_step, moved_by, place1. cbn. split; [reflexivity|]. split; [reflexivity|]. replace (1 + 3 / 2 - 1) with (3 / 2) by ring. rewrite Rabs_pos_eq; lra.
  - exists s', names1, r. split; [apply wave4_there|]. unfold kspace_epoch_like_old in *. change (comp true 1) with (String "E" (String "y" "")) in *. cbv iota beta in *. assert (Ax : axis_letter "y" = Ok 1%Z) by reflexivity. rewrite Ax in *.
    rewrite (wave4_cut line_spline C1 C1). fold d s1. cbn [cut_fields] in E. unfold sret at 1 in E. change (Ascii.eqb "E" "B") with false in *. cbv iota in *.
    destruct (dget d "Ey") as [m|]; [|discriminate]. destruct (sbind (load m) _ s1) as [s2 [dx|e]]; [|discriminate]. destruct (deepcopy m s2) as [s3 [m1|e]]; [|discriminate]. destruct (sbind (load m1) _ s3) as [s4 [m2|e]]; [|discriminate].
    destruct (kspace _ _ _ _ _ _ _ s4) as [s5 r5]. injection E as <- _ <-. reflexivity.
Qed.
Lemma wave1_shift : forall a f U g, dget names1 (comp true 1) = Some a -> nth_error (wave1 false C1 C1) a = Some f -> on_grid f (seq 0 (ndim f)) U -> real_shift f (half_cell true 1 (ndim f) U) = Ok g -> wellformed g.
Proof.
  intros a f U g Ha Hf G E. assert (a = 0%nat) by (change (Some 0%nat = Some a) in Ha; congruence). subst a. cbn in Hf. injection Hf as <-. set (f := field1 "x" "m" grid1 false (Some 0) (fun _ => C1)) in *. destruct (field1_wf false (Some 0) (fun _ => C1)) as [(C & _) A]. fold f in C, A.
  destruct (real_shift_lives f 1 U (fun a => half_step true 1 a U)) as (g' & E' & _ & _ & W); [lia| |exact A|].
  - apply (whole_lives false f 1 U); [exact C|reflexivity|exact G|exact A|]. reflexivity.
  - unfold half_cell in E. change (ndim f) with 1%nat in E. rewrite E' in E. now injection E as <-.
Qed.
Lemma old_runs : exists s' d' a', kspace_epoch_like_old line_spline real_shift None (omega_free 1) "B"%char (comp true 1) names1 (wave1 false C1 C1) = (s', (d', Ok a')).
Proof.
  set (f := field1 "x" "m" grid1 false (Some 0) (fun _ => C1)).
  destruct (old_total line_spline (omega_free 1) "B"%char true 1 1 (place1 false) names1 (wave1 false C1 C1) 0 f) as (s' & r & b & g & E & _); try reflexivity; try apply wave1_lives; try apply field1_wf; try apply wave1_distinct; try exact line_spline_ok; try lia; try discriminate.
  - intros key I. cbn in I. destruct I as [<-|[]]. exists 1%nat, f, (place1 false). split; [reflexivity|]. split; [reflexivity|]. split; [apply wave1_lives|]. split; [|apply known_space, field1_wf].
    intros a La. assert (a = 0%nat) by lia. subst a. unfold half_step, moved_by, place1. cbn. split; [reflexivity|]. split; [reflexivity|]. replace (1 + 3 / 2 - 1) with (3 / 2) by ring. rewrite Rabs_pos_eq; lra.
  - eexists. eexists. eexists. exact E.
Qed.
