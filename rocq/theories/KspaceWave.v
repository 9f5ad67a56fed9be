(** Waves in kspace; the frame of kspace_epoch_like. *)
From Coq Require Import Reals String Ascii List ZArith Lia Lra Bool FunctionalExtensionality.
From Verif Require Import PyBase PyBaseFacts NumpyModel NdModel NdFacts FieldModel CplxModel CplxFacts FftModel FftSpec FftAxes FftKernel FftFacts FftLaws FftMore FftShift KspaceModel KspaceSpec KspaceFrame KspaceFacts KspaceTotal.
Import ListNotations.
Local Open Scope R_scope.

Lemma k_squared_dot axes idx : (length axes <= 3)%nat -> k_squared axes idx = dot3 (wave_vector axes idx) (wave_vector axes idx).
Proof.
  intro L. unfold k_squared, zrange. rewrite Nat2Z.id, map_map. rewrite (map_ext _ (fun j => wave_vector axes idx j ^ 2)) by (intro; now rewrite mesh_wave). unfold dot3.
  assert (Z := fun j => wave_none axes j idx). destruct axes as [|a0 [|a1 [|a2 [|]]]]; cbn [length seq map fold_right] in *; [| | | |lia].
  - rewrite (Z 0%nat), (Z 1%nat), (Z 2%nat) by lia. ring.
  - rewrite (Z 1%nat), (Z 2%nat) by lia. ring.
  - rewrite (Z 2%nat) by lia. ring.
  - ring.
Qed.
Lemma RtoC_mul x y : RtoC (x * y) = Cmul (RtoC x) (RtoC y).
Proof. unfold RtoC, Cmul. cbn. f_equal; ring. Qed.
Lemma RtoC_add x y : RtoC (x + y) = Cadd (RtoC x) (RtoC y).
Proof. unfold RtoC, Cadd. cbn. f_equal; ring. Qed.
Lemma double_cross k v p : (p < 3)%nat -> cross k (cross k v) p = Csub (Cmul (RtoC (k p)) (cdot k v)) (Cmul (RtoC (dot3 k k)) (v p)).
Proof.
  intro H. unfold cross, cdot, dot3. rewrite !RtoC_add, !RtoC_mul. destruct p as [|[|[|]]]; try lia; cbn; ring.
Qed.
Lemma cross_lin k z v p : cross k (fun i => Cmul z (v i)) p = Cmul z (cross k v p).
Proof. unfold cross. ring. Qed.
(** a mode of a wave: with s = 1 it goes along the wave vector, with s = -1 against it *)
Lemma wave_electric k w s (E B : nat -> C) p : (p < 3)%nat -> w <> 0 -> dot3 k k <> 0 -> cdot k E = C0 -> (forall i, (i < 3)%nat -> B i = Cmul (RtoC (s / w)) (cross k E i)) ->
  Csub (E p) (Cmul (RtoC (w / dot3 k k)) (cross k B p)) = Cmul (RtoC (1 + s)) (E p).
Proof.
  intros Hp Hw Hk T HB. replace (cross k B p) with (cross k (fun i => Cmul (RtoC (s / w)) (cross k E i)) p) by (unfold cross at 1 3; now rewrite !HB by apply turn_lt).
  rewrite cross_lin, double_cross, T by exact Hp. rewrite RtoC_add. change (RtoC 1) with C1.
  replace (RtoC s) with (Cmul (RtoC (w / dot3 k k)) (Cmul (RtoC (s / w)) (RtoC (dot3 k k)))) by (rewrite <- !RtoC_mul; f_equal; field; split; assumption). ring.
Qed.
Lemma wave_magnetic k w s (E B : nat -> C) p : (p < 3)%nat -> w <> 0 -> (forall i, (i < 3)%nat -> B i = Cmul (RtoC (s / w)) (cross k E i)) -> s * s = 1 ->
  Csub (B p) (Cmul (RtoC (-1 / w)) (cross k E p)) = Cmul (RtoC (1 + s)) (B p).
Proof.
  intros Hp Hw HB S2. rewrite HB by exact Hp. assert (K : RtoC (-1 / w) = Copp (Cmul (RtoC s) (RtoC (s / w)))).
  { rewrite <- RtoC_mul. replace (s * (s / w)) with (s * s / w) by (field; exact Hw). rewrite S2. unfold RtoC, Copp. cbn. f_equal; [field; exact Hw|ring]. }
  rewrite K, RtoC_add. change (RtoC 1) with C1. ring.
Qed.
(** the response of the linear interpolation *)
Lemma lin_response_cos dt w : lin_response dt w = Rabs (cos (dt * w / 2)).
Proof.
  unfold lin_response. rewrite <- sqrt_Rsqr_abs. f_equal. unfold Cabs2, Cadd, Cmul, RtoC, cis, Rsqr. cbn [fst snd].
  set (x := dt * w / 2). replace (dt * w) with (2 * x) by (unfold x; field). rewrite cos_2a_cos, sin_2a. assert (H := sin2_cos2 x). unfold Rsqr in H. nra.
Qed.
Lemma lin_response_0 w : lin_response 0 w = 1.
Proof. rewrite lin_response_cos. replace (0 * w / 2) with 0 by field. rewrite cos_0. apply Rabs_R1. Qed.
(** * kspace_epoch_like *)
Lemma ensure_at_cases spl b a s s' a' : ensure_at spl b a s = (s', Ok a') ->
  (s' = s /\ a' = a /\ exists f, nth_error s a = Some f /\ in_domain f b = Ok true) \/ (exists g, s' = s ++ [g] /\ a' = length s).
Proof.
  intro E. unfold ensure_at in E. apply sbind_ok in E as (s1 & f & E1 & E). apply load_ok in E1 as [-> Hf]. apply sbind_ok in E as (s1 & ok & E1 & E). apply lift_ok in E1 as [-> E1]. destruct ok.
  - apply sret_ok in E as [-> ->]. left. split; [reflexivity|]. split; [reflexivity|]. exists f. auto.
  - apply sbind_ok in E as (s1 & g & E2 & E). apply lift_ok in E2 as [-> _]. apply alloc_ok in E as [-> ->]. right. exists g. auto.
Qed.
Lemma dmap_ensure spl b : forall d s s' d', dmap (ensure_at spl b) d s = (s', Ok d') -> (length s <= length s')%nat /\ (forall a, (a < length s)%nat -> nth_error s' a = nth_error s a) /\
  forall key x, dget d' key = Some x -> exists a, dget d key = Some a /\ ((length s <= x)%nat \/ (x = a /\ exists f, nth_error s a = Some f /\ in_domain f b = Ok true)).
Proof.
  unfold dmap. induction d as [|[k a] d IH]; intros s s' d' E; cbn [sfor] in E.
  - apply sret_ok in E as [-> ->]. split; [lia|]. split; [reflexivity|discriminate].
  - apply sbind_ok in E as (s1 & p & E1 & E). apply sbind_ok in E1 as (s2 & a1 & E1 & E2). cbn [fst snd] in E1, E2. apply sret_ok in E2 as [-> ->]. apply sbind_ok in E as (s3 & r & E2 & E). apply sret_ok in E as [-> ->].
    destruct (IH _ _ _ E2) as (L2 & F2 & H2). destruct (ensure_at_cases _ _ _ _ _ _ E1) as [(-> & -> & Hf)|(g & -> & ->)].
    + split; [exact L2|]. split; [exact F2|]. intros key x. cbn [dget fst snd]. destruct (String.eqb k key); [intros [= <-]; exists a; split; [reflexivity|]; right; auto|apply H2].
    + rewrite app_length in *. cbn [length] in *. split; [lia|]. split; [intros c L; rewrite F2 by lia; now rewrite nth_error_app1|]. intros key x. cbn [dget fst snd]. destruct (String.eqb k key).
      * intros [= <-]. exists a. split; [reflexivity|left; lia].
      * intro Hx. destruct (H2 key x Hx) as (c & Hc & [H|(-> & f & Hf & Hd)]); exists c; (split; [exact Hc|]); [left; lia|]. destruct (Nat.lt_ge_cases c (length s)); [right; split; [reflexivity|]; exists f; rewrite nth_error_app1 in Hf by assumption; auto|left; assumption].
Qed.
Lemma dset_get d k a : dget (dset d k a) k = Some a.
Proof. induction d as [|[j b] d IH]; cbn [dset dget]; [now rewrite String.eqb_refl|]. destruct (String.eqb j k) eqn:E; cbn [dget]; rewrite E; [reflexivity|exact IH]. Qed.
Lemma sfor_other (h : string * nat -> ST nat) comp0 : forall d s s' d', sfor (fun p => if String.eqb (fst p) comp0 then sret p else st! a := h p in sret (fst p, a)) d s = (s', Ok d') -> dget d' comp0 = dget d comp0.
Proof.
  induction d as [|[k a] d IH]; intros s s' d' E; cbn [sfor] in E; [apply sret_ok in E as [_ ->]; reflexivity|].
  apply sbind_ok in E as (s1 & p & E1 & E). apply sbind_ok in E as (s2 & r & E2 & E). apply sret_ok in E as [_ ->]. cbn [fst] in E1. specialize (IH _ _ _ E2). cbn [dget]. destruct (String.eqb k comp0) eqn:Ek.
  - apply sret_ok in E1 as [_ ->]. cbn [dget fst snd]. now rewrite Ek.
  - apply sbind_ok in E1 as (s3 & b & _ & E1). apply sret_ok in E1 as [_ ->]. cbn [dget fst snd]. now rewrite Ek.
Qed.
Definition pol_of (el : bool) : ascii := (if el then "E" else "B")%char.
Lemma comp_shape el p : (p < 3)%nat -> exists ax, comp el p = String (pol_of el) (String ax "") /\ axis_letter ax = Ok (Z.of_nat p) /\ field_key (pol_of el) (Z.of_nat p) = Some (comp el p).
Proof. intro H. destruct (axis_comp p H) as (ax & CE & CB & A). exists ax. split; [destruct el; assumption|]. split; [exact A|]. apply (key_comp el _ p H eq_refl). Qed.
Lemma epoch_frame c spl lin cut omega dt align_to el p fields s s' r : (p < 3)%nat -> kspace_epoch_like c spl lin cut omega dt align_to (comp el p) fields s = (s', r) ->
  unchanged_except (fun a => cut = None /\ pol_of el <> align_to /\ dget fields (comp el p) = Some a /\ exists f, nth_error s a = Some f /\ in_domain f true = Ok true) s s'.
Proof.
  intros Hp E a0 f0 Ef HW. assert (L0 : (a0 < length s)%nat) by (apply nth_error_Some; congruence).
  destruct (comp_shape el p Hp) as (ax & Ec & Ax & Ek). unfold kspace_epoch_like in E. rewrite Ec in E. cbv iota in E. rewrite <- Ec in E.
  unfold sbind at 1, lift at 1 in E. rewrite Ax in E. destruct (dget fields (comp el p)) as [m0|] eqn:Em0; [|injection E as <- _; exact Ef].
  unfold sbind at 1 in E. destruct (cut_fields spl cut (comp el p) fields s) as [s1 [d1|e]] eqn:E1; destruct (tame_cut (length s) (fun _ => False) spl cut (comp el p) fields _ _ _ (le_n _) E1) as (L1 & F1 & Q1); [|injection E as <- _; rewrite F1; auto].
  specialize (Q1 _ eq_refl). assert (Old1 : cut = None -> s1 = s /\ d1 = fields) by (intro Hc; subst cut; cbn in E1; apply sret_ok in E1 as [-> ->]; auto).
  unfold sbind at 1 in E. destruct (dmap (ensure_at spl true) d1 s1) as [s2 [d2|e]] eqn:E2.
  2:{ assert (T : tame (length s) (fun _ => False) (dmap (ensure_at spl true) d1) (fun _ => True)).
      { unfold dmap. eapply tame_weaken; [apply tame_for with (Q := fun _ => True); intros q _; eapply tame_bind; [apply tame_ensure|]; intros; now apply tame_ret|]. trivial. }
      destruct (T _ _ _ L1 E2) as (_ & F2 & _). injection E as <- _. rewrite F2, F1; auto. }
  destruct (dmap_ensure spl true _ _ _ _ E2) as (L2 & F2 & H2). destruct (dget d2 (comp el p)) as [m|] eqn:Em; [|injection E as <- _; rewrite F2, F1; auto; lia].
  destruct (H2 _ _ Em) as (m1 & Hm1 & Cm).
  unfold sbind at 1, load at 1 in E. destruct (nth_error s2 m) as [fm|] eqn:Hfm; [|injection E as <- _; rewrite F2, F1; auto; lia].
  unfold sbind at 1 in E. set (div := fun a => st! f := load a in alloc (divided f (fun idx => lin_response dt (omega (rf_axes fm) idx)))) in E.
  assert (Tdiv : forall q, tame (length s) (fun _ => False) (div q) (fun b => (length s <= b)%nat)) by (intro q; unfold div; go; apply tame_alloc).
  assert (T3 : tame (length s) (fun _ => False) (if Ascii.eqb (pol_of el) align_to then st! a := div m in sret (dset d2 (comp el p) a) else sfor (fun p0 => if String.eqb (fst p0) (comp el p) then sret p0 else st! a := div (snd p0) in sret (fst p0, a)) d2)
      (fun d => forall x, dget d (comp el p) = Some x -> (length s <= x)%nat \/ (pol_of el <> align_to /\ x = m))).
  { intros u u' rr Lu Eu. destruct (Ascii.eqb_spec (pol_of el) align_to) as [_|Np].
    - assert (T : tame (length s) (fun _ => False) (st! a := div m in sret (dset d2 (comp el p) a)) (fun d => forall x, dget d (comp el p) = Some x -> (length s <= x)%nat)).
      { eapply tame_bind; [apply Tdiv|]. intros b Hb. apply tame_ret. intros x Hx. rewrite dset_get in Hx. injection Hx as <-. exact Hb. }
      destruct (T _ _ _ Lu Eu) as (A1 & A2 & A3). split; [exact A1|]. split; [exact A2|]. intros d Hd x Hx. left. exact (A3 d Hd x Hx).
    - assert (T : tame (length s) (fun _ => False) (sfor (fun p0 : string * nat => if String.eqb (fst p0) (comp el p) then sret p0 else st! a := div (snd p0) in sret (fst p0, a)) d2) (fun _ => True)).
      { eapply tame_weaken; [apply tame_for with (Q := fun _ => True); intros q _; destruct (String.eqb (fst q) (comp el p)); [now apply tame_ret|]; eapply tame_bind; [apply Tdiv|]; intros; now apply tame_ret|]. trivial. }
      destruct (T _ _ _ Lu Eu) as (A1 & A2 & _). split; [exact A1|]. split; [exact A2|]. intros d -> x Hx. right. split; [exact Np|]. rewrite (sfor_other (fun p0 => div (snd p0)) (comp el p) _ _ _ _ Eu) in Hx. congruence. }
  match type of E with (let (_, _) := ?m s2 in _) = _ => destruct (m s2) as [s3 [d3|e]] eqn:E3 end; destruct (T3 _ _ _ (Nat.le_trans _ _ _ L1 L2) E3) as (L3 & F3 & Q3); [|injection E as <- _; rewrite F3, F2, F1; auto; lia].
  specialize (Q3 _ eq_refl). assert (H0 : nth_error s3 a0 = Some f0) by (rewrite F3, F2, F1; auto; lia).
  apply (kspace_frame _ _ _ _ _ _ _ _ _ _ E a0 f0 H0). intros (pol & ax' & rest & p' & key & f & Ec' & _ & Ax' & Ek' & Hd3 & Hf & Hin). rewrite Ec in Ec'. injection Ec' as <- <- <-. rewrite Ax in Ax'. injection Ax' as <-. rewrite Ek in Ek'. injection Ek' as <-.
  destruct (Q3 _ Hd3) as [?|(Np & ->)]; [lia|]. apply HW. destruct Cm as [?|(-> & g & Hg & Dg)]; [lia|].
  destruct cut as [ct|]; [exfalso; apply dget_In in Hm1; unfold all_new in Q1; rewrite Forall_forall in Q1; specialize (Q1 _ Hm1); cbn in Q1; lia|]. destruct (Old1 eq_refl) as [-> ->].
  split; [reflexivity|]. split; [exact Np|]. split; [congruence|]. exists g. auto.
Qed.
(** the dispersion relation only enters through the response of the interpolation *)
Lemma epoch_ignores c spl lin cut om om' dt align_to component fields s : (forall axes idx, lin_response dt (om axes idx) = lin_response dt (om' axes idx)) ->
  kspace_epoch_like c spl lin cut om dt align_to component fields s = kspace_epoch_like c spl lin cut om' dt align_to component fields s.
Proof.
  intro H. unfold kspace_epoch_like. destruct component as [|pol [|ax rest]]; try reflexivity.
  assert (Eq : forall fm, (fun idx => lin_response dt (om (rf_axes fm) idx)) = (fun idx => lin_response dt (om' (rf_axes fm) idx))) by (intro; apply functional_extensionality; intro; apply H).
  cbv zeta. unfold sbind, lift, load. destruct (axis_letter ax); [|reflexivity]. destruct (dget fields _); [|reflexivity].
  destruct (cut_fields _ _ _ _ _) as [s1 [d1|]]; [|reflexivity]. destruct (dmap _ _ _) as [s2 [d2|]]; [|reflexivity]. destruct (dget d2 _); [|reflexivity]. destruct (nth_error s2 _) as [fm|]; [|reflexivity]. now rewrite (Eq fm).
Qed.
