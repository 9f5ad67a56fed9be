(** Energy (C22) and shifts (C23). *)
From Coq Require Import Reals String Lra Lia ZArith List Ring Sorting.Sorted.
From Verif Require Import PyBase PyBaseFacts NumpyModel NdModel NdFacts FieldModel FieldReduceFacts FieldIntFacts FieldGridFacts CplxModel CplxFacts FftModel FftSpec FftKernel FftAxes FftFacts FftLaws FftMore.
Import ListNotations.
Local Open Scope R_scope.

(** * Energy *)
Lemma total_ext sh : forall g h, (forall idx, in_shape sh idx = true -> g idx = h idx) -> total sh g = total sh h.
Proof.
  induction sh as [|n sh IH]; intros g h H; [now apply H|]. cbn [total]. apply rsum_ext. intros j J. apply IH. intros idx I. apply H. cbn. rewrite I.
  assert ((0 <=? Z.of_nat j)%Z = true) by (apply Z.leb_le; lia). assert ((Z.of_nat j <? n)%Z = true) by (apply Z.ltb_lt; lia). now rewrite H0, H1.
Qed.
Lemma total_scale sh c : forall g, total sh (fun idx => c * g idx) = c * total sh g.
Proof. induction sh as [|n sh IH]; intro g; [reflexivity|]. cbn [total]. rewrite <- rsum_scale. apply rsum_ext. intros. apply IH. Qed.
Lemma total_rsum sh m : forall g, total sh (fun idx => rsum m (fun j => g j idx)) = rsum m (fun j => total sh (g j)).
Proof.
  induction sh as [|n sh IH]; intro g; [reflexivity|]. cbn [total]. rewrite rsum_swap. apply rsum_ext. intros i _. exact (IH (fun j idx => g j (Z.of_nat i :: idx))).
Qed.
(** replacing the values along an axis by their sum *)
Lemma total_axis sh : forall a g, (a < length sh)%nat -> INR (Z.to_nat (nth a sh 0%Z)) * total sh g = total sh (fun idx => rsum (Z.to_nat (nth a sh 0%Z)) (fun j => g (upd idx a (Z.of_nat j)))).
Proof.
  induction sh as [|n sh IH]; intros [|a] g L; try (cbn in L; lia).
  - cbn [nth total upd]. rewrite rsum_const. f_equal. rewrite total_rsum. reflexivity.
  - cbn [nth total upd]. rewrite <- rsum_scale. apply rsum_ext. intros i _. apply (IH a (fun idx => g (Z.of_nat i :: idx))). cbn in L. lia.
Qed.
Lemma total_along sh a g h c : (a < length sh)%nat -> (0 < nth a sh 0)%Z ->
  (forall idx, in_shape sh idx = true -> rsum (Z.to_nat (nth a sh 0%Z)) (fun j => g (upd idx a (Z.of_nat j))) = c * rsum (Z.to_nat (nth a sh 0%Z)) (fun j => h (upd idx a (Z.of_nat j)))) ->
  total sh g = c * total sh h.
Proof.
  intros L P H. assert (N0 : INR (Z.to_nat (nth a sh 0%Z)) <> 0) by (apply not_0_INR; lia). apply Rmult_eq_reg_l with (INR (Z.to_nat (nth a sh 0%Z))); [|exact N0].
  rewrite (total_axis sh a g L). rewrite (total_ext sh _ _ H), total_scale, <- (total_axis sh a h L). ring.
Qed.
(** unitary kernel along one axis *)
Lemma unitary n (K : Z -> Z -> C) (x : nat -> C) c :
  (forall j j', (j < n)%nat -> (j' < n)%nat -> csum n (fun m => Cmul (K (Z.of_nat m) (Z.of_nat j)) (Cconj (K (Z.of_nat m) (Z.of_nat j')))) = if (j =? j')%nat then RtoC c else C0) ->
  rsum n (fun m => Cabs2 (csum n (fun j => Cmul (K (Z.of_nat m) (Z.of_nat j)) (x j)))) = c * rsum n (fun j => Cabs2 (x j)).
Proof.
  intro H. apply RtoC_inj. rewrite RtoC_mul, !rsum_csum.
  rewrite (csum_ext n _ (fun m => csum n (fun j => csum n (fun j' => Cmul (Cmul (K (Z.of_nat m) (Z.of_nat j)) (Cconj (K (Z.of_nat m) (Z.of_nat j')))) (Cmul (x j) (Cconj (x j'))))))).
  2:{ intros m M. rewrite Cabs2_eq, csum_conj, <- csum_scale_r. apply csum_ext. intros j J. rewrite <- csum_scale. apply csum_ext. intros j' J'. rewrite Cconj_mul. ring. }
  rewrite csum_swap. rewrite <- csum_scale. apply csum_ext. intros j J. rewrite csum_swap.
  rewrite (csum_ext n _ (fun j' => Cmul (if (j =? j')%nat then RtoC c else C0) (Cmul (x j) (Cconj (x j'))))).
  2:{ intros j' J'. rewrite csum_scale_r, H by assumption. reflexivity. }
  rewrite (csum_single n j) by (exact J || (intros j' J' N; destruct (Nat.eqb_spec j j'); [congruence|ring])). rewrite Nat.eqb_refl, Cabs2_eq. ring.
Qed.
Lemma kernel_unitary f U st temporal old a : proper (U a) -> forall j j', (j < u_n (U a))%nat -> (j' < u_n (U a))%nat ->
  csum (u_n (U a)) (fun m => Cmul (KT f U st temporal old a (Z.of_nat m) (Z.of_nat j)) (Cconj (KT f U st temporal old a (Z.of_nat m) (Z.of_nat j')))) = if (j =? j')%nat then RtoC (u_dx (U a) / u_dx (VV f U a)) else C0.
Proof.
  intros P j j' J J'. set (s := sign temporal st). set (V := VV f U).
  set (e := if old then if st then u_x0 (V a) * (point (U a) (Z.of_nat j') - point (U a) (Z.of_nat j)) else 0 else 0).
  assert (D : u_dx (V a) * u_dx (U a) = 2 * PI / INR (u_n (U a))) by (apply dual_spacing; exact P). assert (PV := dual_proper (nth a (rf_tao f) None) (U a) P). fold (VV f U a) in PV. fold V in PV.
  assert (N0 : INR (u_n (U a)) <> 0) by (apply not_0_INR; lia). assert (P2 : 0 < 2 * PI) by (assert (H := PI_RGT_0); lra). assert (S0 := sqrt_lt_R0 _ P2).
  rewrite (csum_ext _ _ (fun m => Cmul (Cmul (RtoC (u_dx (U a) / u_dx (V a) * / INR (u_n (U a)))) (cis (s * e))) (cis (s * ((u_x0 (V a) + IZR (Z.of_nat m) * u_dx (V a)) * (IZR (Z.of_nat j - Z.of_nat j') * u_dx (U a))))))).
  - rewrite csum_scale, (delta s) by (apply sign_cases || exact D || lia). destruct (Nat.eqb_spec j j') as [<-|N].
    + rewrite Z.sub_diag, Z.mod_0_l by lia. cbn [Z.eqb]. unfold e. replace (point (U a) (Z.of_nat j) - point (U a) (Z.of_nat j)) with 0 by ring. rewrite Rmult_0_r.
      replace (s * (if old then if st then 0 else 0 else 0)) with 0 by (destruct old, st; ring). replace (s * (u_x0 (V a) * (0 * u_dx (U a)))) with 0 by ring. rewrite cis_0.
      transitivity (RtoC (u_dx (U a) / u_dx (V a) * / INR (u_n (U a)) * INR (u_n (U a)))); [rewrite (RtoC_mul _ (INR (u_n (U a)))); ring|]. f_equal. field. destruct PV. split; lra || exact N0.
    + destruct (Z.eqb_spec ((Z.of_nat j - Z.of_nat j') mod Z.of_nat (u_n (U a))) 0) as [E|E]; [|ring]. exfalso.
      apply Z.mod_divide in E; [|lia]. destruct E as [q E]. assert (q = 0 \/ q <= -1 \/ 1 <= q)%Z by lia. nia.
  - intros m M. unfold KT. change (dual (nth a (rf_tao f) None) (U a)) with (V a). fold s. rewrite Cconj_mul, Cconj_RtoC, Cconj_cis.
    replace (u_dx (U a) / u_dx (V a) * / INR (u_n (U a))) with (u_dx (U a) / sqrt (2 * PI) * (u_dx (U a) / sqrt (2 * PI))).
    2:{ transitivity (u_dx (U a) / u_dx (V a) * (u_dx (V a) / sqrt (2 * PI) * (u_dx (U a) / sqrt (2 * PI)))); [field; destruct PV; lra|]. f_equal. exact (norm_pair (nth a (rf_tao f) None) (U a) P). }
    rewrite RtoC_mul.
    match goal with |- Cmul (Cmul ?x (cis ?p)) (Cmul ?y (cis ?q)) = Cmul (Cmul (Cmul _ _) (cis ?r)) (cis ?t) => replace (Cmul (Cmul (Cmul x y) (cis r)) (cis t)) with (Cmul (Cmul x y) (cis (r + t))) by (rewrite cis_add; ring);
      transitivity (Cmul (Cmul x y) (cis (p + q))); [rewrite cis_add; ring|f_equal; f_equal] end.
    unfold e, left_out. change (dual (nth a (rf_tao f) None) (U a)) with (V a). replace (IZR (Z.of_nat j - Z.of_nat j') * u_dx (U a)) with (point (U a) (Z.of_nat j) - point (U a) (Z.of_nat j')) by (apply point_diff; reflexivity).
    change (u_x0 (V a) + IZR (Z.of_nat m) * u_dx (V a)) with (point (V a) (Z.of_nat m)). destruct old, st; ring.
Qed.
Lemma energy_kops f U st temporal old sh A : (forall a, In a A -> (a < length sh)%nat /\ proper (U a) /\ nth a sh 0%Z = Z.of_nat (u_n (U a))) -> forall F,
  total sh (fun idx => Cabs2 (kops (KT f U st temporal old) (fun a => Z.to_nat (nth a sh 0%Z)) A F idx)) * volume (VV f U) A = total sh (fun idx => Cabs2 (F idx)) * volume U A.
Proof.
  intros H F. induction A as [|a A IH]; [reflexivity|]. destruct (H a (or_introl eq_refl)) as (L & P & N). specialize (IH (fun b I => H b (or_intror I))).
  set (n := fun a => Z.to_nat (nth a sh 0%Z)) in *. set (G := kops (KT f U st temporal old) n A F) in *.
  assert (PV := dual_proper (nth a (rf_tao f) None) (U a) P). fold (VV f U a) in PV. destruct PV as [_ PV].
  assert (E : total sh (fun idx => Cabs2 (kop a (n a) (KT f U st temporal old a) G idx)) = u_dx (U a) / u_dx (VV f U a) * total sh (fun idx => Cabs2 (G idx))).
  { apply (total_along sh a); [exact L|rewrite N; destruct P; lia|]. intros idx I. unfold kop, n. rewrite N, Nat2Z.id.
    assert (Li : (a < length idx)%nat) by (rewrite (in_shape_len sh idx I); exact L).
    rewrite <- (unitary (u_n (U a)) (KT f U st temporal old a) (fun j => G (upd idx a (Z.of_nat j)))) by (intros; now apply kernel_unitary).
    apply rsum_ext. intros m M. f_equal. apply csum_ext. intros j J. rewrite nth_upd_eq by exact Li. now rewrite upd_upd. }
  transitivity (total sh (fun idx => Cabs2 (kop a (n a) (KT f U st temporal old a) G idx)) * volume (VV f U) (a :: A)); [reflexivity|]. rewrite E. unfold volume in *. cbn [map fold_right].
  transitivity (u_dx (U a) * (total sh (fun idx => Cabs2 (G idx)) * fold_right Rmult 1 (map (fun a0 => u_dx (VV f U a0)) A))); [field; lra|]. rewrite IH. ring.
Qed.
Lemma fft_energy spl temporal old f axes U st : linear_spline spl -> consistent f -> axes <> [] -> on_grid f axes U -> in_state f axes st ->
  exists F V, fft spl temporal old f (map Z.of_nat axes) = Ok F /\ on_grid F axes V /\
    total (a_shape (rf_data F)) (fun idx => Cabs2 (a_at (rf_data F) idx)) * volume V (named (ndim f) axes) = total (a_shape (rf_data f)) (fun idx => Cabs2 (a_at (rf_data f) idx)) * volume U (named (ndim f) axes).
Proof.
  intros Sp Cf N Ug Hs. destruct (fft_named spl temporal old f (map Z.of_nat axes) axes U st Sp Cf N Ug Hs (fun x => iff_refl _)) as (F & EF & T).
  set (A := named (ndim f) axes) in *. assert (InA := fun a => named_same f axes U a Ug). fold A in InA.
  assert (UgA : on_grid f A U) by (apply (on_grid_sub f axes); [intros a; apply InA|exact Ug]).
  exists F, (VV f U). split; [exact EF|]. split; [intros a I; apply (T_grid f F A U st temporal old UgA T); now apply InA|].
  rewrite (t_shape _ _ _ _ _ _ _ T). rewrite (total_ext _ _ _ (fun idx I => f_equal Cabs2 (t_data _ _ _ _ _ _ _ T idx I))). apply energy_kops.
  intros a I. split; [exact (dim_lt f A U UgA a I)|]. split; [exact (proper_at f A U UgA a I)|exact (shape_at f A U UgA a I)].
Qed.

(** * Shifts *)
Lemma sort_nat_set l : forall x, In x (sort_Z l) <-> In x l.
Proof. intro x. assert (P := sort_Z_perm l). split; intro I; [exact (Permutation.Permutation_in x P I)|exact (Permutation.Permutation_in x (Permutation.Permutation_sym P) I)]. Qed.
Lemma move_ok s : forall axes tao x, NoDup axes -> (forall a, In a axes -> nth_error tao a = Some (Some (x a))) ->
  exists tao', move_origins tao (map (fun a => (Z.of_nat a, s a)) axes) = Ok tao' /\ length tao' = length tao /\
    forall a, nth_error tao' a = if is_named axes a then Some (Some (x a + s a)) else nth_error tao a.
Proof.
  induction axes as [|a axes IH]; intros tao x ND H.
  - exists tao. repeat split; reflexivity.
  - inversion ND as [|? ? N ND']; subst. assert (Ea := H a (or_introl eq_refl)). cbn [map move_origins]. rewrite (getidx_nat _ _ _ Ea). cbn [bind].
    assert (La : (a < length tao)%nat) by (apply nth_error_Some; congruence). rewrite setidx_at by exact La. cbn [bind].
    destruct (IH (upd tao a (Some (x a + s a))) x ND') as (tao' & E & Le & Hn).
    { intros b Ib. rewrite nth_error_upd. destruct (Nat.eqb_spec b a) as [->|]; [contradiction|]. apply H. now right. }
    exists tao'. split; [exact E|]. split; [rewrite Le; apply upd_length|]. intro b. rewrite Hn, nth_error_upd.
    replace (is_named (a :: axes) b) with ((b =? a)%nat || is_named axes b) by reflexivity. destruct (is_named axes b); rewrite ?Bool.orb_true_r, ?Bool.orb_false_r; [reflexivity|].
    destruct (Nat.eqb_spec b a) as [->|]; [|reflexivity]. destruct (Nat.ltb_spec a (length tao)); [reflexivity|lia].
Qed.
Lemma shift_step spl f axes s U st : linear_spline spl -> consistent f -> axes <> [] -> NoDup axes -> on_grid f axes U -> in_state f axes st ->
  let A := named (ndim f) axes in
  exists F F' G, transformed f A U st false false F /\ rf_data F' = rf_data F /\ rf_axes F' = rf_axes F /\ rf_ats F' = rf_ats F /\ length (rf_tao F') = length (rf_tao F) /\
    (forall a, In a axes -> nth a (rf_tao F') None = Some (u_x0 (U a) + s a)) /\ transformed F' A (VV f U) (negb st) false false G /\ consistent F' /\ on_grid F' A (VV f U) /\ in_state F' A (negb st) /\
    shift_grid_by spl f (map (fun a => (Z.of_nat a, s a)) axes) = Ok G.
Proof.
  intros Sp Cf N ND Ug Hs A. assert (InA := fun a => named_same f axes U a Ug). fold A in InA.
  assert (UgA : on_grid f A U) by (apply (on_grid_sub f axes); [intros a; apply InA|exact Ug]).
  destruct (fft_named spl false false f (sort_Z (map Z.of_nat axes)) axes U st Sp Cf N Ug Hs (sort_nat_set _)) as (F & EF & T). fold A in T.
  destruct (move_ok s axes (rf_tao F) (fun a => u_x0 (U a)) ND) as (tao' & Em & Lt & Hn).
  { intros a I. rewrite (t_tao _ _ _ _ _ _ _ T). now rewrite (proj2 (is_named_In A a) (proj2 (InA a) I)). }
  set (F' := mkrf (rf_data F) (rf_axes F) (rf_ats F) tao').
  assert (CF := T_consistent f F A U st false false Cf T). assert (UgF := T_grid f F A U st false false UgA T). assert (HsF := T_state f F A U st false false T).
  assert (CF' : consistent F') by (destruct CF; split; try assumption; unfold F'; cbn [rf_tao]; rewrite Lt; assumption).
  assert (UgF' : on_grid F' A (VV f U)) by exact UgF. assert (HsF' : in_state F' A (negb st)) by exact HsF.
  assert (NdF : ndim F' = ndim f) by exact (T_ndim f F A U st false false T).
  destruct (fft_named spl false false F' (sort_Z (map Z.of_nat axes)) axes (VV f U) (negb st) Sp CF' N) as (G & EG & T2).
  { intros a I. apply UgF'. now apply InA. }
  { intros a I. apply HsF'. now apply InA. }
  { apply sort_nat_set. }
  rewrite NdF in T2. fold A in T2. exists F, F', G. repeat (split; [first [assumption|reflexivity]|]). split.
  { intros a I. apply nth_error_nth. unfold F'. cbn [rf_tao]. rewrite Hn. now rewrite (proj2 (is_named_In axes a) I). }
  repeat (split; [assumption|]).
  unfold shift_grid_by.
  assert (Eid : mapM (fun p : Z * R => rmap (fun i => (i, snd p)) (axesidentify (fst p))) (map (fun a => (Z.of_nat a, s a)) axes) = Ok (map (fun a => (Z.of_nat a, s a)) axes)).
  { assert (D3 : forall a, In a axes -> (a < 3)%nat) by (intros a I; assert (L := grid_lt f axes U a Ug I); assert (L3 := c_dims f Cf); lia). clear -D3 f U.
    induction axes as [|a l IH]; [reflexivity|]. cbn [map mapM fst snd]. destruct (axesid f U a) as [E _]; [apply D3; now left|]. rewrite E. cbn [rmap bind]. rewrite IH by (intros; apply D3; now right). reflexivity. }
  rewrite Eid. cbn [bind]. unfold shift_fourier. rewrite map_map. change (map (fun x => fst (Z.of_nat x, s x)) axes) with (map Z.of_nat axes). rewrite EF. cbn [bind]. rewrite Em. cbn [bind]. exact EG.
Qed.
Lemma nth_moved p A idx a : NoDup A -> (forall b, In b A -> (b < length idx)%nat) -> nth a (moved p A idx) 0%Z = if is_named A a then p a (nth a idx 0%Z) else nth a idx 0%Z.
Proof.
  intros ND L. assert (Len : forall B, length (moved p B idx) = length idx) by (induction B as [|b B IHB]; [reflexivity|]; cbn [moved fold_right]; rewrite upd_length; exact IHB).
  induction A as [|b A IH]; [reflexivity|]. inversion ND as [|? ? N ND']; subst. cbn [moved fold_right]. fold (moved p A idx).
  replace (is_named (b :: A) a) with ((a =? b)%nat || is_named A a) by reflexivity. destruct (Nat.eqb_spec a b) as [->|Nab]; cbn [orb].
  - apply nth_upd_eq. change (b < length (moved p A idx))%nat. rewrite Len. apply L. now left.
  - rewrite nth_upd_ne by congruence. apply IH; [exact ND'|intros; apply L; now right].
Qed.
Lemma moved_length p idx : forall B, length (moved p B idx) = length idx.
Proof. induction B as [|b B IHB]; [reflexivity|]. cbn [moved fold_right]. rewrite upd_length. exact IHB. Qed.
Lemma dual_moved o x u : proper u -> dual (Some x) (dual o u) = mkuni (u_n u) x (u_dx u).
Proof.
  intros [N P]. unfold dual. cbn [u_n u_x0 u_dx]. f_equal. assert (H := PI_RGT_0). field. repeat split; first [lra | apply not_0_INR; lia].
Qed.
Lemma lattice_origin f U a : proper (U a) -> on_lattice f U a -> exists q : Z, u_x0 (VV f U a) = IZR q * u_dx (VV f U a).
Proof.
  intros P [E|[q E]]; unfold VV; rewrite E; cbn [dual u_x0 u_dx].
  - exists (- Z.of_nat (u_n (U a) / 2))%Z. rewrite opp_IZR, <- INR_IZR_INZ. ring.
  - exists q. reflexivity.
Qed.
Lemma shift_grids spl f axes s U st : linear_spline spl -> consistent f -> axes <> [] -> NoDup axes -> on_grid f axes U -> in_state f axes st ->
  exists G, shift_grid_by spl f (map (fun a => (Z.of_nat a, s a)) axes) = Ok G /\ a_shape (rf_data G) = a_shape (rf_data f) /\ rf_ats G = rf_ats f /\
    on_grid G axes (fun a => moved_by (s a) (U a)) /\ (forall a, (a < ndim f)%nat -> ~ In a axes -> nth_error (rf_axes G) a = nth_error (rf_axes f) a).
Proof.
  intros Sp Cf N ND Ug Hs. destruct (shift_step spl f axes s U st Sp Cf N ND Ug Hs) as (F & F' & G & T & Ed & Ex & Ea & Lt & Ho & T2 & CF' & UgF' & HsF' & E).
  set (A := named (ndim f) axes) in *. assert (InA := fun a => named_same f axes U a Ug). fold A in InA.
  assert (UgA : on_grid f A U) by (apply (on_grid_sub f axes); [intros a; apply InA|exact Ug]).
  assert (Shp : a_shape (rf_data G) = a_shape (rf_data f)) by (rewrite (t_shape _ _ _ _ _ _ _ T2), Ed; apply (t_shape _ _ _ _ _ _ _ T)).
  exists G. split; [exact E|]. split; [exact Shp|]. split; [|split].
  - apply nth_error_eq. intro a. rewrite (t_ats _ _ _ _ _ _ _ T2), Ea, (t_ats _ _ _ _ _ _ _ T). destruct (is_named A a) eqn:En; [|reflexivity]. rewrite Bool.negb_involutive. symmetry. apply Hs. apply InA. now apply is_named_In.
  - intros a I. assert (Ia := proj2 (InA a) I). destruct (T_grid F' G A (VV f U) (negb st) false false UgF' T2 a Ia) as (ax & E1 & (G1 & G2 & G3) & E3). exists ax. split; [exact E1|].
    assert (Eq : VV F' (VV f U) a = moved_by (s a) (U a)) by (unfold VV at 1; rewrite (Ho a I); apply dual_moved; exact (proper_at f A U UgA a Ia)).
    rewrite Eq in *. split; [split; [exact G1|split; [exact G2|exact G3]]|exact E3].
  - intros a L NI. assert (En : is_named A a = false) by (destruct (is_named A a) eqn:En; [|reflexivity]; apply is_named_In, InA in En; contradiction).
    rewrite (t_axes _ _ _ _ _ _ _ T2), En, Ex, (t_axes _ _ _ _ _ _ _ T), En. reflexivity.
Qed.
(** a whole number of cells *)
Lemma shift_phase spl f axes z U st : linear_spline spl -> consistent f -> axes <> [] -> NoDup axes -> on_grid f axes U -> in_state f axes st ->
  exists G, shift_grid_by spl f (map (fun a => (Z.of_nat a, IZR (z a) * u_dx (U a))) axes) = Ok G /\
    forall idx idx', in_shape (a_shape (rf_data f)) idx = true -> length idx' = length idx ->
      (forall a, (a < ndim f)%nat -> nth a idx' 0%Z = if is_named axes a then ((nth a idx 0 + z a) mod nth a (a_shape (rf_data f)) 0)%Z else nth a idx 0%Z) ->
      a_at (rf_data G) idx = Cmul (fold_right Cmul C1 (map (fun a => cis (sign false st * (u_x0 (VV f U a) * (IZR (nth a idx' 0 - nth a idx 0 - z a)%Z * u_dx (U a))))) (named (ndim f) axes))) (a_at (rf_data f) idx').
Proof.
  intros Sp Cf N ND Ug Hs. destruct (shift_step spl f axes (fun a => IZR (z a) * u_dx (U a)) U st Sp Cf N ND Ug Hs) as (F & F' & G & T & Ed & Ex & Ea & Lt & Ho & T2 & CF' & UgF' & HsF' & E).
  set (A := named (ndim f) axes) in *. assert (InA := fun a => named_same f axes U a Ug). fold A in InA.
  assert (UgA : on_grid f A U) by (apply (on_grid_sub f axes); [intros a; apply InA|exact Ug]).
  exists G. split; [exact E|]. intros idx idx' I Len Hi. set (sh := a_shape (rf_data f)) in *.
  assert (ShF : a_shape (rf_data F') = sh) by (rewrite Ed; apply (t_shape _ _ _ _ _ _ _ T)).
  rewrite (t_data _ _ _ _ _ _ _ T2) by (rewrite ShF; exact I). rewrite ShF, Ed.
  rewrite (kops_ext sh _ A _ (kops (KT f U st false false) (fun a => Z.to_nat (nth a sh 0%Z)) A (a_at (rf_data f))) idx I) by (intros i Hi'; now apply (t_data _ _ _ _ _ _ _ T)).
  set (p := fun a i => ((i + z a) mod nth a sh 0)%Z).
  rewrite (kops_move sh _ _ A p (fun a i => cis (sign false st * (u_x0 (VV f U a) * (IZR (p a i - i - z a) * u_dx (U a)))))); [|apply named_NoDup|intros a Ia; exact (dim_lt f A U UgA a Ia)| | |exact I].
  - assert (Em : moved p A idx = idx').
    { apply (nth_ext _ _ 0%Z 0%Z); [now rewrite moved_length|]. intros a La. rewrite moved_length, (in_shape_len sh idx I) in La.
      rewrite nth_moved; [|apply named_NoDup|intros b Ib; rewrite (in_shape_len sh idx I); exact (dim_lt f A U UgA b Ib)]. unfold A. rewrite named_is by exact La. symmetry. apply Hi. exact La. }
    rewrite Em. f_equal. f_equal. apply map_ext_in. intros a Ia. rewrite (Hi a (dim_lt f A U UgA a Ia)), (proj2 (is_named_In axes a) (proj1 (InA a) Ia)). reflexivity.
  - intros a i Ia Hr. unfold p. apply Z.mod_pos_bound. lia.
  - intros a i j Ia Hr Hj. assert (P := proper_at f A U UgA a Ia). assert (Sa : nth a sh 0%Z = Z.of_nat (u_n (U a))) by exact (shape_at f A U UgA a Ia). unfold p. rewrite Sa in *. rewrite Nat2Z.id.
    assert (Iax := proj1 (InA a) Ia). set (V := VV f U) in *. set (n := u_n (U a)) in *.
    assert (D : u_dx (V a) * u_dx (U a) = 2 * PI / INR n) by (apply dual_spacing; exact P).
    assert (N0 : INR n <> 0) by (apply not_0_INR; destruct P; fold n in H; lia).
    assert (Eq : dual (nth a (rf_tao F') None) (V a) = moved_by (IZR (z a) * u_dx (U a)) (U a)) by (rewrite (Ho a Iax); apply dual_moved; exact P).
    rewrite (csum_ext _ _ (fun m => Cmul (RtoC (/ INR n)) (cis (sign false st * ((u_x0 (V a) + IZR (Z.of_nat m) * u_dx (V a)) * (IZR (j - i - z a) * u_dx (U a))))))).
    + rewrite csum_scale, (delta (sign false st)) by (apply sign_cases || exact D || (destruct P; fold n in H; lia)).
      assert (Em : ((i + z a) mod Z.of_nat n =? j)%Z = ((j - i - z a) mod Z.of_nat n =? 0)%Z).
      { destruct (Z.eqb_spec ((j - i - z a) mod Z.of_nat n) 0) as [E0|E0].
        - apply Z.eqb_eq. apply Z.mod_divide in E0; [|lia]. destruct E0 as [q Eq0]. replace (i + z a)%Z with (j + (- q) * Z.of_nat n)%Z by lia. rewrite Z.mod_add by lia. apply Z.mod_small. lia.
        - apply Z.eqb_neq. intro Ej. apply E0. assert (Dm := Z.div_mod (i + z a) (Z.of_nat n) ltac:(lia)). replace (j - i - z a)%Z with ((- ((i + z a) / Z.of_nat n)) * Z.of_nat n)%Z by lia. apply Z.mod_mul. lia. }
      rewrite <- Em. destruct (Z.eqb_spec ((i + z a) mod Z.of_nat n) j) as [Ej|Ej]; [|ring]. rewrite Ej.
      transitivity (Cmul (RtoC (/ INR n * INR n)) (cis (sign false st * (u_x0 (V a) * (IZR (j - i - z a) * u_dx (U a)))))); [rewrite RtoC_mul; ring|]. rewrite Rinv_l by exact N0. unfold V. change (RtoC 1) with C1. ring.
    + intros m M. unfold KT. fold (V a). change (dual (nth a (rf_tao f) None) (U a)) with (V a). rewrite Eq. rewrite sign_negb.
      unfold n. rewrite <- (norm_pair (nth a (rf_tao f) None) (U a) P). change (dual (nth a (rf_tao f) None) (U a)) with (V a). rewrite RtoC_mul. unfold left_out.
      match goal with |- Cmul (Cmul ?x (cis ?p)) (Cmul ?y (cis ?q)) = Cmul (Cmul _ _) (cis ?t) => transitivity (Cmul (Cmul x y) (cis (p + q))); [rewrite cis_add; ring|f_equal; f_equal] end.
      unfold point, moved_by. cbn [u_x0 u_dx]. rewrite !minus_IZR. ring.
Qed.
Lemma shift_cells spl f axes z U st : linear_spline spl -> consistent f -> axes <> [] -> NoDup axes -> on_grid f axes U -> in_state f axes st ->
  (forall a, In a axes -> z a = 0%Z \/ on_lattice f U a) ->
  exists G, shift_grid_by spl f (map (fun a => (Z.of_nat a, IZR (z a) * u_dx (U a))) axes) = Ok G /\
    forall idx idx', in_shape (a_shape (rf_data f)) idx = true -> length idx' = length idx ->
      (forall a, (a < ndim f)%nat -> nth a idx' 0%Z = if is_named axes a then ((nth a idx 0 + z a) mod nth a (a_shape (rf_data f)) 0)%Z else nth a idx 0%Z) ->
      a_at (rf_data G) idx = a_at (rf_data f) idx'.
Proof.
  intros Sp Cf N ND Ug Hs Lat. destruct (shift_phase spl f axes z U st Sp Cf N ND Ug Hs) as (G & E & H). exists G. split; [exact E|]. intros idx idx' I Len Hi. rewrite (H idx idx' I Len Hi).
  set (A := named (ndim f) axes) in *. assert (InA := fun a => named_same f axes U a Ug). fold A in InA. set (sh := a_shape (rf_data f)) in *.
  rewrite (map_ext_in _ (fun _ => C1)).
  - assert (Eone : forall l : list nat, fold_right Cmul C1 (map (fun _ : nat => C1) l) = C1) by (induction l as [|x l IH]; [reflexivity|]; cbn [map fold_right]; rewrite IH; ring). rewrite Eone. ring.
  - intros a Ia. assert (Iax := proj1 (InA a) Ia). destruct (Ug a Iax) as (ax & _ & (_ & _ & P) & _). assert (Sa : nth a sh 0%Z = Z.of_nat (u_n (U a))) by exact (shape_at f axes U Ug a Iax).
    assert (La : (a < ndim f)%nat) by exact (grid_lt f axes U a Ug Iax). assert (Hi' := Hi a La). rewrite (proj2 (is_named_In axes a) Iax), Sa in Hi'.
    assert (B := in_shape_nth sh idx a I La). rewrite Sa in B. set (i := nth a idx 0%Z) in *. set (j := nth a idx' 0%Z) in *. set (n := u_n (U a)) in *. set (V := VV f U).
    assert (D : u_dx (V a) * u_dx (U a) = 2 * PI / INR n) by (apply dual_spacing; exact P). assert (N0 : INR n <> 0) by (apply not_0_INR; lia).
    assert (Dm := Z.div_mod (i + z a) (Z.of_nat n) ltac:(lia)). rewrite <- Hi' in Dm. assert (Bj := Z.mod_pos_bound (i + z a) (Z.of_nat n) ltac:(lia)). rewrite <- Hi' in Bj.
    set (q := ((i + z a) / Z.of_nat n)%Z) in *. assert (Eq0 : (j - i - z a = - q * Z.of_nat n)%Z) by lia. clearbody i j q.
    destruct (Lat a Iax) as [Zz|Lt].
    + assert (q = 0%Z) by (assert (q = 0 \/ q <= -1 \/ 1 <= q)%Z by lia; nia). rewrite Eq0, H0. replace (sign false st * (u_x0 (V a) * (IZR (- 0 * Z.of_nat n) * u_dx (U a)))) with 0 by (cbn; ring). apply cis_0.
    + destruct (lattice_origin f U a P Lt) as [k Ek]. fold V in Ek. rewrite Ek, Eq0, mult_IZR, <- INR_IZR_INZ.
      replace (sign false st * (IZR k * u_dx (V a) * (IZR (- q) * INR n * u_dx (U a)))) with (2 * PI * (sign false st * IZR (k * - q))).
      2:{ rewrite mult_IZR. transitivity (sign false st * (IZR k * IZR (- q)) * INR n * (u_dx (V a) * u_dx (U a))); [|ring]. rewrite D. field. exact N0. }
      destruct (sign_cases false st) as [-> | ->]; [rewrite Rmult_1_l; apply cis_period|]. replace (-1 * IZR (k * - q)) with (IZR (- (k * - q))) by (rewrite opp_IZR; ring). apply cis_period.
Qed.
(** one shift after the other *)
Lemma kernel_same f g U V st a m j : nth a (rf_tao f) None = nth a (rf_tao g) None -> U a = V a -> KT f U st false false a m j = KT g V st false false a m j.
Proof. intros E EU. unfold KT, left_out. now rewrite E, EU. Qed.
Lemma shift_add spl f axes s t U st : linear_spline spl -> consistent f -> axes <> [] -> NoDup axes -> on_grid f axes U -> in_state f axes st ->
  exists G H D, shift_grid_by spl f (map (fun a => (Z.of_nat a, s a)) axes) = Ok G /\ shift_grid_by spl G (map (fun a => (Z.of_nat a, t a)) axes) = Ok H /\
    shift_grid_by spl f (map (fun a => (Z.of_nat a, s a + t a)) axes) = Ok D /\ same_field H D.
Proof.
  intros Sp Cf N ND Ug Hs. destruct (shift_step spl f axes s U st Sp Cf N ND Ug Hs) as (F & F' & G & T & Ed & Ex & Ea & Lt & Ho & T2 & CF' & UgF' & HsF' & E).
  destruct (shift_step spl f axes (fun a => s a + t a) U st Sp Cf N ND Ug Hs) as (F0 & F0' & D & T0 & Ed0 & Ex0 & Ea0 & Lt0 & Ho0 & T20 & CF0' & UgF0' & HsF0' & E0).
  set (A := named (ndim f) axes) in *. assert (InA := fun a => named_same f axes U a Ug). fold A in InA.
  assert (UgA : on_grid f A U) by (apply (on_grid_sub f axes); [intros a; apply InA|exact Ug]).
  assert (CG := T_consistent F' G A _ _ _ _ CF' T2). assert (UgG := T_grid F' G A _ _ _ _ UgF' T2). assert (HsG := T_state F' G A _ _ _ _ T2). rewrite Bool.negb_involutive in HsG.
  assert (NdF' : ndim F' = ndim f) by (unfold ndim; now rewrite Ed, (t_shape _ _ _ _ _ _ _ T)). assert (NdG : ndim G = ndim f) by (rewrite (T_ndim F' G A _ _ _ _ T2); exact NdF').
  destruct (shift_step spl G axes t (VV F' (VV f U)) st Sp CG N ND) as (F1 & F1' & H & T1 & Ed1 & Ex1 & Ea1 & Lt1 & Ho1 & T21 & CF1' & UgF1' & HsF1' & E1).
  { intros a I. apply UgG. now apply InA. }
  { intros a I. apply HsG. now apply InA. }
  rewrite NdG in *. fold A in T1, T21, UgF1', HsF1'. exists G, H, D. split; [exact E|]. split; [exact E1|]. split; [exact E0|].
  set (sh := a_shape (rf_data f)).
  assert (ShF : a_shape (rf_data F) = sh) by apply (t_shape _ _ _ _ _ _ _ T). assert (ShF' : a_shape (rf_data F') = sh) by now rewrite Ed. assert (ShG : a_shape (rf_data G) = sh) by (rewrite (t_shape _ _ _ _ _ _ _ T2); exact ShF').
  assert (ShF1 : a_shape (rf_data F1) = sh) by (rewrite (t_shape _ _ _ _ _ _ _ T1); exact ShG). assert (ShF1' : a_shape (rf_data F1') = sh) by now rewrite Ed1. assert (ShH : a_shape (rf_data H) = sh) by (rewrite (t_shape _ _ _ _ _ _ _ T21); exact ShF1').
  assert (ShF0 : a_shape (rf_data F0) = sh) by apply (t_shape _ _ _ _ _ _ _ T0). assert (ShF0' : a_shape (rf_data F0') = sh) by now rewrite Ed0. assert (ShD : a_shape (rf_data D) = sh) by (rewrite (t_shape _ _ _ _ _ _ _ T20); exact ShF0').
  (* the frequency grid comes back *)
  assert (Vb : forall a, In a A -> VV G (VV F' (VV f U)) a = VV f U a) by (intros a I; exact (T_back F' G A _ _ _ _ UgF' T2 a I)).
  (* and so do the data *)
  assert (T1' : transformed G A (VV F' (VV f U)) (negb (negb st)) false false F1) by now rewrite Bool.negb_involutive.
  assert (D1 : forall idx, in_shape sh idx = true -> a_at (rf_data F1) idx = a_at (rf_data F) idx).
  { intros idx I. rewrite (round_data F' G F1 A (VV f U) (negb st) false false CF' UgF' (named_NoDup _ _) T2 T1' idx) by (rewrite ShF'; exact I). now rewrite Ed. }
  assert (Tao : forall a, In a A -> nth a (rf_tao F1') None = nth a (rf_tao F0') None).
  { intros a I. apply InA in I. rewrite (Ho1 a I), (Ho0 a I). f_equal. unfold VV at 1. rewrite (Ho a I). cbn [dual u_x0]. ring. }
  split; [now rewrite ShH, ShD|]. split; [|split; [|split]].
  - intros idx I. rewrite ShH in I. rewrite (t_data _ _ _ _ _ _ _ T21), (t_data _ _ _ _ _ _ _ T20) by (rewrite ?ShF1', ?ShF0'; exact I). rewrite ShF1', ShF0'.
    rewrite (kops_kernel sh _ (KT F0' (VV f U) (negb st) false false) A); [|intros a Ia; exact (dim_lt f A U UgA a Ia)|intros a m j Ia _ _; apply kernel_same; [now apply Tao|now apply Vb]|exact I].
    apply (kops_ext sh); [exact I|]. intros i Hi. rewrite Ed1, Ed0, (D1 i Hi). rewrite (t_data _ _ _ _ _ _ _ T) by exact Hi. now rewrite (t_data _ _ _ _ _ _ _ T0) by exact Hi.
  - apply nth_error_eq. intro a. rewrite !nth_error_map', (t_axes _ _ _ _ _ _ _ T21), (t_axes _ _ _ _ _ _ _ T20), Ex1, Ex0, (t_axes _ _ _ _ _ _ _ T1), (t_axes _ _ _ _ _ _ _ T2), Ex, (t_axes _ _ _ _ _ _ _ T), (t_axes _ _ _ _ _ _ _ T0).
    destruct (is_named A a) eqn:En; [|reflexivity]. apply is_named_In in En. destruct (nth_error (rf_axes f) a); cbn [option_map]; [|reflexivity]. f_equal. cbn [new_ax ra_grid]. now rewrite (Tao a En), (Vb a En).
  - apply nth_error_eq. intro a. rewrite !nth_error_map', (t_axes _ _ _ _ _ _ _ T21), (t_axes _ _ _ _ _ _ _ T20), Ex1, Ex0, (t_axes _ _ _ _ _ _ _ T1), (t_axes _ _ _ _ _ _ _ T2), Ex, (t_axes _ _ _ _ _ _ _ T), (t_axes _ _ _ _ _ _ _ T0).
    destruct (is_named A a) eqn:En; [|reflexivity]. apply is_named_In in En. destruct (nth_error (rf_axes f) a); cbn [option_map]; [|reflexivity]. f_equal. cbn [new_ax ra_node]. now rewrite (Tao a En), (Vb a En).
  - apply nth_error_eq. intro a. rewrite (t_ats _ _ _ _ _ _ _ T21), (t_ats _ _ _ _ _ _ _ T20), Ea1, Ea0, (t_ats _ _ _ _ _ _ _ T1), (t_ats _ _ _ _ _ _ _ T2), Ea, (t_ats _ _ _ _ _ _ _ T), (t_ats _ _ _ _ _ _ _ T0). now destruct (is_named A a).
Qed.
(** * Conjugate grids *)
Lemma conjugate_spec spl temporal old f axes U st :
  linear_spline spl -> consistent f -> axes <> [] -> on_grid f axes U -> in_state f axes st ->
  exists F, fft spl temporal old f (map Z.of_nat axes) = Ok F /\
    forall a, In a axes -> exists ax, nth_error (rf_axes F) a = Some ax /\ length (ra_grid ax) = u_n (U a) /\
      (forall i, (S i < u_n (U a))%nat -> nth (S i) (ra_grid ax) 0 - nth i (ra_grid ax) 0 = 2 * PI / (INR (u_n (U a)) * u_dx (U a))) /\
      (nth a (rf_tao f) None = None -> nth (u_n (U a) / 2) (ra_grid ax) 1 = 0) /\
      (forall x, nth a (rf_tao f) None = Some x -> nth 0 (ra_grid ax) 0 = x) /\
      exists G axg, fft spl temporal old F (map Z.of_nat axes) = Ok G /\ nth_error (rf_axes G) a = Some axg /\ ra_grid axg = grid_of (U a).
Proof.
  intros Sp Cf N Ug Hs. destruct (fft_is spl temporal old f axes U st Sp Cf N Ug Hs) as (F & EF & _ & OF & _ & _). destruct (fft_round spl temporal old f axes U st Sp Cf N Ug Hs) as (F' & G & EF' & EG & (_ & _ & Mg & _ & _) & _ & Nm).
  assert (F' = F) by congruence. subst F'. exists F. split; [exact EF|]. intros a I. destruct (OF a I) as (ax & Ea & (Gr & _ & _) & _). destruct (Ug a I) as (ax0 & E0 & (G0 & _ & P) & _).
  exists ax. split; [exact Ea|]. rewrite Gr. split; [now rewrite grid_length|]. set (u := dual (nth a (rf_tao f) None) (U a)) in *. assert (Nu : u_n u = u_n (U a)) by reflexivity. split; [|split; [|split]].
  - intros i L. rewrite !grid_at by (rewrite Nu; lia). rewrite point_S. unfold u. cbn [dual u_dx]. ring.
  - intro En. assert (Lh : (u_n (U a) / 2 < u_n u)%nat) by (rewrite Nu; apply Nat.div_lt; destruct P; lia). rewrite (nth_indep _ 1 0) by (rewrite grid_length; exact Lh). rewrite grid_at by exact Lh.
    unfold u, point. rewrite En. cbn [dual u_x0 u_dx]. rewrite <- INR_IZR_INZ. ring.
  - intros x Ex. rewrite grid_at by (rewrite Nu; destruct P; lia). unfold u, point. rewrite Ex. cbn [dual u_x0 u_dx]. cbn. ring.
  - destruct (Nm a ax0 I E0) as (axg & Eg & _). exists G, axg. split; [exact EG|]. split; [exact Eg|].
    assert (X : nth_error (map ra_grid (rf_axes G)) a = nth_error (map ra_grid (rf_axes f)) a) by now rewrite Mg. rewrite !nth_error_map', Eg, E0 in X. cbn in X. congruence.
Qed.
(** * Axes in different domains *)
Lemma all_axes_false p A a : (forall b, In b A -> exists x, p (Z.of_nat b) = Ok x) -> In a A -> p (Z.of_nat a) = Ok false -> all_axes p (map Z.of_nat A) = Ok false.
Proof.
  induction A as [|b A IH]; intros H I0 E; [destruct I0|]. destruct I0 as [-> | I]; cbn [map all_axes].
  - rewrite E. reflexivity.
  - destruct (H b (or_introl eq_refl)) as ([|] & Eb); rewrite Eb; cbn [bind]; [|reflexivity]. apply IH; [intros c J; apply H; now right|exact I|exact E].
Qed.
Lemma fft_mixed spl temporal old f axes U a b :
  linear_spline spl -> consistent f -> on_grid f axes U -> In a axes -> In b axes ->
  nth_error (rf_ats f) a <> Some (Some true) -> nth_error (rf_ats f) b <> Some (Some false) ->
  fft spl temporal old f (map Z.of_nat axes) = Err ValueError.
Proof.
  intros Sp Cf Ug Ia Ib Na Nb. assert (Lt : forall c, In c axes -> (c < ndim f)%nat) by (intros c I; eapply grid_lt; eassumption).
  unfold fft. rewrite (sorted_named (ndim f) axes Lt).
  assert (In' : forall c, In c (named (ndim f) axes) <-> In c axes) by (intro c; rewrite named_In; split; [tauto|intro I; split; [exact I|now apply Lt]]).
  rewrite all_axes_true.
  2:{ intros c I. apply In' in I. destruct (Ug c I) as (ax & E & (G & Nd & P) & _). rewrite (getidx_nat _ _ _ E). cbn [rmap]. f_equal. apply (islinear_grid ax (U c)); [exact Nd|]. rewrite G. apply grid_length. }
  cbn [bind negb].
  assert (St : forall c, In c axes -> exists s, nth_error (rf_ats f) c = Some s).
  { intros c I. destruct (nth_error (rf_ats f) c) eqn:E; [eauto|]. apply nth_error_None in E. specialize (Lt c I). destruct Cf as [_ C2 _ _]. unfold ndim in *. lia. }
  unfold rstate. rewrite (all_axes_false _ _ a).
  - cbn [bind]. rewrite (all_axes_false _ _ b).
    + reflexivity.
    + intros c I. destruct (St c (proj1 (In' c) I)) as (s & E). rewrite (getidx_nat _ _ _ E). cbn [rmap]. eauto.
    + now apply In'.
    + destruct (St b Ib) as (s & E). rewrite (getidx_nat _ _ _ E). cbn [rmap]. f_equal. destruct s as [[|]|]; try reflexivity. congruence.
  - intros c I. destruct (St c (proj1 (In' c) I)) as (s & E). rewrite (getidx_nat _ _ _ E). cbn [rmap]. eauto.
  - now apply In'.
  - destruct (St a Ia) as (s & E). rewrite (getidx_nat _ _ _ E). cbn [rmap]. f_equal. destruct s as [[|]|]; try reflexivity. congruence.
Qed.
