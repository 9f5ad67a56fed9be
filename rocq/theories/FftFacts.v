(** What Field.fft computes on uniform grids. *)
From Coq Require Import Reals String Lra Lia ZArith List Ring Sorting.Sorted.
From Verif Require Import PyBase PyBaseFacts NumpyModel NdModel NdFacts FieldModel FieldReduceFacts FieldIntFacts FieldGridFacts CplxModel CplxFacts FftModel FftSpec FftKernel FftAxes.
Import ListNotations.
Local Open Scope R_scope.

(** * The set of axes *)
Lemma sorted_unique (l m : list Z) : StronglySorted Z.lt l -> StronglySorted Z.lt m -> (forall x, In x l <-> In x m) -> l = m.
Proof.
  revert m. induction l as [|x l IH]; intros [|y m] Sl Sm E; [reflexivity|exfalso; apply (E y); now left|exfalso; apply (E x); now left|].
  inversion Sl as [|? ? Sl' Fl]; subst. inversion Sm as [|? ? Sm' Fm]; subst. rewrite Forall_forall in Fl, Fm.
  assert (x = y).
  { destruct (proj1 (E x) (or_introl eq_refl)) as [->|I]; [reflexivity|]. destruct (proj2 (E y) (or_introl eq_refl)) as [->|J]; [reflexivity|].
    specialize (Fl _ J). specialize (Fm _ I). lia. }
  subst y. f_equal. apply IH; try assumption. intro z. split; intro I.
  - destruct (proj1 (E z) (or_intror I)) as [->|J]; [|exact J]. specialize (Fl _ I). lia.
  - destruct (proj2 (E z) (or_intror I)) as [->|J]; [|exact J]. specialize (Fm _ I). lia.
Qed.
Lemma strict_of_nodup (l : list Z) : StronglySorted Z.le l -> NoDup l -> StronglySorted Z.lt l.
Proof.
  induction l as [|x l IH]; intros Sl N; [constructor|]. inversion Sl as [|? ? Sl' Fl]; subst. inversion N as [|? ? N1 N2]; subst. constructor; [now apply IH|].
  rewrite Forall_forall in *. intros y I. specialize (Fl y I). assert (x <> y) by (intros ->; contradiction). lia.
Qed.
Lemma strict_seq s n : StronglySorted Z.lt (map Z.of_nat (seq s n)).
Proof.
  revert s. induction n as [|n IH]; intro s; [constructor|]. cbn [seq map]. constructor; [apply IH|]. apply Forall_forall. intros x I. apply in_map_iff in I.
  destruct I as (k & <- & I). apply in_seq in I. lia.
Qed.
Lemma strict_filter p l : StronglySorted Z.lt (map Z.of_nat l) -> StronglySorted Z.lt (map Z.of_nat (filter p l)).
Proof.
  induction l as [|x l IH]; intro Sl; [constructor|]. inversion Sl as [|? ? Sl' Fl]; subst. cbn [filter]. destruct (p x); [|now apply IH]. cbn [map]. constructor; [now apply IH|].
  rewrite Forall_forall in *. intros y I. apply Fl. apply in_map_iff in I. destruct I as (k & <- & I). apply in_map. now apply filter_In in I.
Qed.
Lemma is_named_In axes a : is_named axes a = true <-> In a axes.
Proof. unfold is_named. rewrite existsb_exists. split; [intros (x & I & E); apply Nat.eqb_eq in E; now subst|intro I; exists a; split; [exact I|apply Nat.eqb_refl]]. Qed.
Lemma named_In nd axes a : In a (named nd axes) <-> In a axes /\ (a < nd)%nat.
Proof. unfold named. rewrite filter_In, in_seq. fold (is_named axes a). rewrite is_named_In. intuition lia. Qed.
Lemma named_NoDup nd axes : NoDup (named nd axes).
Proof. apply NoDup_filter, seq_NoDup. Qed.
Lemma sorted_set_sorted l : StronglySorted Z.lt (sorted_set l).
Proof. apply strict_of_nodup; [apply sort_Z_sorted|apply sorted_set_NoDup]. Qed.
Lemma sorted_named nd axes : (forall a, In a axes -> (a < nd)%nat) -> sorted_set (map Z.of_nat axes) = map Z.of_nat (named nd axes).
Proof.
  intro H. apply sorted_unique; [apply sorted_set_sorted|apply strict_filter, strict_seq|]. intro x. rewrite sorted_set_In, !in_map_iff. split; intros (k & E & I); exists k; (split; [exact E|]).
  - apply named_In. split; [exact I|now apply H].
  - now apply named_In in I.
Qed.

(** * Small facts *)
Lemma getidx_nat {X} (l : list X) a x : nth_error l a = Some x -> getidx l (Z.of_nat a) = Ok x.
Proof. intro H. apply getidx_some. exists a. split; [|exact H]. apply py_pos_nat. apply nth_error_Some. congruence. Qed.
Lemma mapM_nat {B} (f : Z -> res B) (g : nat -> B) A : (forall a, In a A -> f (Z.of_nat a) = Ok (g a)) -> mapM f (map Z.of_nat A) = Ok (map g A).
Proof.
  induction A as [|a A IH]; intro H; [reflexivity|]. cbn [map mapM]. rewrite H by now left. cbn [bind]. rewrite IH by (intros; apply H; now right). reflexivity.
Qed.
Lemma all_axes_true p A : (forall a, In a A -> p (Z.of_nat a) = Ok true) -> all_axes p (map Z.of_nat A) = Ok true.
Proof. induction A as [|a A IH]; intro H; [reflexivity|]. cbn [map all_axes]. rewrite H by now left. cbn [bind]. apply IH. intros; apply H; now right. Qed.
Lemma rstate_nat ats A st : A <> [] -> (forall a, In a A -> nth_error ats a = Some (Some st)) -> rstate ats (map Z.of_nat A) = Ok (Some st).
Proof.
  intros N H. unfold rstate. destruct st.
  - rewrite all_axes_true; [reflexivity|]. intros a I. rewrite (getidx_nat _ _ _ (H a I)). reflexivity.
  - destruct A as [|a A]; [congruence|]. cbn [map all_axes]. rewrite (getidx_nat _ _ _ (H a (or_introl eq_refl))). cbn [rmap state_is Bool.eqb bind].
    rewrite all_axes_true; [reflexivity|]. intros b I. rewrite (getidx_nat _ _ _ (H b (or_intror I))). reflexivity.
Qed.
Lemma upd_len' {A} (l : list A) a x : length (upd l a x) = length l.
Proof. apply upd_length. Qed.

(** * Sums over several axes *)
Lemma kops_scale (c : nat -> C) K n A : forall F idx, kops (fun a i j => Cmul (c a) (K a i j)) n A F idx = Cmul (fold_right Cmul C1 (map c A)) (kops K n A F idx).
Proof.
  induction A as [|a A IH]; intros F idx; [cbn; ring|].
  transitivity (kop a (n a) (fun i j => Cmul (c a) (K a i j)) (kops (fun a i j => Cmul (c a) (K a i j)) n A F) idx); [reflexivity|].
  transitivity (Cmul (Cmul (c a) (fold_right Cmul C1 (map c A))) (kop a (n a) (K a) (kops K n A F) idx)); [|reflexivity].
  unfold kop. rewrite <- csum_scale. apply csum_ext. intros j J. rewrite IH. ring.
Qed.
Lemma kops_conj K n A : forall F idx, Cconj (kops K n A F idx) = kops (fun a i j => Cconj (K a i j)) n A (fun i => Cconj (F i)) idx.
Proof.
  induction A as [|a A IH]; intros F idx; [reflexivity|].
  transitivity (Cconj (kop a (n a) (K a) (kops K n A F) idx)); [reflexivity|].
  transitivity (kop a (n a) (fun i j => Cconj (K a i j)) (kops (fun a i j => Cconj (K a i j)) n A (fun i => Cconj (F i))) idx); [|reflexivity].
  unfold kop. rewrite csum_conj. apply csum_ext. intros j J. now rewrite Cconj_mul, IH.
Qed.
Lemma kops_kernel sh K L A : (forall a, In a A -> (a < length sh)%nat) ->
  (forall a i j, In a A -> (0 <= i < nth a sh 0)%Z -> (0 <= j < nth a sh 0)%Z -> K a i j = L a i j) ->
  forall F idx, in_shape sh idx = true -> kops K (fun a => Z.to_nat (nth a sh 0%Z)) A F idx = kops L (fun a => Z.to_nat (nth a sh 0%Z)) A F idx.
Proof.
  induction A as [|a A IH]; intros LA H F idx I; [reflexivity|].
  transitivity (kop a (Z.to_nat (nth a sh 0%Z)) (K a) (kops K (fun a => Z.to_nat (nth a sh 0%Z)) A F) idx); [reflexivity|].
  transitivity (kop a (Z.to_nat (nth a sh 0%Z)) (L a) (kops L (fun a => Z.to_nat (nth a sh 0%Z)) A F) idx); [|reflexivity].
  unfold kop. apply csum_ext. intros j J. f_equal.
  - apply H; [now left|apply in_shape_nth; [exact I|apply LA; now left]|lia].
  - apply IH; [intros; apply LA; now right|intros; apply H; try assumption; now right|]. apply in_shape_upd; [exact I|lia].
Qed.
Lemma sops_cis v A : forall F idx, sops (fun a i => cis (v a i)) A F idx = Cmul (F idx) (cis (fold_right Rplus 0 (map (fun a => v a (nth a idx 0%Z)) A))).
Proof.
  induction A as [|a A IH]; intros F idx; [cbn; rewrite cis_0; ring|].
  transitivity (sop a (fun i => cis (v a i)) (sops (fun a i => cis (v a i)) A F) idx); [reflexivity|]. unfold sop. rewrite IH. cbn [map fold_right]. rewrite cis_add. ring.
Qed.
Lemma fold_opp {B} (w : B -> R) A : - fold_right Rplus 0 (map w A) = fold_right Rplus 0 (map (fun a => - w a) A).
Proof. induction A as [|a A IH]; cbn; [ring|]. rewrite <- IH. ring. Qed.
Lemma fold_cis {B} (w : B -> R) A : cis (fold_right Rplus 0 (map w A)) = fold_right Cmul C1 (map (fun a => cis (w a)) A).
Proof. induction A as [|a A IH]; cbn; [apply cis_0|]. now rewrite cis_add, IH. Qed.
Lemma fold_RtoC {B} (w : B -> R) A : RtoC (fold_right Rmult 1 (map w A)) = fold_right Cmul C1 (map (fun a => RtoC (w a)) A).
Proof. induction A as [|a A IH]; cbn; [reflexivity|]. now rewrite RtoC_mul, IH. Qed.
Lemma fold_Cmul {B} (v w : B -> C) A : Cmul (fold_right Cmul C1 (map v A)) (fold_right Cmul C1 (map w A)) = fold_right Cmul C1 (map (fun a => Cmul (v a) (w a)) A).
Proof. induction A as [|a A IH]; cbn; [ring|]. rewrite <- IH. ring. Qed.
Lemma fold_Rmult {B} (v w : B -> R) A : fold_right Rmult 1 (map v A) * fold_right Rmult 1 (map w A) = fold_right Rmult 1 (map (fun a => v a * w a) A).
Proof. induction A as [|a A IH]; cbn; [ring|]. rewrite <- IH. ring. Qed.
Lemma fold_pos {B} (v : B -> R) A : (forall a, In a A -> 0 < v a) -> 0 < fold_right Rmult 1 (map v A).
Proof. induction A as [|a A IH]; intro H; cbn; [lra|]. apply Rmult_lt_0_compat; [apply H; now left|apply IH; intros; apply H; now right]. Qed.
Lemma norm_ok (d : nat -> R) (n : nat -> Z) A : (forall a, In a A -> 0 < d a) -> (forall a, In a A -> (0 < n a)%Z) ->
  sqrt (fold_right Rmult 1 (map d A) * fold_right Rmult 1 (map IZR (map n A)) / ((2 * PI) ^ length (map Z.of_nat A) / fold_right Rmult 1 (map d A)))
  = fold_right Rmult 1 (map (fun a => sqrt (IZR (n a)) * (d a / sqrt (2 * PI))) A).
Proof.
  intros D N. assert (P2 : 0 < 2 * PI) by (assert (H := PI_RGT_0); lra). apply sqrt_lem_1.
  - rewrite map_map. assert (A1 := fold_pos d A D). assert (A2 : 0 < fold_right Rmult 1 (map (fun a => IZR (n a)) A)) by (apply fold_pos; intros a I; apply IZR_lt, N, I).
    assert (A3 : 0 < (2 * PI) ^ length (map Z.of_nat A)) by now apply pow_lt. apply Rlt_le. apply Rmult_lt_0_compat; [now apply Rmult_lt_0_compat|]. apply Rinv_0_lt_compat.
    apply Rmult_lt_0_compat; [exact A3|now apply Rinv_0_lt_compat].
  - apply Rlt_le, fold_pos. intros a I. apply Rmult_lt_0_compat; [apply sqrt_lt_R0, IZR_lt, N, I|]. apply Rmult_lt_0_compat; [now apply D|]. apply Rinv_0_lt_compat, sqrt_lt_R0, P2.
  - rewrite map_map, map_length. revert D N. induction A as [|a A IH]; intros D N; cbn [map fold_right length pow]; [field|].
    assert (Da := D a (or_introl eq_refl)). assert (Na := N a (or_introl eq_refl)). apply IZR_lt in Na.
    specialize (IH (fun b I => D b (or_intror I)) (fun b I => N b (or_intror I))).
    assert (A1 := fold_pos d A (fun b I => D b (or_intror I))). 
    assert (A3 : 0 < (2 * PI) ^ length A) by now apply pow_lt.
    set (Y := fold_right Rmult 1 (map (fun a0 : nat => sqrt (IZR (n a0)) * (d a0 / sqrt (2 * PI))) A)) in *. set (dV := fold_right Rmult 1 (map d A)) in *.
    set (NN := fold_right Rmult 1 (map (fun x : nat => IZR (n x)) A)) in *. set (pw := (2 * PI) ^ length A) in *. clearbody Y dV NN pw.
    transitivity ((sqrt (IZR (n a)) * sqrt (IZR (n a))) * (d a * d a / (sqrt (2 * PI) * sqrt (2 * PI))) * (Y * Y)); [field; apply Rgt_not_eq, sqrt_lt_R0, P2|].
    rewrite IH, sqrt_sqrt by lra. rewrite sqrt_sqrt by lra. assert (H := PI_RGT_0). field. repeat split; lra.
Qed.

Lemma Cmul_assoc_ a b c : Cmul a (Cmul b c) = Cmul (Cmul a b) c.
Proof. ring. Qed.
(** * The steps of fft *)
Section steps.
Variables (spl : rspline) (f : rfield) (A : list nat) (U : nat -> uni) (st : bool).
Hypothesis Sp : linear_spline spl.
Hypothesis Cf : consistent f.
Hypothesis Ug : on_grid f A U.
Hypothesis Hs : in_state f A st.
Hypothesis ND : NoDup A.
Hypothesis NE : A <> [].
Let V a := dual (nth a (rf_tao f) None) (U a).

Lemma dim_lt a : In a A -> (a < ndim f)%nat.
Proof. intro I. destruct (Ug a I) as (ax & _ & _ & E). unfold ndim. apply nth_error_Some. congruence. Qed.
Lemma shape_at a : In a A -> nth a (a_shape (rf_data f)) 0%Z = Z.of_nat (u_n (U a)).
Proof. intro I. destruct (Ug a I) as (ax & _ & _ & E). now apply nth_error_nth. Qed.
Lemma proper_at a : In a A -> proper (U a).
Proof. intro I. destruct (Ug a I) as (ax & _ & (_ & _ & P) & _). exact P. Qed.
Lemma tao_at a : In a A -> nth_error (rf_tao f) a = Some (nth a (rf_tao f) None).
Proof. intro I. apply nth_error_nth'. rewrite (c_tao f Cf). now apply dim_lt. Qed.
Lemma V_n a : u_n (V a) = u_n (U a).
Proof. reflexivity. Qed.

Lemma step_linear : all_axes (fun i => rmap rislinear (getidx (rf_axes f) i)) (map Z.of_nat A) = Ok true.
Proof.
  apply all_axes_true. intros a I. destruct (Ug a I) as (ax & E & (G & Nd & P) & _). rewrite (getidx_nat _ _ _ E). cbn [rmap]. f_equal.
  apply (islinear_grid ax (U a)); [exact Nd|]. rewrite G. apply grid_length.
Qed.
Lemma step_grids : conjugate_grid f (map Z.of_nat A) = Ok (map (fun a => (Z.of_nat a, grid_of (V a))) A).
Proof.
  apply mapM_nat. intros a I. destruct (Ug a I) as (ax & E & Ax & Sh). rewrite (conjugate_grid_ok f a ax (U a) (nth a (rf_tao f) None)) by (assumption || now apply tao_at). reflexivity.
Qed.
Lemma step_x0 : mapM (fun i => let! ax := getidx (rf_axes f) i in rmap (pair i) (getidx (ra_grid ax) 0)) (map Z.of_nat A) = Ok (map (fun a => (Z.of_nat a, u_x0 (U a))) A).
Proof.
  apply mapM_nat. intros a I. destruct (Ug a I) as (ax & E & (G & Nd & P) & Sh). rewrite (getidx_nat _ _ _ E). cbn [bind]. rewrite G, grid_first by apply P. reflexivity.
Qed.
Lemma step_k0 : mapM (fun p : Z * list R => rmap (pair (fst p)) (getidx (snd p) 0)) (map (fun a => (Z.of_nat a, grid_of (V a))) A) = Ok (map (fun a => (Z.of_nat a, u_x0 (V a))) A).
Proof.
  assert (P : forall a, In a A -> (2 <= u_n (V a))%nat) by (intros a I; apply (proper_at a I)). revert P. generalize V as W. clear. intros W P.
  induction A as [|a A' IH]; [reflexivity|]. cbn [map mapM fst snd]. rewrite grid_first by (apply P; now left). cbn [rmap bind]. rewrite IH by (intros; apply P; now right). reflexivity.
Qed.
Lemma step_dx : mapM (fun i => let! ax := getidx (rf_axes f) i in rspacing ax) (map Z.of_nat A) = Ok (map (fun a => u_dx (U a)) A).
Proof. apply mapM_nat. intros a I. destruct (Ug a I) as (ax & E & Ax & Sh). rewrite (getidx_nat _ _ _ E). cbn [bind]. now apply spacing_grid. Qed.
Lemma step_ns : mapM (fun i => getidx (a_shape (rf_data f)) i) (map Z.of_nat A) = Ok (map (fun a => Z.of_nat (u_n (U a))) A).
Proof. apply mapM_nat. intros a I. destruct (Ug a I) as (ax & E & Ax & Sh). now apply getidx_nat. Qed.

(** the linear phase, on valid indices *)
Lemma mesh_grid axes a u idx sh : nth_error axes a = Some u -> forall U0, ra_grid u = grid_of U0 -> (a < length sh)%nat -> in_shape sh idx = true -> nth a sh 0%Z = Z.of_nat (u_n U0) ->
  mesh axes (Z.of_nat a) idx = point U0 (nth a idx 0%Z).
Proof.
  intros E U0 G L I N. unfold mesh. rewrite Nat2Z.id, E, G. assert (B := in_shape_nth sh idx a I L). rewrite N in B. rewrite grid_at by lia. now rewrite Z2Nat.id by lia.
Qed.
Lemma phase_ok axes ats w phi0 W s : (forall a, In a A -> nth_error ats a = Some (Some s)) ->
  (forall a, In a A -> exists ax, nth_error axes a = Some ax /\ ra_grid ax = grid_of (W a)) -> (forall a, In a A -> u_n (W a) = u_n (U a)) ->
  exists ph, linear_phase axes ats (map (fun a => (Z.of_nat a, w a)) A) phi0 = Ok ph /\
    forall F idx, in_shape (a_shape (rf_data f)) idx = true ->
      Cmul (F idx) (ph idx) = Cmul (cis ((if s then 1 else -1) * phi0)) (sops (fun a i => cis ((if s then 1 else -1) * (w a * point (W a) i))) A F idx).
Proof.
  intros Hat Hg Hn. unfold linear_phase. rewrite map_map. change (map (fun x => fst (Z.of_nat x, w x)) A) with (map Z.of_nat A). rewrite (rstate_nat ats A s NE Hat). cbn [bind].
  assert (G : forallb (fun p : Z * R => (0 <=? fst p)%Z) (map (fun a => (Z.of_nat a, w a)) A) = true) by (apply forallb_map_true; intros a _; apply Z.leb_le; cbn; lia).
  rewrite G. cbn [guard bind]. eexists. split; [reflexivity|]. intros F idx I. cbv beta. rewrite map_map. cbn [fst snd].
  assert (E : map (fun x => w x * mesh axes (Z.of_nat x) idx) A = map (fun a => w a * point (W a) (nth a idx 0%Z)) A).
  { apply map_ext_in. intros a Ia. destruct (Hg a Ia) as (ax & Ea & Ga). rewrite (mesh_grid axes a ax idx (a_shape (rf_data f)) Ea (W a) Ga); [reflexivity|now apply dim_lt|exact I|].
    rewrite (shape_at a Ia), (Hn a Ia). reflexivity. }
  rewrite E, sops_cis. destruct s.
  - rewrite (map_ext (fun a => 1 * (w a * point (W a) (nth a idx 0%Z))) (fun a => w a * point (W a) (nth a idx 0%Z))) by (intro; ring). rewrite cis_add, Rmult_1_l. ring.
  - rewrite (map_ext (fun a => -1 * (w a * point (W a) (nth a idx 0%Z))) (fun a => - (w a * point (W a) (nth a idx 0%Z)))) by (intro; ring). rewrite <- fold_opp, Ropp_plus_distr, cis_add.
    replace (-1 * phi0) with (- phi0) by ring. ring.
Qed.
(** numpy.fft *)
Lemma fftn_shape i d l : a_shape (np_fftn i d l) = a_shape d.
Proof. induction l as [|a l IH]; [reflexivity|]. exact IH. Qed.
Lemma fftn_ok i d idx : a_shape d = a_shape (rf_data f) -> in_shape (a_shape (rf_data f)) idx = true ->
  a_at (np_fftn i d (map Z.of_nat A)) idx
  = kops (fun a m j => Cmul (RtoC (/ sqrt (IZR (Z.of_nat (u_n (U a)))))) (cis ((if i then 1 else -1) * (2 * PI * IZR j * IZR m / IZR (Z.of_nat (u_n (U a)))))))
         (fun a => Z.to_nat (nth a (a_shape (rf_data f)) 0%Z)) A (a_at d) idx.
Proof.
  intros Sd I. assert (Sh := shape_at). assert (Dl := dim_lt). unfold ndim in Dl. clear ND NE Ug Hs V. revert idx I. induction A as [|a A' IH]; intros idx I; [reflexivity|].
  transitivity (a_at (np_fft1 i (np_fftn i d (map Z.of_nat A')) (Z.of_nat a)) idx); [reflexivity|]. cbn [np_fft1 a_at]. rewrite fftn_shape, Nat2Z.id, Sd.
  match goal with |- _ = kops ?K ?n _ _ _ => transitivity (kop a (n a) (K a) (kops K n A' (a_at d)) idx); [|reflexivity]; set (KK := K) in *; set (nn := n) in * end.
  unfold kop. rewrite <- csum_scale. unfold nn at 1. apply csum_ext. intros j J. rewrite IH.
  - rewrite (Sh a (or_introl eq_refl)). replace (KK a (nth a idx 0%Z) (Z.of_nat j)) with (Cmul (RtoC (/ sqrt (IZR (Z.of_nat (u_n (U a)))))) (cis ((if i then 1 else -1) * (2 * PI * INR j * IZR (nth a idx 0%Z) / IZR (Z.of_nat (u_n (U a)))))))
      by (unfold KK; now rewrite INR_IZR_INZ). rewrite <- INR_IZR_INZ with (n := j). fold nn. ring.
  - intros b Ib. apply Sh. now right.
  - intros b Ib. apply Dl. now right.
  - apply in_shape_upd; [exact I|lia].
Qed.
(** the new axes *)
Definition new_ax (a : nat) (ax : raxis) : raxis := mkra (new_name st (ra_name ax)) (new_unit st (ra_unit ax)) (grid_of (V a)) (node_of (V a)).
Lemma zget_map {X} (g : nat -> X) B b : In b B -> zget (map (fun a => (Z.of_nat a, g a)) B) (Z.of_nat b) = Ok (g b).
Proof.
  induction B as [|c B IH]; [intros []|]. intro I. cbn [map zget]. destruct (Z.eqb_spec (Z.of_nat c) (Z.of_nat b)) as [E|E].
  - apply Nat2Z.inj in E. now subst.
  - apply IH. destruct I as [->|I]; [lia|exact I].
Qed.
Lemma axesid a : (a < 3)%nat -> axesidentify (Z.of_nat a) = Ok (Z.of_nat a) /\ (Z.of_nat a mod 90 = Z.of_nat a)%Z.
Proof. intro L. split; [|apply Z.mod_small; lia]. destruct a as [|[|[|a]]]; [reflexivity| reflexivity|reflexivity|lia]. Qed.
Lemma new_axes_ok B : (forall b, In b B -> In b A) -> forall ret, a_shape (rf_data ret) = a_shape (rf_data f) -> length (rf_axes ret) = ndim f -> length (rf_ats ret) = ndim f -> length (rf_tao ret) = ndim f ->
  exists ret', new_axes spl f st (map (fun a => (Z.of_nat a, grid_of (V a))) A) ret (map Z.of_nat B) = Ok ret' /\ rf_data ret' = rf_data ret /\
    length (rf_axes ret') = ndim f /\ length (rf_ats ret') = ndim f /\ length (rf_tao ret') = ndim f /\
    (forall b, nth_error (rf_axes ret') b = if is_named B b then option_map (new_ax b) (nth_error (rf_axes f) b) else nth_error (rf_axes ret) b) /\
    (forall b, nth_error (rf_ats ret') b = if is_named B b then Some (Some (negb st)) else nth_error (rf_ats ret) b) /\
    (forall b, nth_error (rf_tao ret') b = if is_named B b then Some (Some (u_x0 (U b))) else nth_error (rf_tao ret) b).
Proof.
  induction B as [|b B IH]; intros HB ret Sh L1 L2 L3.
  - exists ret. cbn. repeat split; try reflexivity; assumption.
  - assert (Ib : In b A) by (apply HB; now left). destruct (Ug b Ib) as (ax & Eax & (G & Nd & P) & Esh). assert (Db := dim_lt b Ib). assert (D3 := c_dims f Cf).
    destruct (axesid b ltac:(lia)) as [Id Md].
    set (ret1 := mkrf (rf_data ret) (upd (rf_axes ret) b (new_ax b ax)) (upd (rf_ats ret) b (Some (negb st))) (upd (rf_tao ret) b (Some (u_x0 (U b))))).
    assert (E1 : new_axis spl f st (map (fun a => (Z.of_nat a, grid_of (V a))) A) ret (Z.of_nat b) = Ok ret1).
    { unfold new_axis. rewrite (getidx_nat _ _ _ Eax). cbn [bind]. rewrite (zget_map (fun a => grid_of (V a)) A b Ib). cbn [bind].
      rewrite mk_axis_grid by (apply dual_proper; assumption) || assumption. cbn [bind]. rewrite Id. cbn [bind]. rewrite Md, Sh, (getidx_nat _ _ _ Esh). cbn [bind ra_grid].
      rewrite grid_length, V_n, Z.eqb_refl. rewrite setidx_at by lia. cbn [bind]. rewrite setidx_at by lia. cbn [bind]. rewrite G, grid_first by apply P. cbn [bind]. rewrite setidx_at by lia. reflexivity. }
    cbn [map new_axes]. rewrite E1. cbn [bind].
    destruct (IH (fun c I => HB c (or_intror I)) ret1) as (ret' & E & Dt & M1 & M2 & M3 & X1 & X2 & X3); try (unfold ret1; cbn [rf_data rf_axes rf_ats rf_tao]; rewrite ?upd_length; assumption).
    exists ret'. split; [exact E|]. split; [rewrite Dt; reflexivity|]. do 3 (split; [assumption|]).
    assert (Nm : forall c, is_named (b :: B) c = (c =? b)%nat || is_named B c) by reflexivity.
    split; [|split]; intro c; rewrite Nm; [rewrite X1|rewrite X2|rewrite X3]; destruct (is_named B c) eqn:Ec; rewrite ?Bool.orb_true_r, ?Bool.orb_false_r; try reflexivity;
      unfold ret1; cbn [rf_axes rf_ats rf_tao]; rewrite nth_error_upd.
    + destruct (Nat.eqb_spec c b) as [->|N]; [|reflexivity]. destruct (Nat.ltb_spec b (length (rf_axes ret))); [|lia]. rewrite Eax. reflexivity.
    + destruct (Nat.eqb_spec c b) as [->|N]; [|reflexivity]. destruct (Nat.ltb_spec b (length (rf_ats ret))); [|lia]. reflexivity.
    + destruct (Nat.eqb_spec c b) as [->|N]; [|reflexivity]. destruct (Nat.ltb_spec b (length (rf_tao ret))); [|lia]. reflexivity.
Qed.

(** * The result *)
Definition KT (temporal old : bool) (a : nat) (m j : Z) : C :=
  Cmul (RtoC (u_dx (U a) / sqrt (2 * PI))) (cis (sign temporal st * (point (V a) m * point (U a) j - left_out old st V U a (point (V a) m) (point (U a) j)))).
Record transformed (temporal old : bool) (F : rfield) : Prop := mktr {
  t_shape : a_shape (rf_data F) = a_shape (rf_data f);
  t_len1 : length (rf_axes F) = ndim f;
  t_len2 : length (rf_ats F) = ndim f;
  t_len3 : length (rf_tao F) = ndim f;
  t_axes : forall b, nth_error (rf_axes F) b = if is_named A b then option_map (new_ax b) (nth_error (rf_axes f) b) else nth_error (rf_axes f) b;
  t_ats : forall b, nth_error (rf_ats F) b = if is_named A b then Some (Some (negb st)) else nth_error (rf_ats f) b;
  t_tao : forall b, nth_error (rf_tao F) b = if is_named A b then Some (Some (u_x0 (U b))) else nth_error (rf_tao f) b;
  t_data : forall idx, in_shape (a_shape (rf_data f)) idx = true -> a_at (rf_data F) idx = kops (KT temporal old) (fun a => Z.to_nat (nth a (a_shape (rf_data f)) 0%Z)) A (a_at (rf_data f)) idx }.
Lemma sops_at g axes F G idx : F idx = G idx -> sops (fun a i => cis (g a i)) axes F idx = sops (fun a i => cis (g a i)) axes G idx.
Proof. intro E. rewrite !sops_cis, E. reflexivity. Qed.
Lemma fft_main temporal old axes0 : sorted_set axes0 = map Z.of_nat A -> exists F, fft spl temporal old f axes0 = Ok F /\ transformed temporal old F.
Proof.
  intro Eax. unfold fft. rewrite Eax, step_linear. cbn [bind negb]. rewrite (rstate_nat (rf_ats f) A st NE Hs). cbn [bind].
  rewrite step_grids. cbn [bind]. rewrite step_x0. cbn [bind]. rewrite step_k0. cbn [bind]. rewrite step_dx. cbn [bind]. rewrite step_ns. cbn [bind].
  set (sg := if st then 1 else -1). set (sh := a_shape (rf_data f)).
  set (win := fun a => if old && st then 0 else u_x0 (V a)). set (wout := fun a => if old && negb st then 0 else - u_x0 (U a)).
  assert (Ein : (if old && st then map (fun i : Z => (i, 0)) (map Z.of_nat A) else map (fun a => (Z.of_nat a, u_x0 (V a))) A) = map (fun a => (Z.of_nat a, win a)) A).
  { unfold win. destruct (old && st); [now rewrite map_map|reflexivity]. }
  assert (Eout : (if old && negb st then map (fun i : Z => (i, 0)) (map Z.of_nat A) else map (fun p : Z * R => (fst p, - snd p)) (map (fun a => (Z.of_nat a, u_x0 (U a))) A)) = map (fun a => (Z.of_nat a, wout a)) A).
  { unfold wout. destruct (old && negb st); now rewrite map_map. }
  rewrite Ein, Eout. rewrite map2_map. cbn [snd].
  destruct (phase_ok (rf_axes f) (rf_ats f) win 0 U st Hs) as (ph1 & E1 & P1).
  { intros a I. destruct (Ug a I) as (ax & E & (G & _) & _). exists ax. split; assumption. }
  { reflexivity. }
  rewrite E1. cbn [bind]. set (d0 := conj_data temporal (rf_data f)). set (d1 := apply_phase C1 ph1 d0). set (d2 := np_fftn st d1 (map Z.of_nat A)).
  assert (Sh0 : a_shape d0 = sh) by (unfold d0, conj_data; destruct temporal; reflexivity).
  assert (Sh2 : a_shape d2 = sh) by (unfold d2; rewrite fftn_shape; exact Sh0).
  destruct (new_axes_ok A (fun b I => I) (with_data f d2)) as (ret & Er & Dr & L1 & L2 & L3 & X1 & X2 & X3); [exact Sh2|apply (c_axes f Cf)|apply (c_ats f Cf)|apply (c_tao f Cf)|].
  cbn [with_data rf_axes rf_ats rf_tao rf_data] in X1, X2, X3, Dr.
  rewrite Er. cbn [bind].
  set (phi0 := fold_right Rplus 0 (map (fun i => u_x0 (U i) * u_x0 (V i)) A)).
  assert (NmA : forall a, In a A -> is_named A a = true) by (intros a I; now apply is_named_In).
  destruct (phase_ok (rf_axes ret) (rf_ats ret) wout phi0 V (negb st)) as (ph2 & E2 & P2).
  { intros a I. rewrite X2, NmA by exact I. reflexivity. }
  { intros a I. destruct (Ug a I) as (ax & E & (G & _) & _). exists (new_ax a ax). rewrite X1, NmA, E by exact I. split; reflexivity. }
  { reflexivity. }
  rewrite E2. cbn [bind]. eexists. split; [reflexivity|].
  set (norm := sqrt _).
  assert (Enorm : norm = fold_right Rmult 1 (map (fun a => sqrt (IZR (Z.of_nat (u_n (U a)))) * (u_dx (U a) / sqrt (2 * PI))) A)).
  { apply norm_ok; intros a I; destruct (proper_at a I) as [N P]; [exact P|lia]. }
  clearbody norm.
  set (d3 := apply_phase (RtoC norm) ph2 d2).
  assert (D3 : forall idx, in_shape sh idx = true -> a_at d3 idx = kops (KT false old) (fun a => Z.to_nat (nth a sh 0%Z)) A (a_at d0) idx).
  { intros idx I. assert (Li : forall a, In a A -> (a < length idx)%nat) by (intros a Ia; rewrite (in_shape_len sh idx I); exact (dim_lt a Ia)).
    unfold d3. cbn [apply_phase a_at]. rewrite (P2 (a_at d2) idx I).
    set (g := fun (a : nat) (i : Z) => (if negb st then 1 else -1) * (wout a * point (V a) i)) in *.
    set (h := fun (a : nat) (i : Z) => (if st then 1 else -1) * (win a * point (U a) i)) in *.
    set (K := fun a m j => Cmul (RtoC (/ sqrt (IZR (Z.of_nat (u_n (U a)))))) (cis ((if st then 1 else -1) * (2 * PI * IZR j * IZR m / IZR (Z.of_nat (u_n (U a))))))).
    assert (D2 : a_at d2 idx = kops K (fun a => Z.to_nat (nth a sh 0%Z)) A (sops (fun a i => cis (h a i)) A (a_at d0)) idx).
    { unfold d2. rewrite (fftn_ok st d1 idx Sh0 I). apply (kops_ext sh); [exact I|]. intros i Ii. unfold d1. cbn [apply_phase a_at]. rewrite (P1 (a_at d0) i Ii).
      replace ((if st then 1 else -1) * 0) with 0 by ring. rewrite cis_0. unfold h. ring. }
    change (fun (a : nat) (i : Z) => cis ((if negb st then 1 else -1) * (wout a * point (V a) i))) with (fun (a : nat) (i : Z) => cis (g a i)).
    rewrite (sops_at g A _ _ idx D2). rewrite (sops_kops (fun a i => cis (g a i)) K _ (fun a i => cis (h a i)) A ND) by exact Li.
    set (c := fun a => Cmul (RtoC (sqrt (IZR (Z.of_nat (u_n (U a)))) * (u_dx (U a) / sqrt (2 * PI)))) (cis ((if negb st then 1 else -1) * (u_x0 (U a) * u_x0 (V a))))).
    assert (Ec : Cmul (RtoC norm) (cis ((if negb st then 1 else -1) * phi0)) = fold_right Cmul C1 (map c A)).
    { unfold c. rewrite <- fold_Cmul, <- fold_RtoC, <- Enorm, <- fold_cis. f_equal. f_equal. unfold phi0. clear. induction A as [|a l IH]; cbn [map fold_right]; [ring|]. rewrite Rmult_plus_distr_l, IH. reflexivity. }
    rewrite (Cmul_assoc_ (RtoC norm)), Ec, <- kops_scale. apply (kops_kernel sh); [intros a Ia; exact (dim_lt a Ia)| |exact I].
    intros a m j Ia Hm Hj. unfold c, K, KT. assert (Pa := proper_at a Ia). assert (Dd := dual_spacing (nth a (rf_tao f) None) (U a) Pa). fold (V a) in Dd.
    assert (Nn : 0 < IZR (Z.of_nat (u_n (U a)))) by (apply IZR_lt; destruct Pa; lia). assert (Sn := sqrt_lt_R0 _ Nn).
    set (n := IZR (Z.of_nat (u_n (U a)))) in *. rewrite INR_IZR_INZ in Dd. fold n in Dd.
    replace (RtoC (u_dx (U a) / sqrt (2 * PI))) with (Cmul (RtoC (sqrt n * (u_dx (U a) / sqrt (2 * PI)))) (RtoC (/ sqrt n))).
    2:{ rewrite <- RtoC_mul. f_equal. field. split; [|lra]. apply Rgt_not_eq, sqrt_lt_R0. assert (H := PI_RGT_0). lra. }
    replace (sign false st * (point (V a) m * point (U a) j - left_out old st V U a (point (V a) m) (point (U a) j)))
      with ((if negb st then 1 else -1) * (u_x0 (U a) * u_x0 (V a)) + g a m + (if st then 1 else -1) * (2 * PI * IZR j * IZR m / n) + h a j).
    2:{ replace (2 * PI * IZR j * IZR m / n) with (IZR j * IZR m * (2 * PI / n)) by (field; lra). rewrite <- Dd. unfold g, h, win, wout, left_out, sign, point.
        destruct old, st; cbn [andb negb Bool.eqb]; ring. }
    rewrite !cis_add. ring. }
  assert (E3 : a_shape d3 = sh) by exact Sh2.
  split; cbn [with_data rf_data rf_axes rf_ats rf_tao]; try assumption.
  - unfold conj_data. destruct temporal; exact E3.
  - intros idx I. destruct temporal; [|exact (D3 idx I)]. unfold conj_data at 1. cbn [a_at]. fold sh. rewrite (D3 idx I), kops_conj.
    transitivity (kops (fun a i j => Cconj (KT false old a i j)) (fun a => Z.to_nat (nth a sh 0%Z)) A (a_at (rf_data f)) idx).
    + apply (kops_ext sh); [exact I|]. intros i _. unfold d0, conj_data. cbn [a_at]. apply Cconj_conj.
    + apply (kops_kernel sh); [intros a Ia; exact (dim_lt a Ia)| |exact I]. intros a m j _ _ _. unfold KT. rewrite Cconj_mul, Cconj_RtoC, Cconj_cis. f_equal. f_equal.
      unfold sign. destruct st; cbn [Bool.eqb]; ring.
Qed.
End steps.
