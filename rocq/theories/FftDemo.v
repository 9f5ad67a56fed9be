(** Concrete fields for the Fourier transform, and the cases in which its properties fail. *)
From Coq Require Import Reals String Ascii Lra Lia ZArith List Ring.
From Verif Require Import PyBase PyBaseFacts NumpyModel NdModel NdFacts FieldModel FieldGridFacts CplxModel CplxFacts FftModel FftSpec FftKernel FftAxes FftFacts FftLaws FftMore FftShift.
Import ListNotations.
Local Open Scope R_scope.

(** a spline which is exact for lines *)
Definition line_spline : rspline := fun _ ys t => nth 0 ys 0 + t * (nth 1 ys 0 - nth 0 ys 0).
Lemma line_spline_ok : linear_spline line_spline.
Proof. intros n a b t L. unfold line_spline. destruct n as [|[|n]]; try lia. cbn. ring. Qed.

(** one axis with n points from x0 *)
Definition field1 (name unit : string) (u : uni) (st : bool) (o : option R) (data : Z -> C) : rfield :=
  mkrf (mkarr [Z.of_nat (u_n u)] (fun idx => data (nth 0 idx 0%Z))) [mkra name unit (grid_of u) (node_of u)] [Some st] [o].
Lemma field1_ok name unit u st o data : proper u -> let f := field1 name unit u st o data in
  consistent f /\ on_grid f [0%nat] (fun _ => u) /\ in_state f [0%nat] st.
Proof.
  intros P f. split; [|split].
  - split; cbn; try reflexivity. lia.
  - intros a [<-|[]]. exists (mkra name unit (grid_of u) (node_of u)). split; [reflexivity|]. split; [|reflexivity]. split; [reflexivity|]. split; [reflexivity|exact P].
  - intros a [<-|[]]. reflexivity.
Qed.
Lemma field1_all name unit u st o data : proper u -> let f := field1 name unit u st o data in
  on_grid f (seq 0 (ndim f)) (fun _ => u) /\ (forall a, (a < ndim f)%nat -> exists s, nth_error (rf_ats f) a = Some (Some s)).
Proof.
  intros P f. split; [exact (proj1 (proj2 (field1_ok name unit u st o data P)))|]. intros a L. cbn in L. assert (a = 0%nat) by lia. subst a. exists st. reflexivity.
Qed.
(** two axes in different domains, with 2 and 3 points *)
Definition u2 := mkuni 2 1 3.
Definition u3 := mkuni 3 (-1) 2.
Lemma u2_proper : proper u2. Proof. split; cbn; [lia|lra]. Qed.
Lemma u3_proper : proper u3. Proof. split; cbn; [lia|lra]. Qed.
Definition field2 (s t : bool) : rfield :=
  mkrf (mkarr [2%Z; 3%Z] (fun idx => (IZR (nth 0 idx 0%Z), IZR (nth 1 idx 0%Z)))) [mkra "x" "m" (grid_of u2) (node_of u2); mkra "t" "s" (grid_of u3) (node_of u3)] [Some s; Some t] [None; Some (/ 3)].
Definition U23 (a : nat) : uni := match a with O => u2 | _ => u3 end.
Lemma field2_ok s t : let f := field2 s t in consistent f /\ on_grid f [1%nat; 0%nat] U23 /\ on_grid f (seq 0 (ndim f)) U23 /\ (forall a, (a < ndim f)%nat -> exists s, nth_error (rf_ats f) a = Some (Some s)) /\
  (s = t -> in_state f [1%nat; 0%nat] s) /\ (forall a ax, nth_error (rf_axes f) a = Some ax -> restorable false ax).
Proof.
  intros f. assert (G : on_grid f [0%nat; 1%nat] U23).
  { intros a [<-|[<-|[]]]; eexists; (split; [reflexivity|]); (split; [|reflexivity]); (split; [reflexivity|]); (split; [reflexivity|]); [exact u2_proper|exact u3_proper]. }
  split; [split; cbn; try reflexivity; lia|]. split; [intros a I; apply G; cbn in *; tauto|]. split; [exact G|]. split; [|split].
  - intros a L. cbn in L. destruct a as [|[|a]]; [exists s|exists t|lia]; reflexivity.
  - intros -> a [<-|[<-|[]]]; reflexivity.
  - intros a ax E. destruct a as [|[|a]]; cbn in E; [injection E as <-|injection E as <-|destruct a; discriminate]; split; reflexivity.
Qed.

(** * names and units that do not come back *)
Lemma round_name name unit : exists F G ax, fft line_spline false false (field1 name unit u3 false None (fun _ => C1)) [0%Z] = Ok F /\ fft line_spline false false F [0%Z] = Ok G /\ rf_axes G = [ax] /\
  ra_name ax = new_name true (new_name false name) /\ ra_unit ax = new_unit true (new_unit false unit).
Proof.
  destruct (field1_ok name unit u3 false None (fun _ => C1) u3_proper) as (Cf & Ug & Hs).
  destruct (fft_round line_spline false false _ [0%nat] (fun _ => u3) false line_spline_ok Cf ltac:(discriminate) Ug Hs) as (F & G & EF & EG & (_ & _ & Mg & _ & _) & _ & Nm).
  destruct (Nm 0%nat _ (or_introl eq_refl) eq_refl) as (ax & E & En & Eu). exists F, G, ax. split; [exact EF|]. split; [exact EG|]. split; [|split; assumption].
  destruct (rf_axes G) as [|x [|y l]]; cbn in E, Mg; [discriminate|congruence|discriminate].
Qed.

(** * an axis with one point *)
Definition point_field (x : R) (st : bool) (o : option R) (c : list Z -> C) (name unit : string) : rfield := mkrf (mkarr [1%Z] c) [mkra name unit [x] [x - / 2; x + / 2]] [Some st] [o].
Lemma point_axis spl name unit x : rmk_axis spl name unit [x] = Ok (mkra name unit [x] [x - / 2; x + / 2]).
Proof. unfold rmk_axis. cbn. rewrite Rltb_true by lra. reflexivity. Qed.
Lemma point_fft spl x st o c name unit : exists k d name' unit' o', fft spl false false (point_field x st o c name unit) [0%Z] = Ok (mkrf (mkarr [1%Z] d) [mkra name' unit' [k] [k - / 2; k + / 2]] [Some (negb st)] [o']) /\ Cabs2 (d [0%Z]) = Cabs2 (c [0%Z]) / (2 * PI).
Proof.
  set (f := point_field x st o c name unit). set (ax := mkra name unit [x] [x - / 2; x + / 2]).
  assert (Sp : rspacing ax = Ok 1).
  { unfold rspacing. replace (rislinear ax) with true by reflexivity. cbn [negb ra_node ax].
    replace (getidx [x - / 2; x + / 2] 1) with (Ok (x + / 2)) by reflexivity. replace (getidx [x - / 2; x + / 2] 0) with (Ok (x - / 2)) by reflexivity. cbn [bind]. f_equal. replace (x + / 2 - (x - / 2)) with 1 by lra. apply Rabs_R1. }
  assert (Ga : getidx (rf_axes f) 0 = Ok ax) by reflexivity. assert (Gs : getidx (a_shape (rf_data f)) 0 = Ok 1%Z) by reflexivity.
  assert (exists k, conjugate_grid f [0%Z] = Ok [(0%Z, [k])]) as [k Ek].
  { unfold conjugate_grid, conjugate_axis. cbn [mapM]. rewrite Ga. cbn [bind]. rewrite Sp. cbn [bind]. rewrite Gs. cbn [bind].
    replace (getidx (rf_tao f) 0) with (Ok o) by reflexivity. cbn [bind]. destruct o as [y|]; cbn; eexists; reflexivity. }
  unfold fft. replace (sorted_set [0%Z]) with [0%Z] by reflexivity. cbn [all_axes]. rewrite Ga. cbn [rmap bind]. replace (rislinear ax) with true by reflexivity. cbn [bind negb].
  replace (rstate (rf_ats f) [0%Z]) with (@Ok (option bool) (Some st)) by (destruct st; reflexivity). cbn [bind]. rewrite Ek. cbn [bind mapM]. rewrite Ga. cbn [bind]. rewrite Sp, Gs.
  cbn [fst snd]. replace (getidx (ra_grid ax) 0) with (Ok x) by reflexivity. replace (getidx [k] 0) with (Ok k) by reflexivity. cbn [rmap bind andb].
  assert (Lp : forall axes s w p, (exists ax, nth_error axes 0 = Some ax) -> exists ph, linear_phase axes [Some s] [(0%Z, w)] p = Ok ph /\ forall idx, Cabs2 (ph idx) = 1).
  { intros axes s w p _. unfold linear_phase. cbn [map fst]. replace (rstate [Some s] [0%Z]) with (@Ok (option bool) (Some s)) by (destruct s; reflexivity). cbn [bind forallb fst guard Z.leb Z.compare andb].
    eexists. split; [reflexivity|]. intro idx. destruct s; apply Cabs2_cis. }
  destruct (Lp (rf_axes f) st k 0) as (ph1 & E1 & A1); [exists ax; reflexivity|].
  replace (rf_ats f) with [Some st] by reflexivity. rewrite E1. cbn [bind]. set (d1 := apply_phase C1 ph1 (conj_data false (rf_data f))). set (d2 := np_fftn st d1 [0%Z]).
  cbn [new_axes]. unfold new_axis at 1. rewrite Ga. cbn [bind zget Z.eqb]. rewrite point_axis. cbn [bind].
  replace (axesidentify 0) with (Ok 0%Z) by reflexivity. cbn [bind]. replace (getidx (a_shape (rf_data (with_data f d2))) (0 mod 90)) with (Ok 1%Z) by reflexivity. cbn [bind ra_grid length].
  replace (Z.of_nat 1 =? 1)%Z with true by reflexivity. set (ax' := mkra _ _ [k] _). replace (setidx (rf_axes (with_data f d2)) (0 mod 90) ax') with (Ok [ax']) by reflexivity. cbn [bind].
  replace (setidx (rf_ats (with_data f d2)) 0 (Some (negb st))) with (Ok [Some (negb st)]) by reflexivity. cbn [bind]. replace (getidx (ra_grid ax) 0) with (Ok x) by reflexivity. cbn [bind].
  replace (setidx (rf_tao (with_data f d2)) 0 (Some x)) with (Ok [Some x]) by reflexivity. cbn [bind rf_axes rf_ats rf_data with_data map fst snd].
  destruct (Lp [ax'] (negb st) (- x) (fold_right Rplus 0 [x * k])) as (ph2 & E2 & A2); [exists ax'; reflexivity|]. cbn [map2 fst snd]. rewrite E2. cbn [bind with_data].
  exists k. eexists. exists (ra_name ax'), (ra_unit ax'), (Some x). split; [reflexivity|].
  assert (Ed2 : Cabs2 (a_at d2 [0%Z]) = Cabs2 (c [0%Z])).
  { transitivity (Cabs2 (RtoC (/ sqrt 1) * csum 1 (fun j => cis ((if st then 1 else -1) * (2 * PI * INR j * 0 / 1)) * a_at d1 (upd [0%Z] 0 (Z.of_nat j))))%C); [reflexivity|].
    rewrite Cabs2_mul, Cabs2_RtoC, sqrt_1. cbn [csum].
    replace ((if st then 1 else -1) * (2 * PI * INR 0 * 0 / 1)) with 0 by (cbn; field). rewrite cis_0.
    replace (a_at d1 (upd [0%Z] 0 (Z.of_nat 0))) with (Cmul C1 (Cmul (c [0%Z]) (ph1 [0%Z]))) by reflexivity.
    replace (C0 + C1 * (C1 * (c [0%Z] * ph1 [0%Z])))%C with (Cmul (c [0%Z]) (ph1 [0%Z])) by ring. rewrite Cabs2_mul, A1, Rinv_1. ring. }
  cbn [apply_phase conj_data a_at]. rewrite !Cabs2_mul, A2, Cabs2_RtoC, Ed2. assert (P := PI_RGT_0).
  match goal with |- sqrt ?z * sqrt _ * _ = _ => replace z with (/ (2 * PI)) by (cbn; field; lra) end. rewrite sqrt_sqrt; [field; lra|]. apply Rlt_le, Rinv_0_lt_compat. lra.
Qed.
Lemma point_round : exists f F G, rf_axes f = [mkra "x" "m" [0] [0 - / 2; 0 + / 2]] /\ rmk_axis line_spline "x" "m" [0] = Ok (mkra "x" "m" [0] [0 - / 2; 0 + / 2]) /\
  fft line_spline false false f [0%Z] = Ok F /\ fft line_spline false false F [0%Z] = Ok G /\ a_at (rf_data G) [0%Z] <> a_at (rf_data f) [0%Z].
Proof.
  exists (point_field 0 false None (fun _ => C1) "x" "m"). destruct (point_fft line_spline 0 false None (fun _ => C1) "x" "m") as (k & d & n' & u' & o' & E & A).
  destruct (point_fft line_spline k true o' d n' u') as (k2 & d2 & n2 & uu2 & o2 & E2 & A2).
  eexists. eexists. split; [reflexivity|]. split; [apply point_axis|]. split; [exact E|]. split; [exact E2|]. cbn [rf_data a_at point_field]. intro H. rewrite H in A2. rewrite A in A2.
  unfold Cabs2, C1 in A2. cbn [fst snd] in A2. assert (P := PI_RGT_0). assert (P3 : 3 < PI) by (assert (Q := PI2_3_2); lra).
  assert (T := Rinv_0_lt_compat (2 * PI) ltac:(lra)). assert (TP : / (2 * PI) * (2 * PI) = 1) by (apply Rinv_l; lra). unfold Rdiv in A2. set (t := / (2 * PI)) in *. clearbody t.
  assert (t < 1) by nra. nra.
Qed.

(** * a reversed axis *)
Definition rev_field : rfield := mkrf (mkarr [2%Z] (fun _ => C1)) [mkra "x" "m" [1; 0] [3 / 2; / 2; - / 2]] [Some false] [None].
Lemma rev_axis : rmk_axis line_spline "x" "m" [1; 0] = Ok (mkra "x" "m" [1; 0] [3 / 2; / 2; - / 2]).
Proof.
  assert (D : diffs [1; 0] = [0 - 1]) by reflexivity. unfold rmk_axis, rmonotonicity. rewrite D. cbn [forallb]. rewrite Rltb_false by lra. rewrite Rltb_true by lra. cbn [andb Z.eqb Pos.eqb negb guard bind].
  assert (E : rnodes line_spline [1; 0] = Ok [3 / 2; / 2; - / 2]).
  { transitivity (Ok [1 + (1 - (1 + 0) / 2); (1 + 0) / 2; 0 + (0 - (1 + 0) / 2)]); [reflexivity|]. f_equal. f_equal; [field|]. f_equal; [field|]. f_equal. field. }
  rewrite E. cbn [bind removelast tl combine forallb fst snd]. rewrite Rltb_false by lra. cbn [andb negb]. rewrite Rltb_false by lra. reflexivity.
Qed.
Lemma rev_fft : exists F, fft line_spline false false rev_field [0%Z] = Ok F /\ consistent F /\ on_grid F [0%nat] (fun _ => dual None (mkuni 2 0 1)) /\ in_state F [0%nat] true /\ rf_tao F = [Some 1].
Proof.
  set (f := rev_field). set (ax := mkra "x" "m" [1; 0] [3 / 2; / 2; - / 2]). set (g := grid_of (dual None (mkuni 2 0 1))).
  assert (Pu : proper (mkuni 2 0 1)) by (split; cbn; [lia|lra]). assert (Pd := dual_proper None _ Pu).
  assert (Sp : rspacing ax = Ok 1).
  { unfold rspacing. replace (rislinear ax) with true by reflexivity. cbn [negb ra_node ax].
    replace (getidx [3 / 2; / 2; - / 2] 1) with (Ok (/ 2)) by reflexivity. replace (getidx [3 / 2; / 2; - / 2] 0) with (Ok (3 / 2)) by reflexivity. cbn [bind]. f_equal. replace (/ 2 - 3 / 2) with (- (1)) by lra. rewrite Rabs_Ropp. apply Rabs_R1. }
  assert (Ga : getidx (rf_axes f) 0 = Ok ax) by reflexivity. assert (Gs : getidx (a_shape (rf_data f)) 0 = Ok 2%Z) by reflexivity.
  assert (Ek : conjugate_grid f [0%Z] = Ok [(0%Z, g)]).
  { unfold conjugate_grid, conjugate_axis. cbn [mapM]. rewrite Ga. cbn [bind]. rewrite Sp. cbn [bind]. rewrite Gs. cbn [bind].
    replace (getidx (rf_tao f) 0) with (@Ok (option R) None) by reflexivity. cbn [bind rmap]. unfold g. rewrite <- (fftshift_freq 2 1) by (lia || lra). reflexivity. }
  unfold fft. replace (sorted_set [0%Z]) with [0%Z] by reflexivity. cbn [all_axes]. rewrite Ga. cbn [rmap bind]. replace (rislinear ax) with true by reflexivity. cbn [bind negb].
  replace (rstate (rf_ats f) [0%Z]) with (@Ok (option bool) (Some false)) by reflexivity. cbn [bind]. rewrite Ek. cbn [bind mapM]. rewrite Ga. cbn [bind]. rewrite Sp, Gs.
  cbn [fst snd]. replace (getidx (ra_grid ax) 0) with (Ok 1) by reflexivity. assert (Gk := grid_first (dual None (mkuni 2 0 1)) (proj1 Pd)). fold g in Gk. rewrite Gk. cbn [rmap bind andb].
  assert (Lp : forall axes s w p, exists ph, linear_phase axes [Some s] [(0%Z, w)] p = Ok ph).
  { intros axes s w p. unfold linear_phase. cbn [map fst]. replace (rstate [Some s] [0%Z]) with (@Ok (option bool) (Some s)) by (destruct s; reflexivity). cbn [bind forallb fst guard Z.leb Z.compare andb].
    eexists. reflexivity. }
  destruct (Lp (rf_axes f) false (u_x0 (dual None (mkuni 2 0 1))) 0) as (ph1 & E1).
  replace (rf_ats f) with [Some false] by reflexivity. rewrite E1. cbn [bind]. set (d1 := apply_phase C1 ph1 (conj_data false (rf_data f))). set (d2 := np_fftn false d1 [0%Z]).
  cbn [new_axes]. unfold new_axis at 1. rewrite Ga. cbn [bind zget Z.eqb]. unfold g at 1. rewrite mk_axis_grid by (exact Pd || exact line_spline_ok). cbn [bind].
  replace (axesidentify 0) with (Ok 0%Z) by reflexivity. cbn [bind]. replace (getidx (a_shape (rf_data (with_data f d2))) (0 mod 90)) with (Ok 2%Z) by reflexivity. cbn [bind ra_grid].
  rewrite grid_length. replace (Z.of_nat (u_n (dual None (mkuni 2 0 1))) =? 2)%Z with true by reflexivity. set (ax' := mkra _ _ (grid_of _) _). replace (setidx (rf_axes (with_data f d2)) (0 mod 90) ax') with (Ok [ax']) by reflexivity. cbn [bind].
  replace (setidx (rf_ats (with_data f d2)) 0 (Some (negb false))) with (Ok [Some true]) by reflexivity. cbn [bind]. replace (getidx (ra_grid ax) 0) with (Ok 1) by reflexivity. cbn [bind].
  replace (setidx (rf_tao (with_data f d2)) 0 (Some 1)) with (Ok [Some 1]) by reflexivity. cbn [bind rf_axes rf_ats rf_data with_data map fst snd map2].
  destruct (Lp [ax'] true (- (1)) (fold_right Rplus 0 [1 * u_x0 (dual None (mkuni 2 0 1))])) as (ph2 & E2). rewrite E2. cbn [bind].
  eexists. split; [reflexivity|]. split; [split; cbn; try reflexivity; lia|]. split; [|split; [intros a [<-|[]]; reflexivity|reflexivity]].
  intros a [<-|[]]. exists ax'. split; [reflexivity|]. split; [|reflexivity]. split; [reflexivity|]. split; [reflexivity|exact Pd].
Qed.
Lemma rev_round : exists F G, fft line_spline false false rev_field [0%Z] = Ok F /\ fft line_spline false false F [0%Z] = Ok G /\ map ra_grid (rf_axes rev_field) = [[1; 0]] /\ map ra_grid (rf_axes G) = [[1; 2]].
Proof.
  destruct rev_fft as (F & E & Cf & Ug & Hs & Ht). exists F. destruct (fft_is line_spline false false F [0%nat] _ true line_spline_ok Cf ltac:(discriminate) Ug Hs) as (G & EG & Sh & OG & _ & _).
  exists G. split; [exact E|]. split; [exact EG|]. split; [reflexivity|]. destruct (OG 0%nat (or_introl eq_refl)) as (ax & Eax & (Gr & _ & _) & _). rewrite Ht in Gr. cbn [nth] in Gr.
  assert (L1 : length (rf_axes G) = 1%nat).
  { destruct (fft_toggles line_spline false false F [0%nat] _ true line_spline_ok Cf ltac:(discriminate) Ug Hs) as (G' & EG' & CG & _). assert (G' = G) by congruence. subst G'. rewrite (c_axes G CG). replace (ndim G) with (ndim F) by (unfold ndim; now rewrite Sh). rewrite <- (c_tao F Cf), Ht. reflexivity. }
  destruct (rf_axes G) as [|y [|w l]]; try discriminate. cbn in Eax. injection Eax as ->. cbn [map]. rewrite Gr.
  assert (Pu : proper (mkuni 2 0 1)) by (split; cbn; [lia|lra]). rewrite dual_moved by exact Pu. unfold grid_of, point. cbn [u_n u_x0 u_dx seq map]. f_equal. f_equal; [cbn; ring|]. f_equal. cbn. ring.
Qed.

(** * an axis counted from the end *)
Lemma negative_axis : exists F, fft line_spline false false (field1 "x" "m" u3 false None (fun _ => C1)) [0%Z] = Ok F /\ fft line_spline false false (field1 "x" "m" u3 false None (fun _ => C1)) [(-1)%Z] = Err KeyError.
Proof.
  set (f := field1 "x" "m" u3 false None (fun _ => C1)). destruct (field1_ok "x" "m" u3 false None (fun _ => C1) u3_proper) as (Cf & Ug & Hs). fold f in Cf, Ug, Hs.
  destruct (fft_named line_spline false false f [0%Z] [0%nat] _ false line_spline_ok Cf ltac:(discriminate) Ug Hs (fun x => iff_refl _)) as (F & E & _). exists F. split; [exact E|].
  set (ax := mkra "x" "m" (grid_of u3) (node_of u3)). assert (Ax : axis_is ax u3) by (split; [reflexivity|split; [reflexivity|exact u3_proper]]).
  assert (Ga : forall i, i = (-1)%Z -> getidx (rf_axes f) i = Ok ax) by (intros i ->; reflexivity). specialize (Ga _ eq_refl).
  assert (Gs : getidx (a_shape (rf_data f)) (-1) = Ok 3%Z) by reflexivity.
  assert (Lin : rislinear ax = true) by (apply (islinear_grid ax u3); reflexivity). assert (Sp := spacing_grid ax u3 Ax).
  assert (Gk : forall g, g = fftshift (map (fun x => 2 * PI * x) (fftfreq (Z.to_nat 3) (u_dx u3))) -> exists k0, getidx g 0 = Ok k0) by (intros g ->; eexists; reflexivity).
  destruct (Gk _ eq_refl) as [k0 Ek0].
  unfold fft. replace (sorted_set [(-1)%Z]) with [(-1)%Z] by reflexivity. cbn [all_axes]. rewrite Ga. cbn [rmap bind]. rewrite Lin. cbn [bind negb].
  replace (rstate (rf_ats f) [(-1)%Z]) with (@Ok (option bool) (Some false)) by reflexivity. cbn [bind]. unfold conjugate_grid. cbn [mapM]. unfold conjugate_axis. rewrite Ga. cbn [bind]. rewrite Sp. cbn [bind]. rewrite Gs. cbn [bind].
  replace (getidx (rf_tao f) (-1)) with (@Ok (option R) None) by reflexivity. cbn [bind rmap mapM]. replace (getidx (ra_grid ax) 0) with (Ok (u_x0 u3)) by (symmetry; apply (grid_first u3); cbn; lia).
  cbn [rmap bind fst snd]. rewrite Ek0. cbn [rmap bind]. try rewrite Sp. try rewrite Gs. cbn [bind andb].
  unfold linear_phase. cbn [map fst]. replace (rstate (rf_ats f) [(-1)%Z]) with (@Ok (option bool) (Some false)) by reflexivity. cbn [bind forallb fst]. replace (0 <=? -1)%Z with false by reflexivity. reflexivity.
Qed.

(** * a remembered origin between the points of the conjugate grid *)
Lemma off_lattice : exists f G, (exists x, rf_tao f = [Some x]) /\ f = field1 "x" "m" (mkuni 2 0 1) false (Some (PI / 2)) (fun _ => C1) /\ shift_grid_by line_spline f [(0%Z, 1)] = Ok G /\ a_at (rf_data G) [1%Z] = RtoC (-1).
Proof.
  set (u := mkuni 2 0 1). assert (Pu : proper u) by (split; cbn; [lia|lra]). set (f := field1 "x" "m" u false (Some (PI / 2)) (fun _ => C1)).
  destruct (field1_ok "x" "m" u false (Some (PI / 2)) (fun _ => C1) Pu) as (Cf & Ug & Hs). fold f in Cf, Ug, Hs.
  destruct (shift_phase line_spline f [0%nat] (fun _ => 1%Z) (fun _ => u) false line_spline_ok Cf ltac:(discriminate) ltac:(repeat constructor; intros []) Ug Hs) as (G & E & H).
  exists f, G. split; [exists (PI / 2); reflexivity|]. split; [reflexivity|]. split.
  - replace [(0%Z, 1)] with (map (fun a => (Z.of_nat a, 1 * u_dx u)) [0%nat]); [exact E|]. cbn. now rewrite Rmult_1_l.
  - rewrite (H [1%Z] [0%Z]); [|reflexivity|reflexivity|intros a L; cbn in L; assert (a = 0%nat) by lia; subst a; reflexivity].
    change (named (ndim f) [0%nat]) with [0%nat]. cbn [map fold_right]. change (nth 0 [0%Z] 0 - nth 0 [1%Z] 0 - 1)%Z with (-2)%Z. change (VV f (fun _ => u) 0) with (dual (Some (PI / 2)) u). cbn [dual u_x0 u u_dx].
    replace (sign false false * (PI / 2 * (-2 * 1))) with PI by (unfold sign; cbn [Bool.eqb]; field). change (a_at (rf_data f) [0%Z]) with C1.
    unfold cis. rewrite cos_PI, sin_PI. unfold RtoC, C1, Cmul. cbn [fst snd]. f_equal; ring.
Qed.
Lemma point_energy : exists F k, fft line_spline false false (point_field 0 false None (fun _ => C1) "x" "m") [0%Z] = Ok F /\
  map ra_node (rf_axes (point_field 0 false None (fun _ => C1) "x" "m")) = [[0 - / 2; 0 + / 2]] /\ map ra_node (rf_axes F) = [[k - / 2; k + / 2]] /\
  Cabs2 (a_at (rf_data F) [0%Z]) = / (2 * PI).
Proof.
  destruct (point_fft line_spline 0 false None (fun _ => C1) "x" "m") as (k & d & n' & u' & o' & E & A). eexists. exists k. split; [exact E|]. split; [reflexivity|]. split; [reflexivity|].
  cbn [rf_data a_at]. rewrite A. unfold Cabs2, C1. cbn [fst snd]. assert (P := PI_RGT_0). field. lra.
Qed.
