(** Facts about topolar. *)
From Coq Require Import Reals String Ascii Lra Lia ZArith List Bool.
From Verif Require Import PyBase PyBaseFacts NumpyModel NumpyFacts NdModel NdFacts CplxModel CplxFacts FieldModel FftModel FftSpec FftAxes FftFacts UnstagModel RealModel RealFacts MapModel MapSpec MapFacts MapLaws MapMore LinShift PolarSpec.
Import ListNotations.
Local Open Scope R_scope.

Lemma linspace_from_to a b n : (2 <= n)%Z -> linspace_z a b n = Ok (grid_of (from_to a b n)).
Proof.
  intro H. unfold linspace_z. destruct (Z.ltb_spec n 0); [lia|]. f_equal. unfold rlinspace, grid_of, point, from_to. cbn. apply map_ext. intro i. rewrite INR_IZR_INZ. f_equal. f_equal. f_equal. rewrite INR_IZR_INZ. f_equal. lia.
Qed.
Lemma from_to_proper a b n : (2 <= n)%Z -> a < b -> proper (from_to a b n).
Proof. intros H L. split; cbn; [lia|]. apply Rdiv_lt_0_compat; [lra|]. apply (IZR_lt 0). lia. Qed.
Lemma radius_name_ok s : (if name_starts_k s then "k" else "r")%string = radius_name s.
Proof. destruct s as [|c s]; [reflexivity|]. cbn [name_starts_k]. destruct (Ascii.eqb_spec c "k") as [-> |N]; [reflexivity|]. unfold radius_name. destruct c as [[] [] [] [] [] [] [] []]; try reflexivity. now elim N. Qed.
Lemma at_two (t r : raxis) T Q i j : ra_grid t = grid_of T -> ra_grid r = grid_of Q -> (0 <= i < Z.of_nat (u_n T))%Z -> (0 <= j < Z.of_nat (u_n Q))%Z -> at_point [t; r] [i; j] [point T i; point Q j].
Proof.
  intros Et Er Hi Hj. split; [reflexivity|]. split; [reflexivity|]. intros a ax E. destruct a as [|[|a]]; cbn in E; [| |destruct a; discriminate]; injection E as <-.
  - exists i. split; [reflexivity|]. split; [lia|]. rewrite Et. cbn. rewrite (nth_error_nth' _ 0) by (rewrite grid_length; lia). rewrite grid_at by lia. now rewrite Z2Nat.id by lia.
  - exists j. split; [reflexivity|]. split; [lia|]. rewrite Er. cbn. rewrite (nth_error_nth' _ 0) by (rewrite grid_length; lia). rewrite grid_at by lia. now rewrite Z2Nat.id by lia.
Qed.
Lemma topolar_ok interp unwrap nonlin spl f U extent shape e0 e1 e2 e3 n m off mode preserve : uniform_field f 2 U -> linear_spline spl -> same_shapes unwrap -> accepted f mode ->
  polar_extent (sf_field f) extent = Ok (e0, e1, (e2, e3)) -> polar_shape (sf_field f) (e0, e1, (e2, e3)) shape = Ok (n, m) -> (2 <= n)%Z -> (2 <= m)%Z -> e0 < e1 -> e2 < e3 ->
  exists g, topolar interp unwrap nonlin spl f extent shape off mode preserve = Ok g /\ polar_axes f g (from_to e0 e1 n) (from_to e2 e3 m) /\ polar_rest f g n m /\
    forall i j, (0 <= i < n)%Z -> (0 <= j < m)%Z -> let theta := point (from_to e0 e1 n) i - off in let r := point (from_to e2 e3 m) j in
      a_at (rf_data (sf_field g)) [i; j] = Cmul (value_at interp unwrap f mode [pixel (U 0%nat) (r * cos theta); pixel (U 1%nat) (r * sin theta)]) (RtoC (if preserve then r else 1)).
Proof.
  intros Uf Sp Su Ac Ee Es Hn Hm L01 L23. unfold topolar. rewrite Ee. cbn [bind]. rewrite Es. cbn [bind fst snd]. rewrite !linspace_from_to by assumption. cbn [bind].
  set (T := from_to e0 e1 n). set (Q := from_to e2 e3 m). assert (PT : proper T) by now apply from_to_proper. assert (PQ : proper Q) by now apply from_to_proper.
  rewrite (mk_axis_grid spl "theta" "rad" T PT Sp). cbn [bind]. replace (map (fun x => x - off) (grid_of T)) with (grid_of (moved_by (- off) T)) by (rewrite <- moved_grid; reflexivity).
  assert (PT' : proper (moved_by (- off) T)) by exact PT. rewrite (mk_axis_grid spl "theta" "rad" (moved_by (- off) T) PT' Sp). cbn [bind].
  destruct (nth_error (rf_axes (sf_field f)) 0) as [ax|] eqn:Ea; [|apply nth_error_None in Ea; rewrite (uf_axes f 2 U Uf) in Ea; lia].
  assert (G0 : getidx (rf_axes (sf_field f)) 0 = Ok ax) by exact (getidx_nat _ 0 ax Ea). rewrite G0. cbn [bind]. rewrite radius_name_ok, (mk_axis_grid spl _ _ Q PQ Sp). cbn [bind].
  set (ta := mkra "theta" "rad" (grid_of (moved_by (- off) T)) (node_of (moved_by (- off) T))). set (ra := mkra (radius_name (ra_name ax)) (ra_unit ax) (grid_of Q) (node_of Q)).
  assert (NT : u_n T = Z.to_nat n) by reflexivity. assert (NQ : u_n Q = Z.to_nat m) by reflexivity.
  assert (Nax : new_axes_ok [ta; ra]).
  { split; [discriminate|]. apply Forall_cons; [|apply Forall_cons; [|apply Forall_nil]]; unfold ta, ra; cbn [ra_grid]; intro K; apply (f_equal (@length R)) in K; rewrite grid_length in K; cbn [moved_by u_n length] in K; lia. }
  destruct (map_values interp unwrap nonlin f 2 U [ta; ra] (Some polar_transform) mode preserve None (Some (fun x => polar2linear_jacdet (nth 0 x 0) (nth 1 x 0))) Uf Su Ac Nax) as (g & E & (Er & Eax & Esh & (b & Db & Et) & Eo) & H).
  { cbn. lia. } { intros _. split; [reflexivity|]. discriminate. }
  rewrite E. cbn [bind]. rewrite Eax. cbn [setidx py_pos bind]. assert (S0 : setidx [ta; ra] 0 (mkra "theta" "rad" (grid_of T) (node_of T)) = Ok [mkra "theta" "rad" (grid_of T) (node_of T); ra]) by reflexivity. rewrite S0. cbn [bind].
  eexists. split; [reflexivity|]. split; [|split].
  - exists ax, (mkra "theta" "rad" (grid_of T) (node_of T)), ra. split; [exact Ea|]. split; [reflexivity|]. split; [repeat split; try reflexivity; exact (proj1 PT) || exact (proj2 PT)|]. split; [repeat split; try reflexivity; exact (proj1 PQ) || exact (proj2 PQ)|]. repeat split; reflexivity.
  - split; [exact Er|]. split; [cbn [sf_field rf_data]; rewrite Esh; cbn [map]; unfold ta, ra; cbn [ra_grid]; rewrite !grid_length; cbn [moved_by u_n]; rewrite NT, NQ, !Z2Nat.id by lia; reflexivity|]. split; [exact Eo|]. exists b. split; [exact Db|exact Et].
  - intros i j Hi Hj. cbv zeta. cbn [sf_field rf_data]. rewrite (H [i; j] [point (moved_by (- off) T) i; point Q j]).
    + cbn [functions seq map polar_transform nth weight]. unfold polar2linear, polar2linear_jacdet. cbn [fst snd]. replace (point (moved_by (- off) T) i) with (point T i - off) by (unfold point; cbn; ring). reflexivity.
    + apply at_two; [reflexivity..| |]; cbn [moved_by u_n]; rewrite ?NT, ?NQ, Z2Nat.id; lia.
Qed.
(** the numbers of points chosen *)
Lemma trunc_below x : 0 <= x -> whole_below x (Z.min 1000 (rtrunc x)).
Proof.
  intro H. unfold rtrunc. destruct (Rle_dec 0 x); [|contradiction]. destruct (base_Int_part x) as [L G]. unfold whole_below. destruct (Z.le_gt_cases 1000 (Int_part x)) as [K|K].
  - left. split; [lia|]. apply IZR_le in K. lra.
  - right. rewrite Z.min_r by lia. split; [exact K|lra].
Qed.
Lemma fold_choice (h : R -> R -> R) (H : forall x y, h x y = x \/ h x y = y) : forall r x, In (fold_left h r x) (x :: r).
Proof. induction r as [|y r IH]; intro x; [now left|]. cbn [fold_left]. destruct (IH (h x y)) as [E|E]; [|now right; right]. destruct (H x y) as [K|K]; rewrite K in *; [left|right; left]; exact E. Qed.
Lemma abs_reached h g a : (forall x y : R, h x y = x \/ h x y = y) -> match map Rabs g with [] => Err ValueError | x :: r => Ok (fold_left h r x) end = Ok a -> exists x, In x g /\ a ^ 2 = x ^ 2.
Proof.
  intros H E. destruct g as [|z g]; [discriminate E|]. cbn [map] in E. injection E as <-. destruct (proj1 (in_map_iff Rabs (z :: g) _) (fold_choice h H (map Rabs g) (Rabs z))) as (x & Ex & I). exists x. split; [exact I|]. rewrite <- Ex. apply pow2_abs.
Qed.
Lemma Rmin_choice x y : Rmin x y = x \/ Rmin x y = y. Proof. unfold Rmin. destruct (Rle_dec x y); auto. Qed.
Lemma Rmax_choice x y : Rmax x y = x \/ Rmax x y = y. Proof. unfold Rmax. destruct (Rle_dec x y); auto. Qed.
Lemma radii_reached gx gy lo hi : polar_radii gx gy = Ok (lo, hi) ->
  (exists x y, In x gx /\ In y gy /\ lo = sqrt (x ^ 2 + y ^ 2)) /\ (exists x y, In x gx /\ In y gy /\ hi = sqrt (x ^ 2 + y ^ 2)).
Proof.
  intro E. unfold polar_radii in E. apply bind_ok in E. destruct E as (a & Ea & E). apply bind_ok in E. destruct E as (b & Eb & E). apply bind_ok in E. destruct E as (c & Ec & E). apply bind_ok in E. destruct E as (d & Ed & E). injection E as <- <-.
  destruct (abs_reached Rmin gx a Rmin_choice Ea) as (x0 & I0 & E0). destruct (abs_reached Rmin gy b Rmin_choice Eb) as (y0 & J0 & F0).
  destruct (abs_reached Rmax gx c Rmax_choice Ec) as (x1 & I1 & E1). destruct (abs_reached Rmax gy d Rmax_choice Ed) as (y1 & J1 & F1).
  split; [exists x0, y0|exists x1, y1]; (split; [assumption|split; [assumption|]]); f_equal; f_equal; assumption.
Qed.
Lemma in_grid u x : In x (grid_of u) -> exists i, (0 <= i < Z.of_nat (u_n u))%Z /\ x = point u i.
Proof. unfold grid_of. intro I. apply in_map_iff in I. destruct I as (k & <- & I). apply in_seq in I. exists (Z.of_nat k). split; [lia|reflexivity]. Qed.
Lemma default_extent f U : uniform_field f 2 U -> exists lo hi, polar_extent (sf_field f) None = Ok (- PI, PI, (lo, hi)) /\ (forall a b, polar_extent (sf_field f) (Some [a; b]) = Ok (a, b, (lo, hi))) /\ 0 <= lo /\ distances U lo hi.
Proof.
  intro Uf. pose proof (uf_axes f 2 U Uf) as La. destruct (rf_axes (sf_field f)) as [|ax [|ay [|]]] eqn:Eax; try discriminate La.
  assert (Ex : nth_error (rf_axes (sf_field f)) 0 = Some ax) by now rewrite Eax. assert (Ey : nth_error (rf_axes (sf_field f)) 1 = Some ay) by now rewrite Eax.
  destruct (uf_axis f 2 U Uf 0 ax Ex) as (Gx & _ & Px & _). destruct (uf_axis f 2 U Uf 1 ay Ey) as (Gy & _ & Py & _).
  assert (Nx : ra_grid ax <> []) by (rewrite Gx; intro K; apply (f_equal (@length R)) in K; rewrite grid_length in K; cbn in K; lia).
  assert (Ny : ra_grid ay <> []) by (rewrite Gy; intro K; apply (f_equal (@length R)) in K; rewrite grid_length in K; cbn in K; lia).
  destruct (radii_defined _ _ Nx Ny) as ([lo hi] & Er). exists lo, hi. split; [|split; [|split; [|split; [|split]]]].
  - unfold polar_extent. rewrite Eax. change (getidx [ax; ay] 0) with (Ok ax). change (getidx [ax; ay] 1) with (Ok ay). cbn [bind]. rewrite Er. reflexivity.
  - intros a b. unfold polar_extent. rewrite Eax. change (getidx [ax; ay] 0) with (Ok ax). change (getidx [ax; ay] 1) with (Ok ay). cbn [bind length Nat.ltb Nat.leb]. rewrite Er. reflexivity.
  - unfold polar_radii in Er. repeat (apply bind_ok in Er; destruct Er as (? & ? & Er)). injection Er as <- _. apply sqrt_pos.
  - intros i j [Hi Hj]. apply (radii_cover _ _ lo hi (point (U 0%nat) i) (point (U 1%nat) j) Er).
    + rewrite Gx. unfold grid_of. apply in_map_iff. exists (Z.to_nat i). split; [now rewrite Z2Nat.id by lia|]. apply in_seq. lia.
    + rewrite Gy. unfold grid_of. apply in_map_iff. exists (Z.to_nat j). split; [now rewrite Z2Nat.id by lia|]. apply in_seq. lia.
  - destruct (proj1 (radii_reached _ _ _ _ Er)) as (x & y & Ix & Iy & ->). rewrite Gx in Ix. rewrite Gy in Iy. apply in_grid in Ix, Iy. destruct Ix as (i & Hi & ->), Iy as (j & Hj & ->). exists i, j. split; [split; assumption|reflexivity].
  - destruct (proj2 (radii_reached _ _ _ _ Er)) as (x & y & Ix & Iy & ->). rewrite Gx in Ix. rewrite Gy in Iy. apply in_grid in Ix, Iy. destruct Ix as (i & Hi & ->), Iy as (j & Hj & ->). exists i, j. split; [split; assumption|reflexivity].
Qed.
Lemma default_shape f U e0 e1 e2 e3 : uniform_field f 2 U -> e0 <= e1 -> 0 <= e2 <= e3 -> exists n m, polar_shape (sf_field f) (e0, e1, (e2, e3)) None = Ok (n, m) /\
  let h := Rmin (u_dx (U 0%nat)) (u_dx (U 1%nat)) in whole_below ((e1 - e0) * ((e2 + e3) / 2) / h) n /\ whole_below ((e3 - e2) / h) m.
Proof.
  intros Uf L01 L23. unfold polar_shape. assert (Es : mapM rspacing (rf_axes (sf_field f)) = Ok [u_dx (U 0%nat); u_dx (U 1%nat)]).
  { exact (shift_spacings f 2 U Uf). }
  rewrite Es. cbn [bind rmin_list fold_left]. eexists. eexists. split; [reflexivity|]. cbv zeta.
  assert (H : 0 < Rmin (u_dx (U 0%nat)) (u_dx (U 1%nat))).
  { destruct (uf_shape f 2 U Uf 0 ltac:(lia)) as (_ & _ & P0). destruct (uf_shape f 2 U Uf 1 ltac:(lia)) as (_ & _ & P1). apply Rmin_glb_lt; assumption. }
  split.
  - replace ((e1 - e0) * ((e2 + e3) / 2)) with ((e1 - e0) * (e2 + e3) / 2) by lra. apply trunc_below. apply Rmult_le_pos; [|left; now apply Rinv_0_lt_compat]. assert (0 <= (e1 - e0) * (e2 + e3)) by (apply Rmult_le_pos; lra). lra.
  - apply trunc_below. apply Rmult_le_pos; [lra|left; now apply Rinv_0_lt_compat].
Qed.

Lemma topolar_given interp unwrap nonlin spl f U e0 e1 e2 e3 n m off mode preserve : uniform_field f 2 U -> linear_spline spl -> same_shapes unwrap -> accepted f mode -> (2 <= n)%Z -> (2 <= m)%Z -> e0 < e1 -> e2 < e3 ->
  exists g, topolar interp unwrap nonlin spl f (Some [e0; e1; e2; e3]) (Some (n, m)) off mode preserve = Ok g /\ polar_axes f g (from_to e0 e1 n) (from_to e2 e3 m) /\ polar_rest f g n m /\
    forall i j, (0 <= i < n)%Z -> (0 <= j < m)%Z -> a_at (rf_data (sf_field g)) [i; j] = polar_value interp unwrap f U mode preserve (point (from_to e0 e1 n) i - off) (point (from_to e2 e3 m) j).
Proof. intros Uf Sp Ss Ac Hn Hm L01 L23. exact (topolar_ok interp unwrap nonlin spl f U (Some [e0; e1; e2; e3]) (Some (n, m)) e0 e1 e2 e3 n m off mode preserve Uf Sp Ss Ac eq_refl eq_refl Hn Hm L01 L23). Qed.
Lemma topolar_default interp unwrap nonlin spl f U angles off mode preserve : uniform_field f 2 U -> linear_spline spl -> same_shapes unwrap -> accepted f mode ->
  let e0 := match angles with Some (a, _) => a | None => - PI end in let e1 := match angles with Some (_, b) => b | None => PI end in e0 < e1 ->
  exists lo hi n m, distances U lo hi /\
    (let h := Rmin (u_dx (U 0%nat)) (u_dx (U 1%nat)) in whole_below ((e1 - e0) * ((lo + hi) / 2) / h) n /\ whole_below ((hi - lo) / h) m) /\
    ((2 <= n)%Z -> (2 <= m)%Z -> exists g, topolar interp unwrap nonlin spl f (match angles with Some (a, b) => Some [a; b] | None => None end) None off mode preserve = Ok g /\ polar_axes f g (from_to e0 e1 n) (from_to lo hi m) /\ polar_rest f g n m /\
      forall i j, (0 <= i < n)%Z -> (0 <= j < m)%Z -> a_at (rf_data (sf_field g)) [i; j] = polar_value interp unwrap f U mode preserve (point (from_to e0 e1 n) i - off) (point (from_to lo hi m) j)).
Proof.
  intros Uf Sp Ss Ac e0 e1 L01. destruct (default_extent f U Uf) as (lo & hi & E1 & E2 & P & D). assert (Lh : lo <= hi) by (destruct D as (D & (i & j & I & _) & _); specialize (D i j I); lra).
  destruct (default_shape f U e0 e1 lo hi Uf ltac:(lra) ltac:(lra)) as (n & m & Es & Wn & Wm). exists lo, hi, n, m. split; [exact D|]. split; [split; assumption|]. intros Hn Hm.
  assert (L : lo < hi).
  { destruct (Rle_lt_or_eq_dec _ _ Lh) as [|K]; [assumption|]. exfalso. replace (hi - lo) with 0 in Wm by lra. unfold Rdiv in Wm. rewrite Rmult_0_l in Wm. destruct Wm as [[_ K1]|[_ [K1 _]]]; [lra|]. apply (IZR_le 2) in Hm. lra. }
  refine (topolar_ok interp unwrap nonlin spl f U (match angles with Some (a, b) => Some [a; b] | None => None end) None e0 e1 lo hi n m off mode preserve Uf Sp Ss Ac _ Es Hn Hm L01 L). subst e0 e1. destruct angles as [[a b]|]; [apply E2|exact E1].
Qed.
