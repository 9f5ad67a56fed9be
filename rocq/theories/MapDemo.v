(** An interpolation with all the properties asked for, concrete fields, and the cases in which the
    properties of the interpolation to other grids fail. *)
From Coq Require Import Reals String Ascii Lra Lia ZArith List Bool.
From Verif Require Import PyBase PyBaseFacts NumpyModel NumpyFacts NdModel NdFacts CplxModel CplxFacts FieldModel FftModel FftSpec FftAxes FftFacts FftDemo UnstagModel RealModel RealFacts MapModel MapSpec MapFacts MapLaws MapMore LinShiftSpec LinShift PolarSpec PolarFacts.
Import ListNotations.
Local Open Scope R_scope.

(** * linear interpolation, zero outside *)
Definition insideb (sh : list Z) (p : list R) : bool := (length p =? length sh)%nat && forallb (fun q => Rleb 0 (snd q) && Rleb (snd q) (IZR (fst q - 1))) (combine sh p).
Definition linear0 (a : nda R) (p : list R) : R := if insideb (a_shape a) p then linear_at (a_shape a) (a_at a) p else 0.
Lemma Rleb_iff a b : Rleb a b = true <-> a <= b.
Proof. unfold Rleb. destruct (Rle_dec a b); split; intro; try assumption; try reflexivity; try discriminate; contradiction. Qed.
Lemma insideb_ok : forall sh p, insideb sh p = true <-> Forall2 (fun n x => 0 <= x <= IZR (n - 1)) sh p.
Proof.
  unfold insideb. induction sh as [|n sh IH]; intros [|x p]; cbn [length Nat.eqb combine forallb fst snd andb].
  - split; [constructor|reflexivity].
  - split; [discriminate|intro H; inversion H].
  - split; [discriminate|intro H; inversion H].
  - split; intro H.
    + apply andb_prop in H. destruct H as [L H]. apply andb_prop in H. destruct H as [H1 H2]. apply andb_prop in H1. destruct H1 as [H0 H1]. apply Rleb_iff in H0, H1. constructor; [split; assumption|]. apply IH. now rewrite L, H2.
    + inversion H as [|? ? ? ? [H0 H1] H2]; subst. apply IH in H2. apply andb_prop in H2. destruct H2 as [L H2]. rewrite L, H2. apply Rleb_iff in H0, H1. now rewrite H0, H1.
Qed.
Lemma linear0_points : through_points linear0.
Proof.
  intros a idx I. unfold linear0. assert (F := proj1 (in_shape_spec _ _) I).
  assert (K : insideb (a_shape a) (map IZR idx) = true).
  { apply insideb_ok. clear I. induction F as [|n i sh idx H F IH]; [constructor|]. cbn. constructor; [|exact IH]. split; [apply (IZR_le 0); lia|apply IZR_le; lia]. }
  rewrite K, linear_int by (now apply in_shape_length). f_equal. clear I K. induction F as [|n i sh idx H F IH]; [reflexivity|]. cbn. f_equal; [unfold nearest_index; lia|exact IH].
Qed.
Lemma linear0_outside : zero_outside linear0.
Proof.
  intros a p (k & x & n & Ex & En & O). unfold linear0. destruct (insideb (a_shape a) p) eqn:K; [|reflexivity]. apply insideb_ok in K. destruct (Forall2_nth_error _ _ _ _ _ K En) as (y & Ey & H). rewrite Ex in Ey. injection Ey as <-. lra.
Qed.
Lemma linear0_constants : keeps_constants linear0.
Proof.
  intros a c p F H. unfold linear0. assert (K := proj2 (insideb_ok _ _) F). rewrite K. assert (Sz : sizes (a_shape a)).
  { clear K H. induction F as [|n x sh p Hx F IH]; [constructor|]. constructor; [|exact IH]. assert (J : 0 <= IZR (n - 1)) by lra. apply (le_IZR 0) in J. lia. }
  assert (L : length p = length (a_shape a)) by (symmetry; now apply Forall2_len in F). destruct (linear_between _ p (a_at a) c c Sz L) as [A B]; [intros idx I; rewrite (H idx I); lra|]. lra.
Qed.
Lemma no_unwrap : whole_turns None. Proof. intros u E. discriminate E. Qed.
Definition no_nonlin : raxis -> R -> R := fun _ _ => 0.

(** * a line of two points *)
Definition line (real : bool) (u : uni) (data : Z -> C) : sfield := mksf real (field1 "x" "m" u false None data).
Definition axis_of (u : uni) : raxis := mkra "x" "m" (grid_of u) (node_of u).
Lemma line_ok real u data : proper u -> uniform_field (line real u data) 1 (fun _ => u).
Proof. intro P. destruct (field1_ok "x" "m" u false None data P) as (C & G & _). split; [exact C|]. split; [reflexivity|]. split; [lia|exact G]. Qed.
Lemma axis_new u : proper u -> new_axes_ok [axis_of u].
Proof. intros [P _]. split; [discriminate|]. apply Forall_cons; [|apply Forall_nil]. cbn [axis_of ra_grid]. intro K. apply (f_equal (@length R)) in K. rewrite grid_length in K. cbn in K. lia. Qed.
Lemma at_one u i : (0 <= i < Z.of_nat (u_n u))%Z -> at_point [axis_of u] [i] [point u i].
Proof.
  intro H. split; [reflexivity|]. split; [reflexivity|]. intros a ax E. destruct a as [|a]; cbn in E; [injection E as <-|destruct a; discriminate]. exists i. split; [reflexivity|]. split; [lia|].
  cbn [axis_of ra_grid nth_error]. rewrite (nth_error_nth' _ 0) by (rewrite grid_length; lia). rewrite grid_at by lia. now rewrite Z2Nat.id by lia.
Qed.
Definition coarse := mkuni 2 0 1.
Definition fine := mkuni 4 (- (1 / 4)) (1 / 2).
Lemma coarse_proper : proper coarse. Proof. split; cbn; [lia|lra]. Qed.
Lemma fine_proper : proper fine. Proof. split; cbn; [lia|lra]. Qed.
(** the same extent with twice as many points: half of the integral of a constant is lost *)
Lemma border_lost interp nonlin : zero_outside interp -> keeps_constants interp -> exists f U axes V g, uniform_field f 1 U /\ grids axes V /\
  (exists ax ay, rf_axes (sf_field f) = [ax] /\ axes = [ay] /\ hd 0 (ra_node ax) = hd 0 (ra_node ay) /\ last (ra_node ax) 0 = last (ra_node ay) 0) /\
  map_coordinates interp None nonlin f axes None Polar true None None = Ok g /\ integral fst f U = 2 /\ integral fst g V = 1.
Proof.
  intros Zo Kc. exists (line true coarse (fun _ => C1)), (fun _ => coarse), [axis_of fine], (fun _ => fine).
  assert (Uf := line_ok true coarse (fun _ => C1) coarse_proper). assert (Su := whole_same _ no_unwrap). assert (Ac : accepted (line true coarse (fun _ => C1)) Polar) by now left.
  destruct (map_values interp None nonlin _ 1 (fun _ => coarse) [axis_of fine] None Polar true None None Uf Su Ac (axis_new _ fine_proper) eq_refl) as (g & E & (_ & _ & Sh & _) & H); [intros _; split; [reflexivity|]; intro K; now elim K|].
  exists g. split; [exact Uf|]. split; [intros a ax Ea; destruct a as [|a]; cbn in Ea; [injection Ea as <-|destruct a; discriminate]; split; [reflexivity|exact fine_proper]|]. split; [|split; [exact E|split]].
  - exists (axis_of coarse), (axis_of fine). split; [reflexivity|]. split; [reflexivity|]. unfold axis_of, node_of, point. cbn. split; lra.
  - unfold integral, volume. cbn. change (Pos.to_nat 2) with 2%nat. cbn. lra.
  - assert (V : forall i, (0 <= i < 4)%Z -> fst (a_at (rf_data (sf_field g)) [i]) = if ((0 <? i) && (i <? 3))%Z%bool then 1 else 0).
    { intros i Hi. rewrite (H [i] [point fine i] (at_one fine i Hi)). cbn [functions length seq map nth weight]. destruct ((0 <? i) && (i <? 3))%Z%bool eqn:Ei.
      - unfold value_at, real_at. cbn [sf_real line]. rewrite (Kc _ 1); [cbn; ring| |intros idx _; reflexivity]. cbn [a_shape line sf_field field1 rf_data]. constructor; [|constructor].
        apply andb_prop in Ei. destruct Ei as [L G]. apply Z.ltb_lt in L, G. unfold pixel, point. assert (B : 1 <= IZR i <= 2) by (split; apply IZR_le; lia). cbn. lra.
      - rewrite value_at_outside; [cbn; ring|exact Zo|]. exists 0%nat, (pixel coarse (point fine i)), 2%Z. split; [reflexivity|]. split; [reflexivity|]. assert (i = 0 \/ i = 3)%Z as [-> | ->] by lia; unfold pixel, point; cbn; [left|right]; lra. }
    unfold integral. rewrite Sh. unfold axis_of. cbn [map ra_grid length total]. rewrite grid_length. cbn [fine u_n]. change (Z.to_nat (Z.of_nat 4)) with 4%nat. cbn [CplxModel.rsum]. rewrite !V by lia. cbn. lra.
Qed.
(** the determinant handed in is used with its sign, the Jacobian is not *)
Definition sym := mkuni 2 (- (1 / 2)) 1.
Lemma sym_proper : proper sym. Proof. split; cbn; [lia|lra]. Qed.
Definition mirror : list coord_fun := [fun x => - nth 0 x 0].
Lemma sign_kept interp nonlin : through_points interp -> exists f axes g h, uniform_field f 1 (fun _ => sym) /\
  map_coordinates interp None nonlin f axes (Some mirror) Polar true (Some [[fun _ => -1]]) None = Ok g /\
  map_coordinates interp None nonlin f axes (Some mirror) Polar true None (Some (fun _ => -1)) = Ok h /\
  a_at (rf_data (sf_field g)) [0%Z] = C1 /\ a_at (rf_data (sf_field h)) [0%Z] = (-1, 0).
Proof.
  intro Tp. set (f := line true sym (fun _ => C1)). assert (Uf := line_ok true sym (fun _ => C1) sym_proper). fold f in Uf. assert (Su := whole_same _ no_unwrap). assert (Ac : accepted f Polar) by now left.
  assert (Rd : real_data f) by (intros _ idx; reflexivity).
  assert (Na := axis_new _ sym_proper). destruct (map_coordinates_ok interp None nonlin f 1 (fun _ => sym) [axis_of sym] (Some mirror) Polar true (Some [[fun _ => -1]]) None (fun _ => Rabs (-1)) Uf Su Ac (proj1 Na) (proj2 Na)) as (g & b & Eg & _ & _ & _ & _ & _ & _ & Hg).
  { cbn. lia. } { intros _. split; reflexivity. }
  destruct (map_coordinates_ok interp None nonlin f 1 (fun _ => sym) [axis_of sym] (Some mirror) Polar true None (Some (fun _ => -1)) (fun _ => -1) Uf Su Ac (proj1 Na) (proj2 Na)) as (h & b' & Eh & _ & _ & _ & _ & _ & _ & Hh).
  { cbn. lia. } { intros _. split; reflexivity. }
  exists f, [axis_of sym], g, h. split; [exact Uf|]. split; [exact Eg|]. split; [exact Eh|].
  assert (V : value_at interp None f Polar (map (fun a => pixel sym (nth a (functions (Some mirror) 1) (fun _ => 0) (coords [axis_of sym] [0%Z]))) (seq 0 1)) = C1).
  { replace (map (fun a => pixel sym (nth a (functions (Some mirror) 1) (fun _ => 0) (coords [axis_of sym] [0%Z]))) (seq 0 1)) with (map IZR [1%Z]).
    - rewrite value_at_point; [reflexivity|exact Tp|exact no_unwrap|exact Rd|reflexivity].
    - rewrite (coords_at _ _ _ (at_one sym 0 ltac:(cbn; lia))). unfold mirror, pixel, point. cbn. f_equal. field. }
  rewrite Hg, Hh. cbn [length]. rewrite V. unfold Cmul, RtoC, C1. cbn. rewrite Rabs_left by lra. split; f_equal; ring.
Qed.
(** any complex_mode is accepted for real data *)
Lemma mode_unchecked interp nonlin : exists f axes g, uniform_field f 1 (fun _ => coarse) /\ map_coordinates interp None nonlin f axes None OtherMode true None None = Ok g.
Proof.
  destruct (map_values interp None nonlin _ 1 (fun _ => coarse) [axis_of fine] None OtherMode true None None (line_ok true coarse (fun _ => C1) coarse_proper) (whole_same _ no_unwrap) (or_introl eq_refl) (axis_new _ fine_proper) eq_refl) as (g & E & _).
  - intros _. split; [reflexivity|]. intro K. now elim K.
  - exists (line true coarse (fun _ => C1)), [axis_of fine], g. split; [exact (line_ok true coarse (fun _ => C1) coarse_proper)|exact E].
Qed.
(** one point along a new axis *)
Lemma thin_refused interp nonlin : exists f axes T, uniform_field f 1 (fun _ => coarse) /\ new_axes_ok axes /\ length axes = 1%nat /\ length T = 1%nat /\
  map_coordinates interp None nonlin f axes (Some T) Polar true None None = Err ValueError.
Proof.
  exists (line true coarse (fun _ => C1)), [mkra "x" "m" [0] [- (1 / 2); 1 / 2]], [fun x => 2 * nth 0 x 0]. assert (Uf := line_ok true coarse (fun _ => C1) coarse_proper).
  assert (Na : new_axes_ok [mkra "x" "m" [0] [- (1 / 2); 1 / 2]]) by (split; [discriminate|apply Forall_cons; [discriminate|apply Forall_nil]]).
  split; [exact Uf|]. split; [exact Na|]. split; [reflexivity|]. split; [reflexivity|].
  apply (map_refused_thin interp None nonlin _ 1 (fun _ => coarse)); [exact Uf|exact (whole_same _ no_unwrap)|now left|exact Na|reflexivity|cbn; lia|]. eexists. split; [now left|reflexivity].
Qed.

(** * the plane *)
Definition plane (u : uni) (c : list Z -> C) : sfield :=
  mksf true (mkrf (mkarr [Z.of_nat (u_n u); Z.of_nat (u_n u)] c) [mkra "kx" "1/m" (grid_of u) (node_of u); mkra "ky" "1/m" (grid_of u) (node_of u)] [Some true; Some true] [None; None]).
Lemma plane_ok u c : proper u -> uniform_field (plane u c) 2 (fun _ => u).
Proof.
  intro P. split; [split; cbn; try reflexivity; lia|]. split; [reflexivity|]. split; [lia|]. intros a I. assert (a = 0 \/ a = 1)%nat as [-> | ->] by (apply in_seq in I; lia).
  - exists (mkra "kx" "1/m" (grid_of u) (node_of u)). repeat split; try reflexivity; exact (proj1 P) || exact (proj2 P).
  - exists (mkra "ky" "1/m" (grid_of u) (node_of u)). repeat split; try reflexivity; exact (proj1 P) || exact (proj2 P).
Qed.
Definition five := mkuni 5 (-2) 1.
Lemma five_proper : proper five. Proof. split; cbn; [lia|lra]. Qed.
(** a full turn in polar coordinates counts one point too many *)
Lemma turn_overlaps interp nonlin spl : keeps_constants interp -> linear_spline spl -> exists f U g, uniform_field f 2 U /\ (forall idx, in_shape (a_shape (rf_data (sf_field f))) idx = true -> a_at (rf_data (sf_field f)) idx = C1) /\
  topolar interp None nonlin spl f (Some [- PI; PI; 1; 2]) (Some (4, 2)%Z) 0 Polar true = Ok g /\ polar_axes f g (from_to (- PI) PI 4) (from_to 1 2 2) /\
  CplxModel.rsum 4 (fun i => fst (a_at (rf_data (sf_field g)) [Z.of_nat i; 0%Z])) * u_dx (from_to (- PI) PI 4) <> 2 * PI * point (from_to 1 2 2) 0.
Proof.
  intros Kc Sp. exists (plane five (fun _ => C1)), (fun _ => five). assert (Uf := plane_ok five (fun _ => C1) five_proper).
  destruct (topolar_ok interp None nonlin spl _ (fun _ => five) (Some [- PI; PI; 1; 2]) (Some (4, 2)%Z) (- PI) PI 1 2 4 2 0 Polar true Uf Sp (whole_same _ no_unwrap) (or_introl eq_refl) eq_refl eq_refl) as (g & E & Pa & _ & H); [lia|lia|pose proof PI_RGT_0; lra|lra|].
  exists g. split; [exact Uf|]. split; [reflexivity|]. split; [exact E|]. split; [exact Pa|].
  assert (V : forall i, (0 <= i < 4)%Z -> fst (a_at (rf_data (sf_field g)) [i; 0%Z]) = 1).
  { intros i Hi. rewrite (H i 0%Z Hi ltac:(lia)). set (th := point (from_to (- PI) PI 4) i - 0). replace (point (from_to 1 2 2) 0) with 1 by (unfold point; cbn; lra). unfold value_at, real_at. cbn [sf_real plane].
    rewrite (Kc _ 1); [cbn; ring| |reflexivity]. cbn [a_shape plane sf_field rf_data]. pose proof (COS_bound th). pose proof (SIN_bound th). constructor; [unfold pixel; cbn; lra|]. constructor; [unfold pixel; cbn; lra|constructor]. }
  cbn [CplxModel.rsum]. rewrite !V by lia. unfold point, from_to. cbn. pose proof PI_RGT_0. lra.
Qed.
(** points all at the same distance: no radii to choose from *)
Lemma axis_errors spl name unit g : exists r, rmk_axis spl name unit g = r /\ (r = Err ValueError \/ exists ax, r = Ok ax).
Proof.
  eexists. split; [reflexivity|]. unfold rmk_axis. destruct (guard _ _) as [[]|e] eqn:G; cbn [bind]; [|left; unfold guard in G; destruct (negb _); congruence].
  unfold rnodes. destruct g as [|x [|y g]]; cbn [bind]; [now left| |]; match goal with |- context [if ?b then _ else _] => destruct b end; eauto.
Qed.
Lemma square_refused interp nonlin spl off mode preserve : uniform_field (plane sym (fun _ => C1)) 2 (fun _ => sym) /\ topolar interp None nonlin spl (plane sym (fun _ => C1)) None None off mode preserve = Err ValueError.
Proof.
  split; [exact (plane_ok _ _ sym_proper)|]. set (f := plane sym (fun _ => C1)). assert (Uf := plane_ok sym (fun _ => C1) sym_proper). fold f in Uf.
  assert (Ee : exists r, 0 <= r /\ polar_extent (sf_field f) None = Ok (- PI, PI, (r, r))).
  { exists (sqrt ((1 / 2) ^ 2 + (1 / 2) ^ 2)). split; [apply sqrt_pos|]. assert (Gs : grid_of sym = [- (1 / 2); 1 / 2]) by (unfold grid_of, point; cbn; f_equal; [lra|f_equal; lra]).
    unfold polar_extent, f, plane. cbn [sf_field rf_axes]. rewrite Gs.
    match goal with |- context [getidx [?a; ?b] 0] => change (getidx [a; b] 0) with (Ok a); change (getidx [a; b] 1) with (Ok b) end. cbn [bind ra_grid]. unfold polar_radii. cbn [map rmin_list rmax_list fold_left bind].
    rewrite Rabs_left, (Rabs_right (1/2)) by lra. replace (- - (1 / 2)) with (1 / 2) by lra.
    unfold Rmin, Rmax. destruct (Rle_dec (1 / 2) (1 / 2)); [|lra]. reflexivity. }
  destruct Ee as (r & Pr & Ee). unfold topolar. rewrite Ee. cbn [bind]. destruct (default_shape f (fun _ => sym) (- PI) PI r r Uf) as (n & m & Es & _ & Wm); [pose proof PI_RGT_0; lra|lra|]. rewrite Es. cbn [bind fst snd].
  assert (m = 0%Z). { replace ((r - r) / Rmin (u_dx sym) (u_dx sym)) with 0 in Wm by (unfold Rdiv; replace (r - r) with 0 by ring; ring). destruct Wm as [[_ K]|[_ [K1 K2]]]; [lra|]. apply (le_IZR _ 0) in K1. assert (K3 : IZR (-1) < IZR m) by lra. apply lt_IZR in K3. lia. }
  subst m. unfold linspace_z at 1. destruct (n <? 0)%Z; [reflexivity|]. cbn [bind].
  destruct (axis_errors spl "theta" "rad" (rlinspace (- PI) PI (Z.to_nat n))) as (r1 & -> & [-> |[a1 ->]]); [reflexivity|]. cbn [bind].
  destruct (axis_errors spl "theta" "rad" (map (fun x => x - off) (rlinspace (- PI) PI (Z.to_nat n)))) as (r2 & -> & [-> |[a2 ->]]); [reflexivity|]. reflexivity.
Qed.
(** linear shift: names are lost, complex data are refused *)
Lemma names_lost : exists f g ax ay, uniform_field f 1 (fun _ => coarse) /\ shift_grid_with line_spline f [(0%Z, 1 / 2)] Linear = Ok g /\
  rf_axes (sf_field f) = [ax] /\ rf_axes (sf_field g) = [ay] /\ ra_name ax = "x"%string /\ ra_unit ax = "m"%string /\ ra_name ay = EmptyString /\ ra_unit ay = EmptyString.
Proof.
  set (f := line true coarse (fun _ => C1)). assert (Uf := line_ok true coarse (fun _ => C1) coarse_proper). fold f in Uf.
  destruct (linear_ok f 1 (fun _ => coarse) [0%nat] (fun _ => 1 / 2) Uf ltac:(intros a [<-|[]]; lia) eq_refl) as (g & E & [L M] & _). destruct (M 0%nat (axis_of coarse) eq_refl) as (ay & Ey & _ & En & Eu).
  exists f, g, (axis_of coarse), ay. split; [exact Uf|]. split; [rewrite <- E; exact (shift_with f 1 (fun _ => coarse) [0%nat] (fun _ => 1 / 2) Uf ltac:(intros a [<-|[]]; lia) line_spline)|]. split; [reflexivity|]. split; [|now repeat split].
  cbn in L. destruct (rf_axes (sf_field g)) as [|x [|]]; cbn in Ey, L; try discriminate. congruence.
Qed.
Lemma complex_refused : exists f, uniform_field f 1 (fun _ => coarse) /\ shift_grid_with line_spline f [(0%Z, 1 / 2)] Linear = Err NameError.
Proof.
  exists (line false coarse (fun _ => C1)). assert (Uf := line_ok false coarse (fun _ => C1) coarse_proper). split; [exact Uf|].
  assert (HA : forall a, In a [0%nat] -> (a < 1)%nat) by (intros a [<-|[]]; lia).
  rewrite <- (linear_complex _ 1 (fun _ => coarse) [0%nat] (fun _ => 1 / 2) Uf HA eq_refl). exact (shift_with _ 1 (fun _ => coarse) [0%nat] (fun _ => 1 / 2) Uf HA line_spline).
Qed.
(** the default radii and angles for five points in both directions *)
Lemma five_polar : exists g, topolar linear0 None no_nonlin line_spline (plane five (fun _ => C1)) None None 0 Polar true = Ok g.
Proof.
  pose proof PI_RGT_0 as Pp. pose proof PI2_3_2 as P3. destruct (topolar_default linear0 None no_nonlin line_spline _ (fun _ => five) None 0 Polar true (plane_ok five (fun _ => C1) five_proper) line_spline_ok (whole_same _ no_unwrap) (or_introl eq_refl) ltac:(cbn; lra)) as (lo & hi & n & m & (D & (i & j & _ & Ei) & _) & [Wn Wm] & H).
  assert (Lo : 0 <= lo) by (rewrite <- Ei; apply sqrt_pos).
  assert (L : lo = 0). { assert (K := D 2%Z 2%Z ltac:(split; cbn; lia)). replace (distance (fun _ => five) 2 2) with 0 in K; [lra|]. unfold distance, point. cbn. replace (_ + _) with 0 by ring. now rewrite sqrt_0. }
  assert (Hi : 2 <= hi). { assert (K := D 0%Z 0%Z ltac:(split; cbn; lia)). assert (2 <= distance (fun _ => five) 0 0); [|lra]. unfold distance, point. cbn. apply Rle_trans with (sqrt (2 * 2)); [rewrite (R_sqrt.sqrt_square 2); lra|apply sqrt_le_1_alt; lra]. }
  cbn [five u_dx] in Wn, Wm. rewrite Rmin_left in Wn, Wm by lra.
  assert (M : forall x k, 2 <= x -> whole_below x k -> (2 <= k)%Z). { intros x k Hx [[-> _]|[_ [_ K]]]; [lia|]. assert (K2 : IZR 1 < IZR k) by lra. apply lt_IZR in K2. lia. }
  destruct H as (g & E & _); [|refine (M _ _ _ Wm); lra|exists g; exact E].
  assert (P4 : 3 <= PI) by lra. assert (3 * 2 <= PI * hi) by (apply Rmult_le_compat; lra). refine (M _ _ _ Wn). cbv zeta. apply Rle_trans with (PI * hi); [lra|right; rewrite L; field].
Qed.
