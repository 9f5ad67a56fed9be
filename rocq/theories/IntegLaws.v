(** Facts about derivatives on the grid, the extent and the direction of axes. *)
From Coq Require Import Lia Lqa Permutation Setoid.
From Verif Require Import PyBase PyBaseFacts NumpyModel NumpyFacts QSum AxisModel AxisSpec AxisFacts NdModel NdFacts FieldModel
  FieldSpec FieldInvFacts FieldNodedFacts FieldRearrFacts FieldReduceFacts FieldOpFacts FieldIntFacts FieldBuildFacts IntegModel IntegSpec IntegLines IntegFacts.

(** * The derivative *)
Definition sample_at (f : field Q) (idx : list Z) (k : nat) (i : Z) : Q := a_at (f_data f) (upd idx k i).
Lemma derivative_total f k : consistent f -> Forall axis_counted (f_axes f) -> (k < length (f_shape f))%nat -> (2 <= nth k (f_shape f) 0)%Z ->
  exists g, derivative_grid f (Z.of_nat k) = Ok g /\ f_shape g = f_shape f /\ f_axes g = f_axes f /\ f_ats g = f_ats f /\ f_tao g = f_tao f /\
    l_name (f_top g) = String.append (l_name (f_top f)) "'" /\ l_unit (f_top g) = l_unit (f_top f) /\ f_inner g = [] /\
    forall idx, a_at (f_data g) idx = gradient_at (point (nth k (f_axes f) axis0)) (sample_at f idx k) (nth k (f_shape f) 0%Z) (nth k idx 0%Z).
Proof.
  intros Hc Hn Hk H2. pose proof (grid_length f k Hc Hn Hk) as Lg. pose proof Hc as (La & _). unfold derivative_grid.
  change (l_axes (f_top f)) with (f_axes f). rewrite (getidx_at (f_axes f) k axis0) by lia. cbn [bind]. unfold np_gradient.
  change (a_shape (f_data f)) with (f_shape f). assert (Ep : py_pos (length (f_shape f)) (Z.of_nat k) = Ok k) by (apply py_pos_ok; lia). rewrite Ep. cbn [bind]. cbv zeta.
  rewrite Lg, Z.eqb_refl. cbn [negb]. destruct (Nat.leb_spec (length (ax_grid (nth k (f_axes f) axis0))) 1); [lia|]. cbn [bind].
  eexists. split; [reflexivity|]. repeat (split; [reflexivity|]). reflexivity.
Qed.
Definition strict_on (x : Z -> Q) (n : Z) : Prop :=
  (forall i, (0 <= i)%Z -> (i + 1 < n)%Z -> x i < x (i + 1)%Z) \/ (forall i, (0 <= i)%Z -> (i + 1 < n)%Z -> x (i + 1)%Z < x i).
Lemma strict_mid x n i : strict_on x n -> (0 < i < n - 1)%Z ->
  (x (i - 1)%Z < x i /\ x i < x (i + 1)%Z) \/ (x i < x (i - 1)%Z /\ x (i + 1)%Z < x i).
Proof.
  intros [H|H] Hi; [left|right]; pose proof (H (i - 1)%Z ltac:(lia) ltac:(lia)) as G; replace (i - 1 + 1)%Z with i in G by lia; (split; [exact G|apply H; lia]).
Qed.
Lemma gradient_mid x y n i : (0 < i < n - 1)%Z -> gradient_at x y n i =
  (let d1 := x i - x (i - 1)%Z in let d2 := x (i + 1)%Z - x i in
   - (d2) / (d1 * (d1 + d2)) * y (i - 1)%Z + (d2 - d1) / (d1 * d2) * y i + d1 / (d2 * (d1 + d2)) * y (i + 1)%Z).
Proof. intro H. unfold gradient_at. destruct (Z.eqb_spec i 0); [lia|]. destruct (Z.eqb_spec i (n - 1)%Z); [lia|]. reflexivity. Qed.
Lemma gradient_first x y n : gradient_at x y n 0 = (y 1%Z - y 0%Z) / (x 1%Z - x 0%Z).
Proof. reflexivity. Qed.
Lemma gradient_last x y n : (2 <= n)%Z -> gradient_at x y n (n - 1) = (y (n - 1)%Z - y (n - 2)%Z) / (x (n - 1)%Z - x (n - 2)%Z).
Proof. intro H. unfold gradient_at. destruct (Z.eqb_spec (n - 1) 0); [lia|]. now rewrite Z.eqb_refl. Qed.
(** between the slopes to both sides *)
Definition slope (x y : Z -> Q) (i : Z) : Q := (y (i + 1)%Z - y i) / (x (i + 1)%Z - x i).
Lemma gradient_mean x y n i : strict_on x n -> (0 < i < n - 1)%Z ->
  exists t, 0 < t /\ t < 1 /\ gradient_at x y n i == t * slope x y (i - 1) + (1 - t) * slope x y i /\
    t == (x (i + 1)%Z - x i) / (x (i + 1)%Z - x (i - 1)%Z).
Proof.
  intros Hs Hi. pose proof (strict_mid x n i Hs Hi) as M. rewrite gradient_mid by exact Hi. cbv zeta.
  exists ((x (i + 1)%Z - x i) / (x (i + 1)%Z - x (i - 1)%Z)). unfold slope. replace (i - 1 + 1)%Z with i by lia.
  set (a := x (i - 1)%Z) in *. set (b := x i) in *. set (c := x (i + 1)%Z) in *.
  split; [|split; [|split; [|reflexivity]]].
  - destruct M as [M|M].
    + apply Qlt_shift_div_l; lra.
    + setoid_replace ((c - b) / (c - a)) with ((b - c) / (a - c)) by (field; lra). apply Qlt_shift_div_l; lra.
  - destruct M as [M|M].
    + apply Qlt_shift_div_r; lra.
    + setoid_replace ((c - b) / (c - a)) with ((b - c) / (a - c)) by (field; lra). apply Qlt_shift_div_r; lra.
  - field. lra.
Qed.
Lemma gradient_exact x y n i a b c : strict_on x n -> (2 <= n)%Z -> (0 <= i < n)%Z -> (a == 0 \/ (0 < i < n - 1)%Z) ->
  (forall j, (0 <= j < n)%Z -> y j == quadratic a b c (x j)) -> gradient_at x y n i == 2 * a * x i + b.
Proof.
  intros Hs H2 Hi Ha Hy. destruct (Z.eq_dec i 0) as [->|N0]; [|destruct (Z.eq_dec i (n - 1)) as [->|N1]].
  - destruct Ha as [Ha|]; [|lia]. rewrite gradient_first, !Hy by lia. unfold quadratic. rewrite Ha.
    assert (~ x 1%Z - x 0%Z == 0) by (destruct Hs as [H|H]; pose proof (H 0%Z ltac:(lia) ltac:(lia)) as G; change (0 + 1)%Z with 1%Z in G; lra).
    field. assumption.
  - destruct Ha as [Ha|]; [|lia]. rewrite gradient_last, !Hy by lia. unfold quadratic. rewrite Ha.
    assert (~ x (n - 1)%Z - x (n - 2)%Z == 0).
    { destruct Hs as [H|H]; pose proof (H (n - 2)%Z ltac:(lia) ltac:(lia)) as G; replace (n - 2 + 1)%Z with (n - 1)%Z in G by lia; lra. }
    field. assumption.
  - pose proof (strict_mid x n i Hs ltac:(lia)) as M. rewrite gradient_mid by lia. cbv zeta. rewrite !Hy by lia. unfold quadratic. field. lra.
Qed.
Lemma gradient_even x y n i h : ~ h == 0 -> (forall j, (0 <= j)%Z -> (j + 1 < n)%Z -> x (j + 1)%Z - x j == h) -> (0 < i < n - 1)%Z ->
  gradient_at x y n i == (y (i + 1)%Z - y (i - 1)%Z) / (2 * h).
Proof.
  intros Nh Hx Hi. rewrite gradient_mid by exact Hi. cbv zeta. rewrite (Hx i) by lia.
  pose proof (Hx (i - 1)%Z ltac:(lia) ltac:(lia)) as E. replace (i - 1 + 1)%Z with i in E by lia. rewrite E. field. lra.
Qed.
Lemma gradient_linear x y z w c n i : (2 <= n)%Z -> (0 <= i < n)%Z -> (forall j, (0 <= j < n)%Z -> w j == c * y j + z j) ->
  gradient_at x w n i == c * gradient_at x y n i + gradient_at x z n i.
Proof.
  intros H2 Hi Hw. unfold gradient_at. destruct (Z.eqb_spec i 0); [|destruct (Z.eqb_spec i (n - 1))]; rewrite !Hw by lia; unfold Qdiv; ring.
Qed.
Lemma gradient_back x y n i : (2 <= n)%Z -> (0 <= i < n)%Z -> strict_on x n ->
  gradient_at (fun j => x (n - 1 - j)%Z) (fun j => y (n - 1 - j)%Z) n i == gradient_at x y n (n - 1 - i).
Proof.
  intros H2 Hi Hs. destruct (Z.eq_dec i 0) as [->|N0]; [|destruct (Z.eq_dec i (n - 1)) as [->|N1]].
  - rewrite gradient_first. replace (n - 1 - 0)%Z with (n - 1)%Z by lia. rewrite gradient_last by exact H2. replace (n - 1 - 1)%Z with (n - 2)%Z by lia.
    assert (~ x (n - 1)%Z - x (n - 2)%Z == 0).
    { destruct Hs as [H|H]; pose proof (H (n - 2)%Z ltac:(lia) ltac:(lia)) as G; replace (n - 2 + 1)%Z with (n - 1)%Z in G by lia; lra. }
    field. split; lra.
  - rewrite gradient_last by exact H2. replace (n - 1 - (n - 1))%Z with 0%Z by lia. replace (n - 1 - (n - 2))%Z with 1%Z by lia. rewrite gradient_first.
    assert (~ x 1%Z - x 0%Z == 0) by (destruct Hs as [H|H]; pose proof (H 0%Z ltac:(lia) ltac:(lia)) as G; change (0 + 1)%Z with 1%Z in G; lra).
    field. split; lra.
  - pose proof (strict_mid x n (n - 1 - i)%Z Hs ltac:(lia)) as M. rewrite !gradient_mid by lia. cbv zeta.
    replace (n - 1 - (i - 1))%Z with (n - 1 - i + 1)%Z by lia. replace (n - 1 - (i + 1))%Z with (n - 1 - i - 1)%Z by lia.
    field. lra.
Qed.
Lemma goes_strict ax n : goes_up ax \/ goes_down ax -> Z.of_nat (length (ax_grid ax)) = n -> strict_on (point ax) n.
Proof. intros H <-. exact H. Qed.
(** the integral of the derivative *)
Lemma trapezoid_sum x : forall y, length y = length x ->
  trapezoid x y == qsum (map (fun i => (nth (S i) x 0 - nth i x 0) * (nth (S i) y 0 + nth i y 0) / 2) (seq 0 (length x - 1))).
Proof.
  induction x as [|x0 x IH]; intros y Ly; [reflexivity|]. destruct y as [|y0 y]; [discriminate|]. destruct x as [|x1 x].
  { destruct y; [reflexivity|discriminate]. }
  destruct y as [|y1 y]; [discriminate|].
  change (trapezoid (x0 :: x1 :: x) (y0 :: y1 :: y)) with ((x1 - x0) * (y1 + y0) / 2 + trapezoid (x1 :: x) (y1 :: y)).
  rewrite IH by (cbn in *; lia). replace (length (x0 :: x1 :: x) - 1)%nat with (S (length (x1 :: x) - 1)) by (cbn; lia).
  cbn [seq map]. rewrite qsum_cons. rewrite <- seq_shift, map_map. reflexivity.
Qed.
Lemma trapezoid_gradient x y n h : (2 <= n)%nat -> length x = n -> ~ h == 0 -> even_steps h x ->
  trapezoid x (map (fun i => gradient_at (fun j => nth (Z.to_nat j) x 0) y (Z.of_nat n) (Z.of_nat i)) (seq 0 n)) == y (Z.of_nat n - 1)%Z - y 0%Z.
Proof.
  intros H2 Lx Nh He. set (X := fun j => nth (Z.to_nat j) x 0). set (G := fun i => gradient_at X y (Z.of_nat n) (Z.of_nat i)).
  rewrite trapezoid_sum by (rewrite map_length, seq_length; lia). rewrite Lx.
  assert (EX : forall j, (0 <= j)%Z -> (j + 1 < Z.of_nat n)%Z -> X (j + 1)%Z - X j == h).
  { intros j H0 H1. unfold X. replace (Z.to_nat (j + 1)) with (S (Z.to_nat j)) by lia. apply He. lia. }
  assert (ES : forall m, (m <= n - 1)%nat ->
    qsum (map (fun i => (nth (S i) x 0 - nth i x 0) * (nth (S i) (map G (seq 0 n)) 0 + nth i (map G (seq 0 n)) 0) / 2) (seq 0 m))
    == qsum (map (fun i => h * (G (S i) + G i) / 2) (seq 0 m))).
  { intros m Hm. apply qsum_map_ext. intros i Hi. apply in_seq in Hi. rewrite !nth_map_seq by lia.
    assert (E : nth (S i) x 0 - nth i x 0 == h) by (apply He; lia). now rewrite E. }
  rewrite ES by lia.
  assert (G0 : G 0%nat == (y 1%Z - y 0%Z) / h).
  { unfold G. change (Z.of_nat 0) with 0%Z. rewrite gradient_first. pose proof (EX 0%Z ltac:(lia) ltac:(lia)) as E. change (0 + 1)%Z with 1%Z in E. now rewrite E. }
  assert (GL : G (n - 1)%nat == (y (Z.of_nat n - 1)%Z - y (Z.of_nat n - 2)%Z) / h).
  { unfold G. replace (Z.of_nat (n - 1)) with (Z.of_nat n - 1)%Z by lia. rewrite gradient_last by lia.
    pose proof (EX (Z.of_nat n - 2)%Z ltac:(lia) ltac:(lia)) as E. replace (Z.of_nat n - 2 + 1)%Z with (Z.of_nat n - 1)%Z in E by lia. now rewrite E. }
  assert (GM : forall i, (0 < i < n - 1)%nat -> G i == (y (Z.of_nat i + 1)%Z - y (Z.of_nat i - 1)%Z) / (2 * h)).
  { intros i Hi. apply gradient_even; auto. lia. }
  destruct (Nat.eq_dec n 2) as [E2|N2].
  { subst n. replace (length x - 1)%nat with 1%nat by lia. cbn [seq map]. rewrite qsum_cons, qsum_nil. rewrite E2 in GL. rewrite G0.
    change (2 - 1)%nat with 1%nat in GL. rewrite GL. rewrite E2. change (Z.of_nat 2 - 1)%Z with 1%Z. change (Z.of_nat 2 - 2)%Z with 0%Z. field. assumption. }
  assert (T : forall m, (1 <= m)%nat -> (m <= n - 2)%nat -> qsum (map (fun i => h * (G (S i) + G i) / 2) (seq 0 m))
    == (y (Z.of_nat m) + y (Z.of_nat m - 1)%Z) / 2 - y 0%Z + (y (Z.of_nat m + 1)%Z - y (Z.of_nat m - 1)%Z) / 4).
  { induction m as [|m IH]; intros H1 Hm; [lia|]. rewrite seq_S, map_app, qsum_app. cbn [map Nat.add]. rewrite qsum_cons, qsum_nil.
    destruct m as [|m].
    - cbn [seq map]. rewrite qsum_nil, G0. rewrite (GM 1%nat) by lia. change (Z.of_nat 1) with 1%Z. change (1 - 1)%Z with 0%Z. change (1 + 1)%Z with 2%Z. field. assumption.
    - rewrite IH by lia. rewrite (GM (S m)), (GM (S (S m))) by lia. replace (Z.of_nat (S (S m)) - 1)%Z with (Z.of_nat (S m)) by lia.
      replace (Z.of_nat (S m) + 1)%Z with (Z.of_nat (S (S m))) by lia. field. assumption. }
  replace (n - 1)%nat with (S (n - 2)) by lia. rewrite seq_S, map_app, qsum_app. cbn [map Nat.add]. rewrite qsum_cons, qsum_nil.
  rewrite T by lia. rewrite (GM (n - 2)%nat) by lia. replace (S (n - 2)) with (n - 1)%nat by lia. rewrite GL.
  replace (Z.of_nat (n - 2) + 1)%Z with (Z.of_nat n - 1)%Z by lia. replace (Z.of_nat (n - 2)) with (Z.of_nat n - 2)%Z by lia. field. assumption.
Qed.
Lemma merge_kept idx k i : (k < length idx)%nat -> merge_idx (length idx) [k] (kept [k] idx) [i] = upd idx k i.
Proof.
  unfold merge_idx, kept. enough (H : forall s, (k < length idx)%nat -> merge_from (length idx) s [(s + k)%nat] (keep_from s [(s + k)%nat] idx) [i] = upd idx k i)
    by (intro; now apply (H 0%nat)).
  revert k. induction idx as [|a idx IH]; intros k s H; [cbn in H; lia|]. cbn [length merge_from keep_from]. unfold memb. cbn [existsb].
  destruct k as [|k].
  - replace (s + 0)%nat with s by lia. rewrite Nat.eqb_refl. cbn [orb upd]. f_equal.
    rewrite keep_from_none by (intros x [<-|[]]; lia).
    clear. generalize (S s) (Nat.lt_succ_diag_r s). induction idx as [|b idx IHx]; intros t Ht; [reflexivity|]. cbn [length merge_from]. unfold memb. cbn [existsb].
    destruct (Nat.eqb_spec s t); [lia|]. cbn [orb]. f_equal. apply IHx. lia.
  - destruct (Nat.eqb_spec (s + S k) s); [lia|]. cbn [orb upd]. f_equal. replace (s + S k)%nat with (S s + k)%nat by lia. apply IH. cbn in H. lia.
Qed.
Lemma integral_of_derivative f k h : consistent f -> Forall axis_counted (f_axes f) -> nonempty (f_shape f) -> (k < length (f_shape f))%nat ->
  (2 <= nth k (f_shape f) 0)%Z -> ~ h == 0 -> evenly h (nth k (f_axes f) axis0) ->
  exists g r, derivative_grid f (Z.of_nat k) = Ok g /\ integrate_scipy MTrapezoid g [Z.of_nat k] = Ok r /\ remains g [k] r /\
    forall idx, in_shape (f_shape f) idx = true ->
      a_at (f_data r) (entries_at 0%Z idx (others (length (f_shape f)) [k]))
      == a_at (f_data f) (upd idx k (nth k (f_shape f) 0 - 1)%Z) - a_at (f_data f) (upd idx k 0%Z).
Proof.
  intros Hc Hn Hne Hk H2 Nh He. destruct (derivative_total f k Hc Hn Hk H2) as (g & Eg & Sg & Ag & Tg & Og & _ & _ & Ig & Vg).
  assert (Hcg : consistent g) by (apply map_consistent; rewrite ?Ag, ?Tg, ?Og, Sg; [now apply consistent_map|apply Hc..]).
  destruct (scipy_step_total MTrapezoid g k) as (r & Er & Rr & _ & Vr); [exact Hcg|now rewrite Ag|now rewrite Sg|now rewrite Sg|].
  exists g, r. split; [exact Eg|]. split; [rewrite scipy_one; exact Er|]. split; [exact Rr|]. intros idx Hi.
  pose proof (in_shape_length _ _ Hi) as Li. pose proof (grid_length f k Hc Hn Hk) as Lg.
  rewrite <- Li at 1. rewrite <- kept_at. pose proof (kept_remains g [k] r Hcg Rr) as (Sr & _).
  rewrite Vr by (rewrite Sr, Sg; now apply kept_in_shape). rewrite Ag. cbn [line_integral]. set (ax := nth k (f_axes f) axis0) in *.
  unfold line_of. change (a_shape (f_data g)) with (f_shape g). rewrite Sg, <- Lg, zrange_seq, map_map.
  rewrite (map_ext_in _ (fun i => gradient_at (fun j => nth (Z.to_nat j) (ax_grid ax) 0) (sample_at f idx k) (Z.of_nat (length (ax_grid ax))) (Z.of_nat i))).
  - rewrite (trapezoid_gradient (ax_grid ax) (sample_at f idx k) (length (ax_grid ax)) h); [reflexivity|lia|reflexivity|exact Nh|now apply evenly_steps].
  - intros i _. rewrite <- Li at 1. rewrite merge_kept by lia. rewrite Vg. fold ax. rewrite Lg.
    rewrite nth_upd_same by lia. unfold gradient_at, sample_at. rewrite !upd_upd. reflexivity.
Qed.

(** * The extent *)
Lemma with_axes_shape {V} (f : field V) axes : f_shape (with_axes f axes) = f_shape f.
Proof. reflexivity. Qed.
Lemma same_but_refl {V} (f : field V) : same_but_axes f f.
Proof. repeat split. Qed.
Lemma same_but_with {V} (f g : field V) axes : same_but_axes f g -> same_but_axes f (with_axes g axes).
Proof. intros (A & B & C & D & E & F). unfold same_but_axes, with_axes, f_ats, f_tao in *. cbn. repeat (split; [assumption|]). assumption. Qed.
Lemma setaxisobj_do axes sh k ax : (k < 3)%nat -> (k < length axes)%nat -> (k < length sh)%nat -> ax_len ax = nth k sh 0%Z ->
  setaxisobj axes sh (Z.of_nat k) ax = Ok (upd axes k ax).
Proof.
  intros H3 Ha Hs L. unfold setaxisobj. assert (E : axesidentify (Z.of_nat k) = Ok (Z.of_nat k)) by (destruct k as [|[|[|k]]]; [reflexivity..|lia]).
  rewrite E. cbn [bind]. rewrite Z.mod_small by lia. rewrite (getidx_at sh k 0%Z) by exact Hs. cbn [bind]. rewrite L, Z.eqb_refl.
  unfold setidx. assert (Ep : py_pos (length axes) (Z.of_nat k) = Ok k) by (apply py_pos_ok; lia). now rewrite Ep.
Qed.
Lemma extent_loop_ok {V} spl (f : field V) e : reproduces_lines spl -> consistent f -> nonempty (f_shape f) -> (length (f_shape f) <= 3)%nat ->
  Forall (fun ax => islinear ax = Ok true) (f_axes f) ->
  forall m i g, (i + m = length (f_axes f))%nat -> same_but_axes f g -> length (f_axes g) = length (f_axes f) ->
  (forall k, (k < i)%nat -> stretched_to (nth (2 * k) e 0) (nth (2 * k + 1) e 0) (nth k (f_axes f) axis0) (nth k (f_axes g) axis0)) ->
  (forall k, (i <= k)%nat -> nth k (f_axes g) axis0 = nth k (f_axes f) axis0) ->
  exists h, extent_loop spl g e (seq i m) = (h, Ok tt) /\ same_but_axes f h /\ length (f_axes h) = length (f_axes f) /\
    forall k, (k < length (f_axes f))%nat ->
      stretched_to (nth (2 * k) e 0) (nth (2 * k + 1) e 0) (nth k (f_axes f) axis0) (nth k (f_axes h) axis0).
Proof.
  intros Hs Hc Hne H3 Hl. pose proof Hc as (La & Hlen & _). induction m as [|m IH]; intros i g Him Sg Lg Hd Hr.
  { exists g. split; [reflexivity|]. split; [exact Sg|]. split; [exact Lg|]. intros k Hk. apply Hd. lia. }
  cbn [seq extent_loop]. unfold extent_step. rewrite (getidx_at (f_axes g) i axis0) by lia. cbn [bind]. rewrite (Hr i) by lia.
  assert (Hi : (i < length (f_axes f))%nat) by lia. set (ax := nth i (f_axes f) axis0) in *.
  assert (Li : islinear ax = Ok true) by (rewrite Forall_forall in Hl; apply Hl, nth_In, Hi). rewrite Li. cbn [bind negb].
  assert (Sh : f_shape g = f_shape f) by (unfold f_shape; destruct Sg as (-> & _); reflexivity). rewrite Sh.
  rewrite (getidx_at (f_shape f) i 0%Z) by lia. cbn [bind].
  assert (Al : ax_len ax = nth i (f_shape f) 0%Z) by (apply (Hlen i); apply nth_error_nth'; lia).
  assert (Pn : (0 < nth i (f_shape f) 0)%Z) by (unfold nonempty in Hne; rewrite Forall_forall in Hne; apply Hne, nth_In; lia).
  destruct (mk_axis_extent_uniform spl (ax_name ax) (ax_unit ax) (nth (2 * i) e 0) (nth (2 * i + 1) e 0) (Z.to_nat (nth i (f_shape f) 0%Z)) Hs ltac:(lia))
    as (new & En & Un & Nn & Uu). rewrite Z2Nat.id in En by lia. rewrite En. cbn [bind].
  assert (Ln : ax_len new = nth i (f_shape f) 0%Z) by (destruct Un as (_ & _ & Un & _); unfold ax_len; lia).
  rewrite setaxisobj_do by (auto; lia).
  apply IH.
  - lia.
  - now apply same_but_with.
  - unfold f_axes at 1. cbn [with_axes f_top l_axes]. rewrite upd_length. exact Lg.
  - intros k Hk. unfold f_axes at 2. cbn [with_axes f_top l_axes]. destruct (Nat.eq_dec k i) as [->|N].
    + rewrite nth_upd_same by lia. fold ax. split; [rewrite Al; exact Un|]. split; assumption.
    + rewrite nth_upd_other by exact N. apply Hd. lia.
  - intros k Hk. unfold f_axes at 1. cbn [with_axes f_top l_axes]. rewrite nth_upd_other by lia. apply Hr. lia.
Qed.
Lemma get_extent_nth (axes : list axis) : forall i k, (k < length axes)%nat -> (i < 2)%nat ->
  nth (2 * k + i) (flat_map (fun ax => [fst (ax_extent ax); snd (ax_extent ax)]) axes) 0
  = match i with O => fst (ax_extent (nth k axes axis0)) | _ => snd (ax_extent (nth k axes axis0)) end.
Proof.
  induction axes as [|ax axes IH]; intros i k Hk Hi; [cbn in Hk; lia|]. destruct k as [|k].
  - destruct i as [|[|i]]; [reflexivity..|lia].
  - replace (2 * S k + i)%nat with (S (S (2 * k + i))) by lia. cbn [flat_map app nth]. apply IH; [cbn in Hk; lia|exact Hi].
Qed.
Lemma get_extent_length {V} (f : field V) : length (get_extent f) = (2 * length (f_axes f))%nat.
Proof. unfold get_extent. induction (f_axes f) as [|a l IH]; [reflexivity|]. cbn [flat_map app length]. rewrite IH. lia. Qed.
Lemma set_extent_ok {V} spl (f : field V) e : reproduces_lines spl -> consistent f -> nonempty (f_shape f) -> (length (f_shape f) <= 3)%nat ->
  Forall (fun ax => islinear ax = Ok true) (f_axes f) -> length e = (2 * length (f_shape f))%nat ->
  exists g, set_extent spl f e = (g, Ok tt) /\ same_but_axes f g /\ consistent g /\
    (forall k, (k < length (f_shape f))%nat ->
       stretched_to (nth (2 * k) e 0) (nth (2 * k + 1) e 0) (nth k (f_axes f) axis0) (nth k (f_axes g) axis0)) /\
    length (get_extent g) = length e /\ forall i, nth i (get_extent g) 0 == nth i e 0.
Proof.
  intros Hs Hc Hne H3 Hl Le. pose proof Hc as (La & Hlen & L1 & L2).
  destruct (extent_loop_ok spl f e Hs Hc Hne H3 Hl (length (f_axes f)) 0 f) as (g & E & Sg & Lg & Hg); auto using same_but_refl; [lia|].
  assert (Sh : f_shape g = f_shape f) by (unfold f_shape; destruct Sg as (-> & _); reflexivity).
  exists g. unfold set_extent. rewrite nonempty_dims by exact Hne. destruct (Z.eqb_spec (Z.of_nat (length (f_shape f)) * 2) (Z.of_nat (length e))); [|lia].
  cbn [negb]. split; [exact E|]. split; [exact Sg|]. split; [|split; [|split]].
  - split; [now rewrite Sh, Lg|]. split; [|destruct Sg as (_ & -> & -> & _); rewrite Sh; now split].
    intros k ax n Ek En. rewrite Sh in En. assert (Hk : (k < length (f_axes f))%nat) by (rewrite <- Lg; apply nth_error_Some; congruence).
    destruct (Hg k Hk) as ((_ & _ & U & _) & _). rewrite (nth_error_nth _ _ axis0 Ek) in U. unfold ax_len in *. rewrite U.
    assert (Pn : (0 < n)%Z) by (unfold nonempty in Hne; rewrite Forall_forall in Hne; apply Hne; eapply nth_error_In; exact En).
    assert (Al : ax_n (nth k (f_axes f) axis0) = n) by (apply (Hlen k); [apply nth_error_nth'; exact Hk|exact En]). rewrite Al. lia.
  - intros k Hk. apply Hg. lia.
  - rewrite get_extent_length. lia.
  - intro i. destruct (le_lt_dec (length e) i) as [Hi|Hi].
    { rewrite !nth_overflow; [reflexivity|exact Hi|rewrite get_extent_length; lia]. }
    pose proof (Nat.div_mod i 2 ltac:(lia)) as D. pose proof (Nat.mod_upper_bound i 2 ltac:(lia)) as B. rewrite D.
    unfold get_extent. assert (Hk : (i / 2 < length (f_axes f))%nat) by lia. rewrite get_extent_nth by (auto; lia).
    destruct (Hg _ Hk) as ((_ & _ & _ & U1 & U2 & _) & _). destruct (i mod 2)%nat as [|[|b]]; [|exact U2|lia]. now rewrite Nat.add_0_r.
Qed.
(** whatever happens: one axis per dimension, everything else as before *)
Lemma extent_loop_frame {V} spl (f : field V) e m : forall i g, (i <= 3)%nat -> consistent f -> same_but_axes f g -> consistent g ->
  same_but_axes f (fst (extent_loop spl g e (seq i m))) /\ consistent (fst (extent_loop spl g e (seq i m))).
Proof.
  induction m as [|m IH]; intros i g B Hc Sg Hg; [now split|]. cbn [seq extent_loop]. destruct (extent_step spl g e i) as [axes|x] eqn:E; [|now split].
  unfold extent_step in E. apply bind_ok in E as (ax & _ & E). apply bind_ok in E as (lin & _ & E). destruct (negb lin); [discriminate|].
  apply bind_ok in E as (n & _ & E). apply bind_ok in E as (new & _ & E). apply setaxisobj_ok in E as (I3 & Lk & -> & En); [|lia].
  apply IH; [lia|exact Hc|now apply same_but_with|].
  rewrite Nat2Z.id in *. pose proof (consistent_map g Hg) as M. destruct Hg as (La & _ & L1 & L2). apply map_consistent; [|exact L1|exact L2].
  unfold f_axes at 1. cbn [with_axes f_top l_axes]. rewrite with_axes_shape. rewrite map_upd, M.
  apply (upd_same_nth _ i _ 0%Z); [now apply nth_error_nth|apply nth_error_Some; congruence].
Qed.
Lemma set_extent_frame {V} spl (f : field V) e : consistent f ->
  same_but_axes f (fst (set_extent spl f e)) /\ consistent (fst (set_extent spl f e)).
Proof.
  intro Hc. unfold set_extent. destruct (negb _); [split; [apply same_but_refl|exact Hc]|]. apply extent_loop_frame; auto using same_but_refl.
Qed.
Lemma set_extent_length {V} spl (f : field V) e : nonempty (f_shape f) -> length e <> (2 * length (f_shape f))%nat ->
  set_extent spl f e = (f, Err TypeError).
Proof.
  intros Hne H. unfold set_extent. rewrite nonempty_dims by exact Hne.
  destruct (Z.eqb_spec (Z.of_nat (length (f_shape f)) * 2) (Z.of_nat (length e))); [lia|reflexivity].
Qed.
(** an axis that already has this extent keeps its points *)
Lemma stretched_same a b ax ax' : stretched_to a b ax ax' -> axis_uniform a b (Z.to_nat (ax_len ax)) ax ->
  length (ax_grid ax') = length (ax_grid ax) /\ length (ax_node ax') = length (ax_node ax) /\
  (forall i, nth i (ax_grid ax') 0 == nth i (ax_grid ax) 0) /\ (forall i, nth i (ax_node ax') 0 == nth i (ax_node ax) 0).
Proof.
  intros ((N' & G' & _ & _ & _ & NN' & GG') & _) (N & G & _ & _ & _ & NN & GG). split; [congruence|]. split; [congruence|]. split.
  - intro i. destruct (le_lt_dec (Z.to_nat (ax_len ax)) i) as [H|H]; [rewrite !nth_overflow by congruence || lia; reflexivity|]. now rewrite GG', GG by lia.
  - intro i. destruct (le_lt_dec (S (Z.to_nat (ax_len ax))) i) as [H|H]; [rewrite !nth_overflow by congruence || lia; reflexivity|]. now rewrite NN', NN by lia.
Qed.

(** * Positive axes *)
Lemma same_reversed x y : axis_same x y -> isreversed x = isreversed y.
Proof.
  intros (_ & _ & _ & _ & E1 & E2 & _). unfold isreversed. apply Bool.eq_iff_eq_true. rewrite !Qltb_lt. now rewrite E1, E2.
Qed.
Lemma back_reversed ax : isreversed ax = true -> isreversed (axis_back ax) = false.
Proof. unfold isreversed, axis_back. cbn. rewrite Qltb_lt, Qltb_nlt. lra. Qed.
Lemma positive_loop_ok {V} spl (f : field V) : orderly f ->
  forall axes i ret, skipn i (f_axes f) = axes -> orderly ret -> f_shape ret = f_shape f ->
  (forall c v, sample ret c v <-> sample f c v) ->
  (forall k, (k < i)%nat -> (k < length (f_shape f))%nat -> isreversed (nth k (f_axes ret) axis0) = false) ->
  (forall k, (i <= k)%nat -> axis_same (nth k (f_axes ret) axis0) (nth k (f_axes f) axis0)) ->
  exists g, positive_loop spl ret i axes = Ok g /\ orderly g /\ f_shape g = f_shape f /\ (forall c v, sample g c v <-> sample f c v) /\
    forall k, (k < length (f_shape f))%nat -> isreversed (nth k (f_axes g) axis0) = false.
Proof.
  intro Hf. pose proof (orderly_length f Hf) as Lf. induction axes as [|ax axes IH]; intros i ret Es Hr Sr Hs Hd Hu.
  { exists ret. split; [reflexivity|]. split; [exact Hr|]. split; [exact Sr|]. split; [exact Hs|]. intros k Hk. apply Hd; [|exact Hk].
    assert (L : length (skipn i (f_axes f)) = 0%nat) by (now rewrite Es). rewrite skipn_length in L. lia. }
  assert (Hi : (i < length (f_axes f))%nat).
  { assert (L : length (skipn i (f_axes f)) = S (length axes)) by (now rewrite Es). rewrite skipn_length in L. lia. }
  assert (Eax : nth i (f_axes f) axis0 = ax).
  { rewrite <- (firstn_skipn i (f_axes f)), Es. rewrite app_nth2; rewrite firstn_length_le by lia; [|lia]. now rewrite Nat.sub_diag. }
  assert (Es' : skipn (S i) (f_axes f) = axes).
  { replace (S i) with (1 + i)%nat by lia. clear -Es. revert Es. generalize (f_axes f). induction i as [|i IHi]; intros l Es; [cbn in Es; subst l; reflexivity|].
    destruct l as [|a l]; [discriminate|]. cbn in *. now apply IHi. }
  cbn [positive_loop]. destruct (isreversed ax) eqn:R.
  - destruct (flip_keeps spl ret (Z.of_nat i) i Hr) as (h & Eh & Hh & Sh & Ah & _ & Ph); [apply py_pos_ok; rewrite Sr; lia|].
    rewrite Eh. cbn [bind]. pose proof (orderly_length ret Hr) as Lr. rewrite Sr in Lr.
    apply IH; [exact Es'|exact Hh|congruence|intros c v; now rewrite Ph| |].
    + intros k Hk Hk'. rewrite (same_reversed _ _ (axes_same_nth _ _ k Ah)). destruct (Nat.eq_dec k i) as [->|N].
      * rewrite nth_upd_same by lia. apply back_reversed. rewrite (same_reversed _ _ (Hu i ltac:(lia))). now rewrite Eax.
      * rewrite nth_upd_other by exact N. apply Hd; [lia|exact Hk'].
    + intros k Hk. eapply axis_same_trans; [exact (axes_same_nth _ _ k Ah)|]. rewrite nth_upd_other by lia. apply Hu. lia.
  - cbn [bind]. apply IH; [exact Es'|exact Hr|exact Sr|exact Hs| |].
    + intros k Hk Hk'. destruct (Nat.eq_dec k i) as [->|N]; [|apply Hd; [lia|exact Hk']].
      rewrite (same_reversed _ _ (Hu i ltac:(lia))). now rewrite Eax.
    + intros k Hk. apply Hu. lia.
Qed.
Lemma positive_ok {V} spl (f : field V) : orderly f ->
  exists g, ensure_positive_axes spl f = Ok g /\ orderly g /\ f_shape g = f_shape f /\ (forall c v, sample g c v <-> sample f c v) /\
    forall k, (k < length (f_shape f))%nat -> isreversed (nth k (f_axes g) axis0) = false.
Proof.
  intro Hf. apply (positive_loop_ok spl f Hf (f_axes f) 0 f); auto; [reflexivity|lia|]. intros k _. apply axis_same_refl.
Qed.
Lemma positive_already {V} spl (f : field V) : (forall k, (k < length (f_axes f))%nat -> isreversed (nth k (f_axes f) axis0) = false) ->
  ensure_positive_axes spl f = Ok f.
Proof.
  unfold ensure_positive_axes. generalize 0%nat. induction (f_axes f) as [|a l IH]; intros i H; [reflexivity|]. cbn [positive_loop].
  assert (R : isreversed a = false) by (exact (H 0%nat ltac:(cbn; lia))). rewrite R. cbn [bind]. apply IH. intros k Hk. apply (H (S k)). cbn. lia.
Qed.
Lemma positive_twice {V} spl (f g : field V) : orderly f -> ensure_positive_axes spl f = Ok g -> ensure_positive_axes spl g = Ok g.
Proof.
  intros Hf E. destruct (positive_ok spl f Hf) as (g' & E' & Hg & Sg & _ & R). rewrite E in E'. injection E' as <-.
  apply positive_already. intros k Hk. apply R. rewrite <- Sg, <- (orderly_length g Hg). exact Hk.
Qed.

(** * Derivatives of fields *)
Lemma in_upd sh idx k i : in_shape sh idx = true -> (k < length sh)%nat -> (0 <= i < nth k sh 0)%Z -> in_shape sh (upd idx k i) = true.
Proof. intros H Hk Hi. rewrite <- (upd_nth sh k 0%Z) by exact Hk. now apply in_shape_upd. Qed.
Lemma derivative_values f k : consistent f -> Forall axis_counted (f_axes f) -> (k < length (f_shape f))%nat -> (2 <= nth k (f_shape f) 0)%Z ->
  goes_up (nth k (f_axes f) axis0) \/ goes_down (nth k (f_axes f) axis0) ->
  exists g, derivative_grid f (Z.of_nat k) = Ok g /\ marked f g /\ consistent g /\ f_inner g = [] /\
    forall idx, in_shape (f_shape f) idx = true ->
      let i := nth k idx 0%Z in let n := nth k (f_shape f) 0%Z in let ax := nth k (f_axes f) axis0 in
      (i = 0%Z -> a_at (f_data g) idx == quotient f k idx 0) /\
      (i = (n - 1)%Z -> a_at (f_data g) idx == quotient f k idx (n - 2)) /\
      ((0 < i < n - 1)%Z -> exists t, 0 < t /\ t < 1 /\ t == (point ax (i + 1) - point ax i) / (point ax (i + 1) - point ax (i - 1)) /\
         a_at (f_data g) idx == t * quotient f k idx (i - 1) + (1 - t) * quotient f k idx i).
Proof.
  intros Hc Hn Hk H2 Hg. destruct (derivative_total f k Hc Hn Hk H2) as (g & Eg & Sg & Ag & Tg & Og & Ng & Ug & Ig & Vg).
  exists g. split; [exact Eg|]. split; [repeat (split; [assumption|]); assumption|].
  split; [apply map_consistent; rewrite ?Ag, ?Tg, ?Og, Sg; [now apply consistent_map|apply Hc..]|]. split; [exact Ig|].
  intros idx Hi. cbv zeta. rewrite (Vg idx). pose proof (goes_strict _ _ Hg (grid_length f k Hc Hn Hk)) as St. split; [|split].
  - intros ->. rewrite gradient_first. reflexivity.
  - intros ->. rewrite gradient_last by exact H2. unfold quotient. replace (nth k (f_shape f) 0 - 2 + 1)%Z with (nth k (f_shape f) 0 - 1)%Z by lia. reflexivity.
  - intro Hm. destruct (gradient_mean _ (sample_at f idx k) _ _ St Hm) as (t & T1 & T2 & T3 & T4). exists t. split; [exact T1|]. split; [exact T2|]. split; [exact T4|]. exact T3.
Qed.
Lemma derivative_exact f k a b c : consistent f -> Forall axis_counted (f_axes f) -> (k < length (f_shape f))%nat -> (2 <= nth k (f_shape f) 0)%Z ->
  goes_up (nth k (f_axes f) axis0) \/ goes_down (nth k (f_axes f) axis0) -> quadratic_along f k a b c ->
  exists g, derivative_grid f (Z.of_nat k) = Ok g /\
    forall idx, in_shape (f_shape f) idx = true ->
      let o := entries_at 0%Z idx (others (length (f_shape f)) [k]) in let i := nth k idx 0%Z in
      (a o == 0 \/ (0 < i < nth k (f_shape f) 0 - 1)%Z) ->
      a_at (f_data g) idx == 2 * a o * point (nth k (f_axes f) axis0) i + b o.
Proof.
  intros Hc Hn Hk H2 Hg Hq. destruct (derivative_total f k Hc Hn Hk H2) as (g & Eg & _ & _ & _ & _ & _ & _ & _ & Vg).
  exists g. split; [exact Eg|]. intros idx Hi. cbv zeta. intro Ha. rewrite (Vg idx).
  pose proof (goes_strict _ _ Hg (grid_length f k Hc Hn Hk)) as St. set (o := entries_at 0%Z idx (others (length (f_shape f)) [k])) in *.
  apply (gradient_exact _ _ _ _ (a o) (b o) (c o)); auto; [exact (in_shape_nth _ _ k 0%Z 0%Z Hi Hk)|].
  intros j Hj. unfold sample_at. pose proof (in_upd _ idx k j Hi Hk Hj) as Hu. pose proof (Hq _ Hu) as E. cbv zeta in E. rewrite E.
  assert (Eo : entries_at 0%Z (upd idx k j) (others (length (f_shape f)) [k]) = o).
  { unfold o, entries_at. apply map_ext_in. intros p Hp. apply others_In in Hp as [_ Hp]. apply nth_upd_other. intros ->. apply Hp. now left. }
  rewrite Eo. rewrite nth_upd_same by (rewrite (in_shape_length _ _ Hi); exact Hk). reflexivity.
Qed.
Lemma derivative_even f k h : consistent f -> Forall axis_counted (f_axes f) -> (k < length (f_shape f))%nat -> (2 <= nth k (f_shape f) 0)%Z ->
  ~ h == 0 -> evenly h (nth k (f_axes f) axis0) ->
  exists g, derivative_grid f (Z.of_nat k) = Ok g /\
    forall idx, in_shape (f_shape f) idx = true -> (0 < nth k idx 0 < nth k (f_shape f) 0 - 1)%Z ->
      a_at (f_data g) idx == (value_at f k idx (nth k idx 0 + 1)%Z - value_at f k idx (nth k idx 0 - 1)%Z) / (2 * h).
Proof.
  intros Hc Hn Hk H2 Nh He. destruct (derivative_total f k Hc Hn Hk H2) as (g & Eg & _ & _ & _ & _ & _ & _ & _ & Vg).
  exists g. split; [exact Eg|]. intros idx Hi Hm. rewrite (Vg idx). apply gradient_even; auto. rewrite <- (grid_length f k Hc Hn Hk). exact He.
Qed.
Lemma derivative_linear f1 f2 f3 k c g1 g2 g3 : consistent f1 -> consistent f2 -> consistent f3 ->
  Forall axis_counted (f_axes f1) -> f_axes f2 = f_axes f1 -> f_axes f3 = f_axes f1 -> (k < length (f_shape f1))%nat -> (2 <= nth k (f_shape f1) 0)%Z ->
  (forall idx, in_shape (f_shape f1) idx = true -> a_at (f_data f3) idx == c * a_at (f_data f1) idx + a_at (f_data f2) idx) ->
  derivative_grid f1 (Z.of_nat k) = Ok g1 -> derivative_grid f2 (Z.of_nat k) = Ok g2 -> derivative_grid f3 (Z.of_nat k) = Ok g3 ->
  forall idx, in_shape (f_shape f1) idx = true -> a_at (f_data g3) idx == c * a_at (f_data g1) idx + a_at (f_data g2) idx.
Proof.
  intros H1 H2 H3 Hn A2 A3 Hk Hl Hv E1 E2 E3 idx Hi.
  assert (S2 : f_shape f2 = f_shape f1) by (rewrite <- (consistent_map f1 H1), <- (consistent_map f2 H2); now rewrite A2).
  assert (S3 : f_shape f3 = f_shape f1) by (rewrite <- (consistent_map f1 H1), <- (consistent_map f3 H3); now rewrite A3).
  destruct (derivative_total f1 k H1 Hn Hk Hl) as (x & Ex & _ & _ & _ & _ & _ & _ & _ & V1). rewrite E1 in Ex. injection Ex as <-.
  destruct (derivative_total f2 k H2) as (x & Ex & _ & _ & _ & _ & _ & _ & _ & V2); [now rewrite A2|now rewrite S2..|]. rewrite E2 in Ex. injection Ex as <-.
  destruct (derivative_total f3 k H3) as (x & Ex & _ & _ & _ & _ & _ & _ & _ & V3); [now rewrite A3|now rewrite S3..|]. rewrite E3 in Ex. injection Ex as <-.
  rewrite V1, V2, V3, S2, S3, A2, A3. apply gradient_linear; [exact Hl|exact (in_shape_nth _ _ k 0%Z 0%Z Hi Hk)|].
  intros j Hj. apply Hv. now apply in_upd.
Qed.
Lemma gradient_ext x x' y y' n i : (2 <= n)%Z -> (0 <= i < n)%Z -> (forall j, (0 <= j < n)%Z -> x j = x' j) -> (forall j, (0 <= j < n)%Z -> y j = y' j) ->
  gradient_at x y n i = gradient_at x' y' n i.
Proof.
  intros H2 Hi Hx Hy. unfold gradient_at. destruct (Z.eqb_spec i 0); [|destruct (Z.eqb_spec i (n - 1))]; cbv zeta; rewrite ?Hx, ?Hy by lia; reflexivity.
Qed.
Lemma derivative_back f g k f' g' : consistent f -> Forall axis_counted (f_axes f) -> consistent g -> Forall axis_counted (f_axes g) ->
  (k < length (f_shape f))%nat -> (2 <= nth k (f_shape f) 0)%Z ->
  goes_up (nth k (f_axes f) axis0) \/ goes_down (nth k (f_axes f) axis0) -> backwards k f g ->
  derivative_grid f (Z.of_nat k) = Ok f' -> derivative_grid g (Z.of_nat k) = Ok g' ->
  forall idx, in_shape (f_shape f) idx = true ->
    a_at (f_data g') idx == a_at (f_data f') (upd idx k (nth k (f_shape f) 0 - 1 - nth k idx 0)%Z).
Proof.
  intros Hc Hn Hcg Hng Hk H2 Hg (Sg & Pg & Vg) E E' idx Hi.
  destruct (derivative_total f k Hc Hn Hk H2) as (x & Ex & _ & _ & _ & _ & _ & _ & _ & V1). rewrite E in Ex. injection Ex as <-.
  destruct (derivative_total g k Hcg Hng) as (x & Ex & _ & _ & _ & _ & _ & _ & _ & V2); [now rewrite Sg..|]. rewrite E' in Ex. injection Ex as <-.
  rewrite V1, V2, Sg. pose proof (in_shape_nth _ _ k 0%Z 0%Z Hi Hk) as Hr. set (n := nth k (f_shape f) 0%Z) in *.
  rewrite nth_upd_same by (rewrite (in_shape_length _ _ Hi); exact Hk).
  pose proof (goes_strict _ _ Hg (grid_length f k Hc Hn Hk)) as St. fold n in St.
  rewrite <- (gradient_back _ _ n (nth k idx 0%Z)) by (auto; lia).
  rewrite (gradient_ext (point (nth k (f_axes g) axis0)) (fun j => point (nth k (f_axes f) axis0) (n - 1 - j)%Z)
             (sample_at g idx k) (fun j => sample_at f (upd idx k (n - 1 - nth k idx 0)%Z) k (n - 1 - j)%Z)); [reflexivity|exact H2|exact Hr|exact Pg|].
  intros j Hj. unfold sample_at. rewrite Vg by (now apply in_upd). rewrite !upd_upd. rewrite nth_upd_same by (rewrite (in_shape_length _ _ Hi); exact Hk). reflexivity.
Qed.
Lemma derivative_single f k : consistent f -> Forall axis_counted (f_axes f) -> (k < length (f_shape f))%nat -> (nth k (f_shape f) 0 = 1)%Z ->
  derivative_grid f (Z.of_nat k) = Err IndexError.
Proof.
  intros Hc Hn Hk H1. pose proof (grid_length f k Hc Hn Hk) as Lg. pose proof Hc as (La & _). unfold derivative_grid.
  change (l_axes (f_top f)) with (f_axes f). rewrite (getidx_at (f_axes f) k axis0) by lia. cbn [bind]. unfold np_gradient.
  change (a_shape (f_data f)) with (f_shape f). assert (Ep : py_pos (length (f_shape f)) (Z.of_nat k) = Ok k) by (apply py_pos_ok; lia). rewrite Ep. cbn [bind]. cbv zeta.
  rewrite Lg, Z.eqb_refl. cbn [negb]. destruct (Nat.leb_spec (length (ax_grid (nth k (f_axes f) axis0))) 1); [reflexivity|lia].
Qed.

(** * Integrals piece by piece *)
Lemma line_samples m f k : consistent f -> Forall axis_counted (f_axes f) -> nonempty (f_shape f) -> (k < length (f_shape f))%nat ->
  exists g, integrate_scipy m f [Z.of_nat k] = Ok g /\ remains f [k] g /\
    forall idx, in_shape (f_shape f) idx = true ->
      a_at (f_data g) (entries_at 0%Z idx (others (length (f_shape f)) [k]))
      = line_integral m (ax_grid (nth k (f_axes f) axis0)) (map (fun i => value_at f k idx (Z.of_nat i)) (seq 0 (length (ax_grid (nth k (f_axes f) axis0))))).
Proof.
  intros Hc Hn Hne Hk. rewrite scipy_one. destruct (scipy_step_total m f k Hc Hn Hne Hk) as (g & E & R & _ & Vg).
  exists g. split; [exact E|]. split; [exact R|]. intros idx Hi. pose proof (in_shape_length _ _ Hi) as Li. pose proof (grid_length f k Hc Hn Hk) as Lg.
  rewrite <- Li at 1. rewrite <- kept_at. pose proof (kept_remains f [k] g Hc R) as (Sr & _). rewrite Vg by (rewrite Sr; now apply kept_in_shape).
  f_equal. unfold line_of. change (a_shape (f_data f)) with (f_shape f). rewrite <- Lg, zrange_seq, map_map. apply map_ext_in. intros i _.
  rewrite <- Li at 1. now rewrite merge_kept by lia.
Qed.
Lemma trapezoid_pieces f k : consistent f -> Forall axis_counted (f_axes f) -> nonempty (f_shape f) -> (k < length (f_shape f))%nat ->
  exists g, integrate_scipy MTrapezoid f [Z.of_nat k] = Ok g /\ remains f [k] g /\
    forall idx, in_shape (f_shape f) idx = true ->
      a_at (f_data g) (entries_at 0%Z idx (others (length (f_shape f)) [k])) == trapezoids f k idx.
Proof.
  intros Hc Hn Hne Hk. destruct (line_samples MTrapezoid f k Hc Hn Hne Hk) as (g & E & R & Vg). exists g. split; [exact E|]. split; [exact R|].
  intros idx Hi. rewrite (Vg idx Hi). cbn [line_integral]. pose proof (grid_length f k Hc Hn Hk) as Lg. unfold trapezoids. set (ax := nth k (f_axes f) axis0) in *.
  rewrite trapezoid_sum by now rewrite map_length, seq_length. replace (Z.to_nat (nth k (f_shape f) 0 - 1)%Z) with (length (ax_grid ax) - 1)%nat by lia.
  apply qsum_map_ext. intros i Hin. apply in_seq in Hin. rewrite !nth_map_seq by lia. unfold point. rewrite Nat2Z.id.
  replace (Z.to_nat (Z.of_nat i + 1)) with (S i) by lia. replace (Z.of_nat (S i)) with (Z.of_nat i + 1)%Z by lia. field.
Qed.
Lemma pieces_parabolas n : forall x y (q : nat -> parabola), (length x = S (2 * n) \/ length x = S (S (2 * n)))%nat -> length y = length x -> strictly x ->
  (forall i j, (i < n)%nat -> (j <= 2)%nat -> nth (2 * i + j) y 0 == height (q i) (nth (2 * i + j) x 0)) ->
  simpson_pieces x y == qsum (map (fun i => below (q i) (nth (2 * i) x 0) (nth (2 * i + 2) x 0)) (seq 0 n)).
Proof.
  induction n as [|n IH]; intros x y q Lx Ly Hs Hc.
  { rewrite pieces_short by lia. reflexivity. }
  destruct x as [|x0 [|x1 [|x2 x]]]; [cbn in Lx; lia..|]. destruct y as [|y0 [|y1 [|y2 y]]]; try discriminate.
  rewrite pieces_unfold. cbn [seq map]. rewrite qsum_cons, <- seq_shift, map_map. rewrite (IH (x2 :: x) (y2 :: y) (fun i => q (S i))).
  - apply Qplus_comp.
    + pose proof (Hc 0%nat 0%nat ltac:(lia) ltac:(lia)) as H0. pose proof (Hc 0%nat 1%nat ltac:(lia) ltac:(lia)) as H1.
      pose proof (Hc 0%nat 2%nat ltac:(lia) ltac:(lia)) as H2. cbn [Nat.mul Nat.add nth] in H0, H1, H2 |- *. destruct (q 0%nat) as [[a b] c]. cbn [height below] in *.
      rewrite (piece_ext _ _ _ _ _ _ _ _ H0 H1 H2). apply piece_exact. exact (strictly_three x0 x1 x2 x Hs).
    + apply qsum_map_ext. intros i _. replace (2 * S i)%nat with (S (S (2 * i))) by lia. cbn [Nat.add nth]. reflexivity.
  - cbn in *. lia.
  - cbn in *. lia.
  - now apply strictly_tail, strictly_tail in Hs.
  - intros i j Hi Hj. pose proof (Hc (S i) j ltac:(lia) Hj) as H. replace (2 * S i + j)%nat with (S (S (2 * i + j))) in H by lia. exact H.
Qed.
Lemma simpson_parabolas f k m : consistent f -> Forall axis_counted (f_axes f) -> nonempty (f_shape f) -> (k < length (f_shape f))%nat ->
  goes_up (nth k (f_axes f) axis0) \/ goes_down (nth k (f_axes f) axis0) ->
  exists g, integrate_scipy MSimpson f [Z.of_nat k] = Ok g /\ remains f [k] g /\
    forall idx q, in_shape (f_shape f) idx = true -> (forall i, (i < m)%nat -> through f k idx (q i) (2 * Z.of_nat i)) ->
      let v := a_at (f_data g) (entries_at 0%Z idx (others (length (f_shape f)) [k])) in
      let ax := nth k (f_axes f) axis0 in
      ((nth k (f_shape f) 0 = 2 * Z.of_nat m + 1)%Z -> v == parabolas ax q m) /\
      ((nth k (f_shape f) 0 = 2 * Z.of_nat m + 2)%Z -> (1 <= m)%nat -> through f k idx (q m) (2 * Z.of_nat m - 1) ->
         v == parabolas ax q m + below (q m) (point ax (2 * Z.of_nat m)) (point ax (2 * Z.of_nat m + 1))) /\
      ((nth k (f_shape f) 0 = 2)%Z -> v == trapezoids f k idx).
Proof.
  intros Hc Hn Hne Hk Hg. destruct (line_samples MSimpson f k Hc Hn Hne Hk) as (g & E & R & Vg). exists g. split; [exact E|]. split; [exact R|].
  intros idx q Hi Hq. cbv zeta. rewrite (Vg idx Hi). cbn [line_integral]. pose proof (grid_length f k Hc Hn Hk) as Lg. pose proof (goes_strictly _ Hg) as St.
  unfold trapezoids. unfold through in *. set (ax := nth k (f_axes f) axis0) in *. set (x := ax_grid ax) in *. set (y := map _ (seq 0 (length x))).
  assert (Ly : length y = length x) by (unfold y; now rewrite map_length, seq_length).
  assert (Ny : forall i, (i < length x)%nat -> nth i y 0 = value_at f k idx (Z.of_nat i)) by (intros i Hl; unfold y; now rewrite nth_map_seq).
  assert (Px : forall i, point ax (Z.of_nat i) = nth i x 0) by (intro i; unfold point; now rewrite Nat2Z.id).
  assert (P : (length x = S (2 * m) \/ length x = S (S (2 * m)))%nat -> simpson_pieces x y == parabolas ax q m).
  { intro L. rewrite (pieces_parabolas m x y q L Ly St).
    - apply qsum_map_ext. intros i _. rewrite <- !Px. replace (Z.of_nat (2 * i)) with (2 * Z.of_nat i)%Z by lia. replace (Z.of_nat (2 * i + 2)) with (2 * Z.of_nat i + 2)%Z by lia. reflexivity.
    - intros i j Hl Hj. rewrite Ny by lia. rewrite <- Px. apply (Hq i Hl). lia. }
  unfold simpson. rewrite Ly. split; [|split].
  - intro L. assert (L' : length x = S (2 * m)) by lia. rewrite L'. replace (Nat.even (S (2 * m))) with false by (symmetry; rewrite Nat.even_succ, <- Nat.negb_even, Nat.even_mul; reflexivity).
    apply P. now left.
  - intros L M1 Hl. assert (L' : length x = S (S (2 * m))) by lia. rewrite L'. replace (Nat.even (S (S (2 * m)))) with true by (symmetry; change (Nat.even (S (S (2 * m)))) with (Nat.even (2 * m)); now rewrite Nat.even_mul).
    destruct (Nat.eqb_spec (S (S (2 * m))) 2); [lia|]. apply Qplus_comp; [apply P; now right|].
    replace (S (S (2 * m)) - 3)%nat with (2 * m - 1)%nat by lia. replace (S (S (2 * m)) - 2)%nat with (2 * m)%nat by lia. replace (S (S (2 * m)) - 1)%nat with (2 * m + 1)%nat by lia.
    assert (H : forall j, (2 * m - 1 <= j <= 2 * m + 1)%nat -> nth j y 0 == height (q m) (nth j x 0)) by (intros j Hj; rewrite Ny by lia; rewrite <- Px; apply Hl; lia).
    replace (2 * Z.of_nat m)%Z with (Z.of_nat (2 * m)) by lia. replace (Z.of_nat (2 * m) + 1)%Z with (Z.of_nat (2 * m + 1)) by lia. rewrite !Px.
    pose proof (H (2 * m - 1)%nat ltac:(lia)) as H0. pose proof (H (2 * m)%nat ltac:(lia)) as H1. pose proof (H (2 * m + 1)%nat ltac:(lia)) as H2.
    destruct (q m) as [[a b] c]. cbn [height below] in *. rewrite (last_ext _ _ _ _ _ _ _ _ H0 H1 H2). apply last_exact.
    pose proof (strictly_at x (2 * m - 1) St ltac:(lia)) as G. replace (S (2 * m - 1)) with (2 * m)%nat in G by lia. replace (S (2 * m)) with (2 * m + 1)%nat in G by lia. exact G.
  - intro L. assert (L' : length x = 2%nat) by lia. rewrite L'. cbn [Nat.even Nat.eqb]. rewrite L. change (Z.to_nat (2 - 1)) with 1%nat. cbn [seq map]. rewrite qsum_cons, qsum_nil.
    rewrite !Ny by lia. change (Z.of_nat 0 + 1)%Z with (Z.of_nat 1). rewrite !Px. field.
Qed.
