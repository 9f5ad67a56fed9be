(** Lemmas about energy densities and divergence. *)
From Coq Require Import QArith Qfield Lqa List ZArith Bool Lia.
From Verif Require Import PyBase PyBaseFacts NumpyModel NdModel NdFacts FieldModel CalcModel CalcSpec.
Import ListNotations.
Local Open Scope Q_scope.

Lemma sum_sq_ok x y z sh : a_shape x = sh -> a_shape y = sh -> a_shape z = sh ->
  exists s, sum_sq x y z = Ok s /\ a_shape s = sh /\ forall idx, in_shape sh idx = true -> a_at s idx == a_at x idx * a_at x idx + a_at y idx * a_at y idx + a_at z idx * a_at z idx.
Proof.
  intros Sx Sy Sz. unfold sum_sq. destruct (np_map2_same Qplus (sq x) (sq y)) as (s & E & Ss & V); [cbn; congruence|]. rewrite E. cbn [bind].
  destruct (np_map2_same Qplus s (sq z)) as (t & E2 & St & V2); [rewrite Ss; cbn; congruence|]. exists t. split; [exact E2|]. assert (Es : a_shape s = sh) by (rewrite Ss; exact Sx). split; [congruence|]. intros idx I. rewrite V2 by (now rewrite Es). rewrite V by (cbn; now rewrite Sx). cbn. reflexivity.
Qed.
Lemma energies_ok eps0 mu0 Ex Ey Ez Bx By Bz sh : a_shape Ex = sh -> a_shape Ey = sh -> a_shape Ez = sh -> a_shape Bx = sh -> a_shape By = sh -> a_shape Bz = sh -> 0 < eps0 -> 0 < mu0 ->
  exists e m em, energyE eps0 Ex Ey Ez = Ok e /\ energyM mu0 Bx By Bz = Ok m /\ energyEM eps0 mu0 Ex Ey Ez Bx By Bz = Ok em /\
    a_shape e = sh /\ a_shape m = sh /\ a_shape em = sh /\
    forall idx, in_shape sh idx = true ->
      let E2 := a_at Ex idx * a_at Ex idx + a_at Ey idx * a_at Ey idx + a_at Ez idx * a_at Ez idx in
      let B2 := a_at Bx idx * a_at Bx idx + a_at By idx * a_at By idx + a_at Bz idx * a_at Bz idx in
      a_at e idx == eps0 * E2 / 2 /\ a_at m idx == B2 / (2 * mu0) /\ a_at em idx == a_at e idx + a_at m idx.
Proof.
  intros H1 H2 H3 H4 H5 H6 P1 P2. destruct (sum_sq_ok _ _ _ _ H1 H2 H3) as (s & Es & Ss & Vs). destruct (sum_sq_ok _ _ _ _ H4 H5 H6) as (t & Et & St & Vt).
  unfold energyE, energyM, energyEM. rewrite Es, Et. cbn [bind].
  destruct (np_map2_same Qplus (np_map (fun v => (1 # 2) * eps0 * v) s) (np_map (fun v => (1 # 2) / mu0 * v) t)) as (em & E & Sm & V); [cbn; congruence|].
  exists (np_map (fun v => (1 # 2) * eps0 * v) s), (np_map (fun v => (1 # 2) / mu0 * v) t), em. split; [reflexivity|]. split; [reflexivity|]. split; [exact E|]. split; [exact Ss|]. split; [exact St|]. split; [rewrite Sm; exact Ss|].
  intros idx I. cbv zeta. split; [cbn [np_map a_at]; rewrite (Vs idx I); field|]. split; [cbn [np_map a_at]; rewrite (Vt idx I); field; lra|]. rewrite V by (cbn; now rewrite Ss). reflexivity.
Qed.
Lemma sq_nonneg x : 0 <= x * x.
Proof. nra. Qed.
Lemma squares_zero x y z : x * x + y * y + z * z == 0 -> x == 0 /\ y == 0 /\ z == 0.
Proof.
  assert (Z1 : forall u, u * u == 0 -> u == 0) by (intros u H; apply Qmult_integral in H; tauto). intro H. assert (A := sq_nonneg x). assert (B := sq_nonneg y). assert (C := sq_nonneg z). repeat split; apply Z1; lra.
Qed.
Lemma energies_sign eps0 mu0 Ex Ey Ez Bx By Bz sh : a_shape Ex = sh -> a_shape Ey = sh -> a_shape Ez = sh -> a_shape Bx = sh -> a_shape By = sh -> a_shape Bz = sh -> 0 < eps0 -> 0 < mu0 ->
  exists e m em, energyE eps0 Ex Ey Ez = Ok e /\ energyM mu0 Bx By Bz = Ok m /\ energyEM eps0 mu0 Ex Ey Ez Bx By Bz = Ok em /\
    forall idx, in_shape sh idx = true -> let zero a := a_at a idx == 0 in
      0 <= a_at e idx /\ 0 <= a_at m idx /\ 0 <= a_at em idx /\
      (zero e <-> zero Ex /\ zero Ey /\ zero Ez) /\ (zero m <-> zero Bx /\ zero By /\ zero Bz) /\ (zero em <-> (zero Ex /\ zero Ey /\ zero Ez) /\ zero Bx /\ zero By /\ zero Bz).
Proof.
  intros H1 H2 H3 H4 H5 H6 P1 P2. destruct (energies_ok eps0 mu0 Ex Ey Ez Bx By Bz sh H1 H2 H3 H4 H5 H6 P1 P2) as (e & m & em & A & B & C & _ & _ & _ & V). exists e, m, em. split; [exact A|]. split; [exact B|]. split; [exact C|].
  intros idx I zero. destruct (V idx I) as (Ve & Vm & Vem). unfold zero. clear V zero. set (E2 := a_at Ex idx * a_at Ex idx + _ + _) in *. set (B2 := a_at Bx idx * a_at Bx idx + _ + _) in *.
  assert (NE : 0 <= E2) by (unfold E2; assert (X := sq_nonneg (a_at Ex idx)); assert (Y := sq_nonneg (a_at Ey idx)); assert (Z := sq_nonneg (a_at Ez idx)); lra).
  assert (NB : 0 <= B2) by (unfold B2; assert (X := sq_nonneg (a_at Bx idx)); assert (Y := sq_nonneg (a_at By idx)); assert (Z := sq_nonneg (a_at Bz idx)); lra).
  assert (Ne : 0 <= a_at e idx) by (rewrite Ve; apply Qle_shift_div_l; nra). assert (Nm : 0 <= a_at m idx) by (rewrite Vm; apply Qle_shift_div_l; nra).
  assert (Ze : a_at e idx == 0 <-> E2 == 0).
  { rewrite Ve. split; [intro H; assert (eps0 * E2 == 0) by (setoid_replace (eps0 * E2) with (eps0 * E2 / 2 * 2) by field; rewrite H; ring); apply Qmult_integral in H0 as [H0|H0]; [lra|exact H0]|intro X; rewrite X; field]. }
  assert (Zm : a_at m idx == 0 <-> B2 == 0).
  { rewrite Vm. split; [intro H; setoid_replace B2 with (B2 / (2 * mu0) * (2 * mu0)) by (field; lra); rewrite H; ring|intro X; rewrite X; field; lra]. }
  assert (QE : E2 == 0 <-> a_at Ex idx == 0 /\ a_at Ey idx == 0 /\ a_at Ez idx == 0).
  { split; [apply squares_zero|]. intros (X & Y & W). unfold E2. rewrite X, Y, W. reflexivity. }
  assert (QB : B2 == 0 <-> a_at Bx idx == 0 /\ a_at By idx == 0 /\ a_at Bz idx == 0).
  { split; [apply squares_zero|]. intros (X & Y & W). unfold B2. rewrite X, Y, W. reflexivity. }
  split; [exact Ne|]. split; [exact Nm|]. split; [rewrite Vem; lra|]. split; [now rewrite Ze|]. split; [now rewrite Zm|]. rewrite Vem, <- QE, <- QB, <- Ze, <- Zm. split; [intro; split; lra|intros [X Y]; rewrite X, Y; reflexivity].
Qed.

(** * Divergence *)
Lemma inject_Z_minus' a b : inject_Z (a - b) == inject_Z a - inject_Z b.
Proof. unfold Z.sub. rewrite inject_Z_plus, inject_Z_opp. reflexivity. Qed.
Lemma lin_upd : forall s o h idx k i j, length s = length idx -> length o = length idx -> length h = length idx -> (k < length idx)%nat ->
  lin s o h (upd idx k j) - lin s o h (upd idx k i) == nth k s 0 * nth k h 0 * (inject_Z j - inject_Z i).
Proof.
  induction s as [|s0 s IH]; intros o h idx k i j L1 L2 L3 K; destruct idx as [|i0 idx]; try discriminate; [cbn in K; lia|]. destruct o as [|o0 o]; [discriminate|]. destruct h as [|h0 h]; [discriminate|].
  destruct k as [|k]; cbn [upd lin nth]; [ring|]. assert (E := IH o h idx k i j). cbn in L1, L2, L3, K. rewrite <- E by lia. ring.
Qed.
Lemma gradient_lin a c s o h k n : linear_on a c s o h -> nth_error (a_shape a) k = Some n -> (2 <= n)%Z ->
  exists b, np_gradient a k = Ok b /\ a_shape b = a_shape a /\ forall idx, in_shape (a_shape a) idx = true -> a_at b idx == nth k s 0 * nth k h 0.
Proof.
  intros (L1 & L2 & L3 & V) En N. unfold np_gradient. rewrite En. destruct (Z.ltb_spec n 2); [lia|]. eexists. split; [reflexivity|]. split; [reflexivity|]. intros idx I. cbn [a_at].
  assert (Li : length idx = length (a_shape a)) by (now apply in_shape_length). assert (Lk : (k < length idx)%nat) by (rewrite Li; apply nth_error_Some; congruence).
  assert (Hk : nth k (a_shape a) 0%Z = n) by (erewrite nth_error_nth; eauto).
  assert (W : forall j, (0 <= j < n)%Z -> a_at a (upd idx k j) == c + lin s o h (upd idx k j)).
  { intros j Hj. apply V. apply in_shape_spec. apply in_shape_spec in I. clear -I Hj Hk Lk. revert k Hk Lk. induction I as [|m i sh ix Hi I IH]; intros k Hk Lk; [cbn in Lk; lia|]. destruct k as [|k]; cbn in *; constructor; try assumption; try lia. apply IH; [exact Hk|lia]. }
  assert (R : (0 <= nth k idx 0 < n)%Z).
  { apply in_shape_spec in I. clear -I Hk Lk. revert k Hk Lk. induction I as [|m i sh ix Hi I IH]; intros k Hk Lk; [cbn in Lk; lia|]. destruct k as [|k]; cbn in *; [lia|]. apply IH; [exact Hk|lia]. }
  assert (Df : forall i j, (0 <= i < n)%Z -> (0 <= j < n)%Z -> a_at a (upd idx k j) - a_at a (upd idx k i) == nth k s 0 * nth k h 0 * (inject_Z j - inject_Z i)).
  { intros i j Hi Hj. rewrite !W by assumption. rewrite <- (lin_upd s o h idx k i j) by lia. ring. }
  destruct (Z.eqb_spec (nth k idx 0%Z) 0) as [E|E]; [rewrite Df by lia; change (inject_Z 1) with 1; change (inject_Z 0) with 0; ring|].
  destruct (Z.eqb_spec (nth k idx 0%Z) (n - 1)) as [E'|E']; [rewrite Df by lia; rewrite <- inject_Z_minus'; replace (n - 1 - (n - 2))%Z with 1%Z by lia; change (inject_Z 1) with 1; ring|].
  rewrite Df by lia. rewrite <- inject_Z_minus'. replace (nth k idx 0 + 1 - (nth k idx 0 - 1))%Z with 2%Z by lia. change (inject_Z 2) with 2. field.
Qed.
Lemma divE_lin d Ex Ey Ez cx cy cz sx sy sz o h sh : (1 <= d <= 3)%nat -> length sh = d -> (forall n, In n sh -> (2 <= n)%Z) -> a_shape Ex = sh -> a_shape Ey = sh -> a_shape Ez = sh ->
  linear_on Ex cx sx o h -> linear_on Ey cy sy o h -> linear_on Ez cz sz o h ->
  exists a, divE (Z.of_nat d) Ex Ey Ez = Ok a /\ a_shape a = sh /\ forall idx, in_shape sh idx = true -> a_at a idx == trace d sx sy sz h.
Proof.
  intros D L N Sx Sy Sz Lx Ly Lz.
  assert (G : forall a c s k, a_shape a = sh -> linear_on a c s o h -> (k < d)%nat -> exists b, np_gradient a k = Ok b /\ a_shape b = sh /\ forall idx, in_shape sh idx = true -> a_at b idx == nth k s 0 * nth k h 0).
  { intros a c s k Sa La Hk. destruct (nth_error sh k) as [n|] eqn:E; [|apply nth_error_None in E; lia]. destruct (gradient_lin a c s o h k n La) as (b & B1 & B2 & B3); [now rewrite Sa|apply N; eapply nth_error_In; eauto|]. rewrite Sa in *. now exists b. }
  destruct (G Ex cx sx 0%nat Sx Lx) as (x & X1 & X2 & X3); [lia|]. unfold divE.
  destruct d as [|[|[|[|d]]]]; [lia| | |  |lia]; cbn [Z.of_nat Pos.of_succ_nat Pos.succ Z.eqb Pos.eqb].
  - rewrite Sx, L. cbn [Nat.eqb]. exists x. split; [exact X1|]. split; [exact X2|]. intros idx I. rewrite X3 by exact I. unfold trace. cbn [Nat.leb]. ring.
  - destruct (G Ey cy sy 1%nat Sy Ly) as (y & Y1 & Y2 & Y3); [lia|]. rewrite X1, Y1. cbn [bind]. destruct (np_map2_same Qplus x y) as (a & A1 & A2 & A3); [congruence|]. exists a. split; [exact A1|]. split; [congruence|]. intros idx I. rewrite A3 by (now rewrite X2). rewrite X3, Y3 by exact I. unfold trace. cbn [Nat.leb]. ring.
  - destruct (G Ey cy sy 1%nat Sy Ly) as (y & Y1 & Y2 & Y3); [lia|]. destruct (G Ez cz sz 2%nat Sz Lz) as (z & Z1 & Z2 & Z3); [lia|]. rewrite X1, Y1. cbn [bind]. destruct (np_map2_same Qplus x y) as (a & A1 & A2 & A3); [congruence|]. rewrite A1, Z1. cbn [bind].
    destruct (np_map2_same Qplus a z) as (b & B1 & B2 & B3); [congruence|]. exists b. split; [exact B1|]. split; [congruence|]. intros idx I. rewrite B3 by (rewrite A2, X2; exact I). rewrite A3 by (now rewrite X2). rewrite X3, Y3, Z3 by exact I. unfold trace. cbn [Nat.leb]. ring.
Qed.
Lemma divE_unit d Ex Ey Ez cx cy cz sx sy sz o h sh : (1 <= d <= 3)%nat -> length sh = d -> (forall n, In n sh -> (2 <= n)%Z) -> a_shape Ex = sh -> a_shape Ey = sh -> a_shape Ez = sh ->
  linear_on Ex cx sx o h -> linear_on Ey cy sy o h -> linear_on Ez cz sz o h -> (forall k, (k < d)%nat -> nth k h 0 == 1) ->
  exists a, divE (Z.of_nat d) Ex Ey Ez = Ok a /\ a_shape a = sh /\ forall idx, in_shape sh idx = true -> a_at a idx == divergence d sx sy sz.
Proof.
  intros D L N Sx Sy Sz Lx Ly Lz U. destruct (divE_lin d Ex Ey Ez cx cy cz sx sy sz o h sh D L N Sx Sy Sz Lx Ly Lz) as (a & A1 & A2 & A3). exists a. split; [exact A1|]. split; [exact A2|]. intros idx I. rewrite A3 by exact I. unfold trace, divergence.
  destruct d as [|[|[|[|d]]]]; [lia| | | |lia]; cbn [Nat.leb]; rewrite ?U by lia; ring.
Qed.
Lemma divE_wrong : exists Ex c s o h a, linear_on Ex c s o h /\ divE 1 Ex Ex Ex = Ok a /\ in_shape (a_shape a) [0%Z] = true /\ ~ a_at a [0%Z] == divergence 1 s s s.
Proof.
  exists (mkarr [2%Z] (fun i => inject_Z (hd 0%Z i) * (1 # 2))), 0, [1], [0], [1 # 2]. eexists. split.
  - split; [reflexivity|]. split; [reflexivity|]. split; [reflexivity|]. intros [|i [|j idx]] H; [discriminate| |cbn in H; rewrite andb_false_r in H; discriminate]. cbn. ring.
  - split; [reflexivity|]. split; [reflexivity|]. intro H. vm_compute in H. discriminate.
Qed.
Lemma gradient_short a k n : nth_error (a_shape a) k = Some n -> (n < 2)%Z -> np_gradient a k = Err ValueError.
Proof. intros E N. unfold np_gradient. rewrite E. destruct (Z.ltb_spec n 2); [reflexivity|lia]. Qed.
