(** Lemmas about the Tukey window. *)
From Coq Require Import Reals Lra Lia List.
From Verif Require Import PyBase NdModel NdFacts IoText IoText TukeyModel TukeySpec.
Import ListNotations.
Local Open Scope R_scope.

Lemma arange_length M lo hi : length (arange_slice M lo hi) = Z.to_nat (Z.min hi M - lo).
Proof. unfold arange_slice. now rewrite map_length, zrange_length. Qed.
Lemma arange_nth M lo hi j : (j < Z.to_nat (Z.min hi M - lo))%nat -> nth_error (arange_slice M lo hi) j = Some (lo + Z.of_nat j)%Z.
Proof. intro H. unfold arange_slice. rewrite nth_error_map, zrange_nth by exact H. reflexivity. Qed.

Lemma sine_form x : / 2 * (1 + cos (PI * (-1 + 2 * x))) = sin (PI * x) ^ 2.
Proof.
  replace (PI * (-1 + 2 * x)) with (2 * (PI * x) - PI) by ring. rewrite cos_minus, cos_PI, sin_PI, cos_2a_sin. simpl. lra.
Qed.
Lemma rising_sine alpha M n : alpha <> 0 -> IZR (M - 1) <> 0 -> rising alpha M n = sin (PI * IZR n / (alpha * IZR (M - 1))) ^ 2.
Proof.
  intros Ha HM. unfold rising. replace (PI * (-1 + 2 * IZR n / alpha / IZR (M - 1))) with (PI * (-1 + 2 * (IZR n / (alpha * IZR (M - 1))))) by (field; tauto). rewrite sine_form. do 2 f_equal. field. tauto.
Qed.
Lemma falling_sine alpha M n : alpha <> 0 -> IZR (M - 1) <> 0 -> falling alpha M n = sin (PI * IZR (M - 1 - n) / (alpha * IZR (M - 1))) ^ 2.
Proof.
  intros Ha HM. unfold falling. replace (cos (PI * (-2 / alpha + 1 + 2 * IZR n / alpha / IZR (M - 1)))) with (cos (PI * (-1 + 2 * (IZR (M - 1 - n) / (alpha * IZR (M - 1)))))).
  - rewrite sine_form. do 2 f_equal. field. tauto.
  - rewrite <- cos_neg. f_equal. rewrite minus_IZR. field. tauto.
Qed.
Lemma width_bounds alpha M : 0 < alpha < 1 -> (2 <= M)%Z ->
  (0 <= ramp_width alpha M)%Z /\ (2 * ramp_width alpha M + 2 <= M)%Z /\ IZR (ramp_width alpha M) <= alpha * IZR (M - 1) / 2 < IZR (ramp_width alpha M) + 1.
Proof.
  intros Ha HM. unfold ramp_width. set (z := alpha * IZR (M - 1) / 2). destruct (base_Int_part z) as [B1 B2]. assert (HN : 1 <= IZR (M - 1)) by (apply IZR_le; lia).
  assert (Z0 : 0 < z) by (unfold z; nra). assert (Z1 : 2 * z < IZR (M - 1)) by (unfold z; nra).
  assert (W0 : (-1 < Int_part z)%Z) by (apply lt_IZR; lra). assert (W1 : (2 * Int_part z < M - 1)%Z) by (apply lt_IZR; rewrite mult_IZR; lra). split; [lia|]. split; [lia|]. lra.
Qed.
Lemma window_length alpha M : 0 < alpha < 1 -> (2 <= M)%Z -> length (tukey_window alpha M) = Z.to_nat M.
Proof.
  intros Ha HM. destruct (width_bounds alpha M Ha HM) as (W0 & W1 & _). unfold tukey_window. rewrite !app_length, !map_length, !arange_length. lia.
Qed.
Lemma window_nth alpha M n : 0 < alpha < 1 -> (2 <= M)%Z -> (n < Z.to_nat M)%nat -> let w := ramp_width alpha M in
  nth_error (tukey_window alpha M) n = Some (if (Z.of_nat n <=? w)%Z then rising alpha M (Z.of_nat n) else if (Z.of_nat n <? M - w - 1)%Z then 1 else falling alpha M (Z.of_nat n)).
Proof.
  intros Ha HM Hn w. destruct (width_bounds alpha M Ha HM) as (W0 & W1 & _). fold w in W0, W1. unfold tukey_window. fold w.
  assert (L1 : length (map (rising alpha M) (arange_slice M 0 (w + 1))) = Z.to_nat (w + 1)) by (rewrite map_length, arange_length; f_equal; lia).
  assert (L2 : length (map (fun _ : Z => 1) (arange_slice M (w + 1) (M - w - 1))) = Z.to_nat (M - 2 * w - 2)) by (rewrite map_length, arange_length; f_equal; lia).
  destruct (Z.leb_spec (Z.of_nat n) w).
  - rewrite nth_error_app1 by (rewrite L1; lia). rewrite nth_error_map, arange_nth by lia. reflexivity.
  - rewrite nth_error_app2 by (rewrite L1; lia). rewrite L1. destruct (Z.ltb_spec (Z.of_nat n) (M - w - 1)).
    + rewrite nth_error_app1 by (rewrite L2; lia). rewrite nth_error_map, arange_nth by lia. reflexivity.
    + rewrite nth_error_app2 by (rewrite L2; lia). rewrite L2. rewrite nth_error_map, arange_nth by lia. cbn [option_map]. do 2 f_equal. lia.
Qed.
Lemma sine_ramp alpha N k : 0 < alpha < 1 -> (1 <= N)%nat -> INR k <= alpha * INR N / 2 -> tukey_value alpha N k (sin (PI * INR k / (alpha * INR N)) ^ 2).
Proof.
  intros Ha HN Hk. split; [reflexivity|]. intro H. assert (E : INR k = alpha * INR N / 2) by lra. assert (0 < INR N) by (apply lt_0_INR; lia). rewrite E. replace (PI * (alpha * INR N / 2) / (alpha * INR N)) with (PI / 2) by (field; lra). rewrite sin_PI2. ring.
Qed.
Lemma window_value alpha N n : 0 < alpha < 1 -> (1 <= N)%nat -> (n <= N)%nat -> exists y, nth_error (tukey_window alpha (Z.of_nat (S N))) n = Some y /\ tukey_value alpha N (from_end N n) y.
Proof.
  intros Ha HN Hn. set (M := Z.of_nat (S N)). assert (HM : (2 <= M)%Z) by (unfold M; lia). destruct (width_bounds alpha M Ha HM) as (W0 & W1 & W2). eexists. split; [apply window_nth; [exact Ha|exact HM|unfold M; lia]|].
  set (w := ramp_width alpha M) in *. assert (EN : IZR (M - 1) = INR N) by (rewrite INR_IZR_INZ; f_equal; unfold M; lia). rewrite EN in W2. assert (P : 0 < INR N) by (apply lt_0_INR; lia).
  unfold from_end. destruct (Z.leb_spec (Z.of_nat n) w).
  - rewrite rising_sine by (try rewrite EN; lra). rewrite EN, <- INR_IZR_INZ. replace (Nat.min n (N - n)) with n by (unfold M in *; lia). apply sine_ramp; [exact Ha|exact HN|]. apply IZR_le in H. rewrite <- INR_IZR_INZ in H. lra.
  - destruct (Z.ltb_spec (Z.of_nat n) (M - w - 1)).
    + assert (K : (w + 1 <= Z.of_nat (Nat.min n (N - n)))%Z) by (unfold M in *; lia). apply IZR_le in K. rewrite plus_IZR, <- INR_IZR_INZ in K. split; intro; [lra|reflexivity].
    + rewrite falling_sine by (try rewrite EN; lra). rewrite EN. replace (M - 1 - Z.of_nat n)%Z with (Z.of_nat (N - n)) by (unfold M; lia). rewrite <- INR_IZR_INZ. replace (Nat.min n (N - n)) with (N - n)%nat by (unfold M in *; lia).
      apply sine_ramp; [exact Ha|exact HN|]. assert (K : (Z.of_nat (N - n) <= w)%Z) by (unfold M in *; lia). apply IZR_le in K. rewrite <- INR_IZR_INZ in K. lra.
Qed.
(** the value as a function of the distance *)
Lemma tukey_value_cases alpha N k y : tukey_value alpha N k y -> (INR k <= alpha * INR N / 2 /\ y = sin (PI * INR k / (alpha * INR N)) ^ 2) \/ (alpha * INR N / 2 < INR k /\ y = 1).
Proof. intros [H1 H2]. destruct (Rle_dec (INR k) (alpha * INR N / 2)); [left; auto|right; split; [lra|apply H2; lra]]. Qed.
Lemma ramp_angle alpha N k : 0 < alpha -> (1 <= N)%nat -> INR k <= alpha * INR N / 2 -> 0 <= PI * INR k / (alpha * INR N) <= PI / 2.
Proof.
  intros Ha HN Hk. assert (P : 0 < INR N) by (apply lt_0_INR; lia). assert (K : 0 <= INR k) by apply pos_INR. assert (Pi := PI_RGT_0). assert (D : 0 < alpha * INR N) by nra. split.
  - apply Rmult_le_pos; [nra|]. left. now apply Rinv_0_lt_compat.
  - apply Rmult_le_reg_r with (alpha * INR N); [exact D|]. unfold Rdiv at 1. rewrite Rmult_assoc, Rinv_l by lra. nra.
Qed.
Lemma tukey_bounds alpha N k y : 0 < alpha -> (1 <= N)%nat -> tukey_value alpha N k y -> 0 <= y <= 1.
Proof.
  intros Ha HN H. destruct (tukey_value_cases _ _ _ _ H) as [[_ ->]|[_ ->]]; [|lra]. set (x := sin _). assert (B := SIN_bound (PI * INR k / (alpha * INR N))). fold x in B. split; [apply pow2_ge_0|]. simpl. nra.
Qed.
Lemma tukey_mono alpha N k k' y y' : 0 < alpha -> (1 <= N)%nat -> (k <= k')%nat -> tukey_value alpha N k y -> tukey_value alpha N k' y' -> y <= y'.
Proof.
  intros Ha HN Hk H H'. destruct (tukey_value_cases _ _ _ _ H') as [[K' ->]|[K' ->]]; [|now apply (tukey_bounds alpha N k)]. assert (Lk : INR k <= INR k') by now apply le_INR. destruct (tukey_value_cases _ _ _ _ H) as [[K ->]|[K ->]]; [|lra].
  destruct (ramp_angle alpha N k Ha HN K) as [A1 A2]. destruct (ramp_angle alpha N k' Ha HN K') as [B1 B2]. assert (P : 0 < INR N) by (apply lt_0_INR; lia). assert (Pi := PI_RGT_0).
  assert (S0 : 0 <= sin (PI * INR k / (alpha * INR N))) by (apply sin_ge_0; lra). assert (S1 : sin (PI * INR k / (alpha * INR N)) <= sin (PI * INR k' / (alpha * INR N))).
  { apply sin_incr_1; try lra. unfold Rdiv. apply Rmult_le_compat_r; [left; apply Rinv_0_lt_compat; nra|nra]. } apply pow_incr. split; assumption.
Qed.
Lemma tukey_one alpha N k y : 0 < alpha -> (1 <= N)%nat -> tukey_value alpha N k y -> y = 1 <-> alpha * INR N / 2 <= INR k.
Proof.
  intros Ha HN H. split; [|apply H]. intro E. destruct (Rle_dec (alpha * INR N / 2) (INR k)) as [L|L]; [exact L|exfalso]. assert (K : INR k < alpha * INR N / 2) by lra. destruct H as [H _]. rewrite H in E by lra. assert (P : 0 < INR N) by (apply lt_0_INR; lia). assert (Pi := PI_RGT_0).
  destruct (ramp_angle alpha N k Ha HN) as [A1 A2]; [lra|]. assert (S0 : 0 <= sin (PI * INR k / (alpha * INR N))) by (apply sin_ge_0; lra).
  assert (S1 : sin (PI * INR k / (alpha * INR N)) < sin (PI / 2)). { apply sin_increasing_1; try lra. apply Rmult_lt_reg_r with (alpha * INR N); [nra|]. unfold Rdiv at 1. rewrite Rmult_assoc, Rinv_l by nra. nra. }
  rewrite sin_PI2 in S1. simpl in E. nra.
Qed.
Lemma tukey_unique alpha N k y y' : tukey_value alpha N k y -> tukey_value alpha N k y' -> y = y'.
Proof. intros [A1 A2] [B1 B2]. destruct (Rle_dec (INR k) (alpha * INR N / 2)); [rewrite A1, B1 by assumption|rewrite A2, B2 by lra]; reflexivity. Qed.

(** * sps_tukey *)
Lemma sps_sym N alpha : 0 < alpha < 1 -> (1 <= N)%nat -> exists l, sps_tukey (Z.of_nat (S N)) alpha true = Ok l /\ length l = S N /\ forall n, (n <= N)%nat -> exists y, nth_error l n = Some y /\ tukey_value alpha N (from_end N n) y.
Proof.
  intros Ha HN. exists (tukey_window alpha (Z.of_nat (S N))). split; [|split; [rewrite window_length; [lia|exact Ha|lia]|intros n Hn; now apply window_value]].
  unfold sps_tukey. destruct (Z.ltb_spec (Z.of_nat (S N)) 0); [lia|]. destruct (Z.leb_spec (Z.of_nat (S N)) 1); [lia|]. destruct (Rle_dec alpha 0); [lra|]. destruct (Rle_dec 1 alpha); [lra|]. reflexivity.
Qed.
Lemma sps_periodic M alpha : 0 < alpha < 1 -> (2 <= M)%nat -> exists l, sps_tukey (Z.of_nat M) alpha false = Ok l /\ length l = M /\ forall n, (n < M)%nat -> exists y, nth_error l n = Some y /\ tukey_value alpha M (from_end M n) y.
Proof.
  intros Ha HM. set (l := tukey_window alpha (Z.of_nat (S M))). assert (L : length l = S M) by (unfold l; rewrite window_length; [lia|exact Ha|lia]).
  assert (E : l = removelast l ++ [last l 0]) by (apply app_removelast_last; destruct l; [discriminate|discriminate]). assert (Lr : length (removelast l) = M) by (rewrite E, app_length in L; cbn in L; lia).
  exists (removelast l). split; [|split; [exact Lr|]].
  - unfold sps_tukey. destruct (Z.ltb_spec (Z.of_nat M) 0); [lia|]. destruct (Z.leb_spec (Z.of_nat M) 1); [lia|]. destruct (Rle_dec alpha 0); [lra|]. destruct (Rle_dec 1 alpha); [lra|]. unfold l. do 3 f_equal. lia.
  - intros n Hn. destruct (window_value alpha M n Ha) as (y & Ey & V); [lia|lia|]. exists y. split; [|exact V]. fold l in Ey. rewrite E in Ey. rewrite nth_error_app1 in Ey by (rewrite Lr; exact Hn). exact Ey.
Qed.
Lemma sps_ones M alpha sym : (0 <= M)%Z -> (M <= 1)%Z \/ alpha <= 0 -> exists l, sps_tukey M alpha sym = Ok l /\ length l = Z.to_nat M /\ forall y, In y l -> y = 1.
Proof.
  intros H0 H. exists (map (fun _ => 1) (zrange M)). split; [|split; [now rewrite map_length, zrange_length|intros y I; apply in_map_iff in I as (_ & <- & _); reflexivity]].
  unfold sps_tukey. destruct (Z.ltb_spec M 0); [lia|]. destruct (Z.leb_spec M 1); [reflexivity|]. destruct (Rle_dec alpha 0); [reflexivity|]. destruct H; [lia|lra].
Qed.
Lemma sps_errors M alpha sym : ((M < 0)%Z -> sps_tukey M alpha sym = Err ValueError) /\ ((2 <= M)%Z -> 1 <= alpha -> sps_tukey M alpha sym = Err NameError).
Proof.
  unfold sps_tukey. split; intro H; [destruct (Z.ltb_spec M 0); [reflexivity|lia]|]. intro Ha. destruct (Z.ltb_spec M 0); [lia|]. destruct (Z.leb_spec M 1); [lia|]. destruct (Rle_dec alpha 0); [lra|]. destruct (Rle_dec 1 alpha); [reflexivity|lra].
Qed.
(** bounds, symmetry, ends, monotonic *)
Lemma sps_shape N alpha l : 0 < alpha < 1 -> (1 <= N)%nat -> sps_tukey (Z.of_nat (S N)) alpha true = Ok l ->
  (forall y, In y l -> 0 <= y <= 1) /\ rev l = l /\ nth_error l 0 = Some 0 /\
  forall n n' y y', (from_end N n <= from_end N n')%nat -> (n <= N)%nat -> (n' <= N)%nat -> nth_error l n = Some y -> nth_error l n' = Some y' -> y <= y'.
Proof.
  intros Ha HN E. destruct (sps_sym N alpha Ha HN) as (l' & E' & L & V). rewrite E in E'. injection E' as <-.
  assert (G : forall n y, nth_error l n = Some y -> (n <= N)%nat /\ tukey_value alpha N (from_end N n) y).
  { intros n y En. assert (n < length l)%nat by (apply nth_error_Some; congruence). split; [lia|]. destruct (V n) as (y' & En' & V'); [lia|]. rewrite En in En'. injection En' as <-. exact V'. }
  split; [|split; [|split]].
  - intros y I. apply In_nth_error in I as (n & En). eapply tukey_bounds; [| |apply (G n y En)]; [lra|lia].
  - apply nth_ext with (d := 0) (d' := 0); [apply rev_length|]. rewrite rev_length. intros n Hn. rewrite rev_nth by exact Hn. rewrite L in *. destruct (V (S N - S n)%nat) as (y & Ey & Vy); [lia|]. destruct (V n) as (y' & Ey' & Vy'); [lia|].
    rewrite (nth_error_nth _ _ _ Ey), (nth_error_nth _ _ _ Ey'). apply (tukey_unique alpha N (from_end N n)); [|exact Vy']. replace (from_end N n) with (from_end N (S N - S n)) by (unfold from_end; lia). exact Vy.
  - destruct (V 0%nat) as (y & Ey & Vy); [lia|]. rewrite Ey. f_equal. destruct Vy as [Vy _]. rewrite Vy.
    + change (from_end N 0) with 0%nat. simpl INR. replace (PI * 0 / (alpha * INR N)) with 0 by (unfold Rdiv; ring). rewrite sin_0. ring.
    + change (from_end N 0) with 0%nat. simpl INR. assert (0 < INR N) by (apply lt_0_INR; lia). nra.
  - intros n n' y y' Hk _ _ En En'. eapply tukey_mono; [|exact HN|exact Hk|apply (G n y En)|apply (G n' y' En')]. lra.
Qed.
(** the window of autocutout: ll points in the middle, x on either side *)
Lemma sps_plateau ll x : (1 <= ll)%nat -> (1 <= x)%nat -> exists l, sps_tukey (Z.of_nat (ll + 2 * x)) (1 - INR ll / INR (ll + 2 * x)) true = Ok l /\ length l = (ll + 2 * x)%nat /\
  forall n y, nth_error l n = Some y -> y = 1 <-> (x <= n < ll + x)%nat.
Proof.
  intros Hl Hx. set (m := (ll + 2 * x)%nat). assert (Pm : 0 < INR m) by (apply lt_0_INR; unfold m; lia). assert (Pl : 0 < INR ll) by (apply lt_0_INR; lia). assert (Px : 1 <= INR x) by (change 1 with (INR 1); apply le_INR; lia).
  assert (Em : INR m = INR ll + 2 * INR x) by (unfold m; rewrite plus_INR, mult_INR; simpl; ring). set (alpha := 1 - INR ll / INR m). assert (Ea : alpha = 2 * INR x / INR m) by (unfold alpha; rewrite Em; field; lra).
  assert (Ha : 0 < alpha < 1). { rewrite Ea. split; [apply Rdiv_lt_0_compat; lra|]. apply Rmult_lt_reg_r with (INR m); [exact Pm|]. unfold Rdiv. rewrite Rmult_assoc, Rinv_l by lra. lra. }
  assert (HN : (1 <= m - 1)%nat) by (unfold m; lia). destruct (sps_sym (m - 1) alpha Ha HN) as (l & E & L & V). replace (S (m - 1)) with m in * by (unfold m; lia). exists l. split; [exact E|]. split; [exact L|]. intros n y En.
  assert (Hn : (n < m)%nat) by (rewrite <- L; apply nth_error_Some; congruence). destruct (V n) as (y' & En' & V'); [lia|]. rewrite En in En'. injection En' as <-. rewrite (tukey_one alpha (m - 1) (from_end (m - 1) n) y); [|lra|exact HN|exact V'].
  assert (EN : INR (m - 1) = INR m - 1) by (rewrite minus_INR by (unfold m; lia); reflexivity). rewrite EN.
  assert (B : alpha * (INR m - 1) / 2 = INR x - INR x / INR m) by (rewrite Ea; field; lra). assert (Q1 : 0 < INR x / INR m) by (apply Rdiv_lt_0_compat; lra). assert (Q2 : INR x / INR m < 1). { apply Rmult_lt_reg_r with (INR m); [exact Pm|]. unfold Rdiv. rewrite Rmult_assoc, Rinv_l by lra. lra. }
  rewrite B. unfold from_end. split; intro K.
  - assert (K' : INR x < INR (Nat.min n (m - 1 - n) + 1)) by (rewrite plus_INR; simpl; lra). apply INR_lt in K'. unfold m in *. lia.
  - assert (K' : (x <= Nat.min n (m - 1 - n))%nat) by (unfold m; lia). apply le_INR in K'. lra.
Qed.
