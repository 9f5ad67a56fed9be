(** Lemmas about azimuthal modes. *)
From Coq Require Import Reals Lra Lia List ZArith Bool.
From Verif Require Import PyBase PyBaseFacts NumpyModel NdModel NdFacts CplxModel CplxFacts ModesModel ModesSpec.
Import ListNotations.
Local Open Scope R_scope.

Lemma rsum_shift n f : rsum (S n) f = f 0%nat + rsum n (fun j => f (S j)).
Proof. induction n as [|n IH]; cbn in *; [ring|]. rewrite IH. ring. Qed.
Lemma rsum_odd M f : rsum (S (2 * M)) f = f 0%nat + rsum M (fun m => f (2 * m + 1)%nat + f (2 * m + 2)%nat).
Proof.
  induction M as [|M IH]; [cbn; ring|]. replace (2 * S M)%nat with (S (S (2 * M))) by lia. change (rsum (S (S (S (2 * M)))) f) with (rsum (S (2 * M)) f + f (S (2 * M)) + f (S (S (2 * M)))). rewrite IH. cbn [rsum].
  replace (2 * M + 1)%nat with (S (2 * M)) by lia. replace (2 * M + 2)%nat with (S (S (2 * M))) by lia. ring.
Qed.
Lemma rsum_plus n k f : rsum (n + k) f = rsum n f + rsum k (fun j => f (n + j)%nat).
Proof. induction k as [|k IH]; [rewrite Nat.add_0_r; cbn; ring|]. rewrite Nat.add_succ_r. cbn [rsum]. rewrite IH. ring. Qed.
Lemma fst_csum n f : fst (csum n f) = rsum n (fun j => fst (f j)).
Proof. induction n as [|n IH]; [reflexivity|]. cbn [csum rsum Cadd fst]. now rewrite IH. Qed.
Lemma pairs_length {A} (f g : nat -> A) l : length (flat_map (fun m => [f m; g m]) l) = (2 * length l)%nat.
Proof. induction l as [|x l IH]; [reflexivity|]. cbn [flat_map app length]. rewrite IH. lia. Qed.
Lemma pairs_nth {A} (f g : nat -> A) d : forall n s i, (i < n)%nat ->
  nth (2 * i) (flat_map (fun m => [f m; g m]) (seq s n)) d = f (s + i)%nat /\ nth (2 * i + 1) (flat_map (fun m => [f m; g m]) (seq s n)) d = g (s + i)%nat.
Proof.
  induction n as [|n IH]; intros s i H; [lia|]. destruct i as [|i]; [cbn; rewrite Nat.add_0_r; split; reflexivity|]. destruct (IH (S s) i) as [A1 A2]; [lia|].
  replace (2 * S i)%nat with (S (S (2 * i))) by lia. replace (S (S (2 * i)) + 1)%nat with (S (S (2 * i + 1))) by lia. cbn [seq flat_map app nth]. rewrite A1, A2. split; f_equal; lia.
Qed.
Lemma half_odd M : ((Z.of_nat (2 * M + 1) + 1) / 2 = Z.of_nat (S M))%Z.
Proof. replace (Z.of_nat (2 * M + 1) + 1)%Z with (Z.of_nat (S M) * 2)%Z by lia. apply Z.div_mul. lia. Qed.

Lemma naiv_single_ok raw M Nr Nz theta : a_shape raw = [Z.of_nat (2 * M + 1); Nr; Nz] ->
  exists a, fb_naiv_single raw theta = Ok a /\ a_shape a = [Nr; Nz] /\ forall r z, a_at a [r; z] = series_at raw M r z theta.
Proof.
  intro E. unfold fb_naiv_single. rewrite E. unfold fb_mult. rewrite half_odd, Nat2Z.id. replace (S M - 1)%nat with M by lia.
  cbn [length]. rewrite pairs_length, seq_length. destruct (Z.eqb_spec (Z.of_nat (S (2 * M))) (Z.of_nat (2 * M + 1))); [|lia]. eexists. split; [reflexivity|]. split; [reflexivity|]. intros r z. cbn [a_at].
  rewrite Nat2Z.id. replace (2 * M + 1)%nat with (S (2 * M)) by lia. rewrite rsum_odd. unfold series_at. cbn [nth]. f_equal; [cbn; ring|]. apply rsum_ext. intros m Hm.
  replace (2 * m + 1)%nat with (S (2 * m)) by lia. replace (2 * m + 2)%nat with (S (2 * m + 1)) by lia. cbn [nth].
  destruct (pairs_nth (fun m => cos (INR m * theta)) (fun m => sin (INR m * theta)) 0 M 1 m Hm) as [A1 A2]. rewrite A1, A2. change (1 + m)%nat with (S m).
  replace (Z.of_nat (S (2 * m))) with (2 * Z.of_nat m + 1)%Z by lia. replace (Z.of_nat (S (2 * m + 1))) with (2 * Z.of_nat m + 2)%Z by lia. ring.
Qed.
Lemma mapM_all {A B} (f : A -> res B) (P : A -> B -> Prop) l : (forall x, In x l -> exists y, f x = Ok y /\ P x y) -> exists m, mapM f l = Ok m /\ Forall2 P l m.
Proof.
  induction l as [|x l IH]; intro H; [exists []; split; [reflexivity|constructor]|]. destruct (H x) as (y & E & Py); [now left|]. destruct IH as (m & Em & F); [intros; apply H; now right|].
  exists (y :: m). cbn. rewrite E. cbn. rewrite Em. split; [reflexivity|now constructor].
Qed.
Lemma F2_nth {A B} (P : A -> B -> Prop) l m i x : Forall2 P l m -> nth_error l i = Some x -> exists y, nth_error m i = Some y /\ P x y.
Proof. intro F. revert i. induction F as [|a b l m H F IH]; intros [|i] E; try discriminate; cbn in *; [injection E as <-; eauto|eauto]. Qed.
Lemma F2_len {A B} (P : A -> B -> Prop) l m : Forall2 P l m -> length l = length m.
Proof. induction 1; cbn; congruence. Qed.
Lemma naiv_ok raw M Nr Nz thetas : a_shape raw = [Z.of_nat (2 * M + 1); Nr; Nz] -> thetas <> [] ->
  exists a, fb_naiv raw thetas = Ok a /\ a_shape a = [Nr; Z.of_nat (length thetas); Nz] /\ forall r k z t, nth_error thetas k = Some t -> a_at a [r; Z.of_nat k; z] = series_at raw M r z t.
Proof.
  intros E N. destruct (mapM_all (fb_naiv_single raw) (fun t a => a_shape a = [Nr; Nz] /\ forall r z, a_at a [r; z] = series_at raw M r z t) thetas) as (l & El & F).
  { intros t _. destruct (naiv_single_ok raw M Nr Nz t E) as (a & A1 & A2). now exists a. }
  unfold fb_naiv. rewrite El. cbn [bind]. assert (L := F2_len _ _ _ F). destruct F as [|t a ts l' [Sa Va] F]; [congruence|]. rewrite Sa. eexists. split; [reflexivity|]. split; [cbn [a_shape]; now rewrite L|].
  intros r k z t' Et. cbn [a_at]. rewrite Nat2Z.id. destruct (F2_nth (fun t a => a_shape a = [Nr; Nz] /\ forall r z, a_at a [r; z] = series_at raw M r z t) (t :: ts) (a :: l') k t') as (b & Eb & _ & Vb); [constructor; auto|exact Et|]. rewrite Eb. apply Vb.
Qed.
(** the transform: the series, and whatever np.empty left in the higher modes *)
Definition leak (junk : list Z -> C) (M N : nat) (r : Z) (k : nat) (z : Z) : R :=
  rsum (N - S M) (fun j => fst (Cmul (cis (- (INR (S M + j) * angle N k))) (junk [r; Z.of_nat (S M + j); z]))).
Lemma fb_fft_ok junk raw M Nr Nz Nt N : a_shape raw = [Z.of_nat (2 * M + 1); Nr; Nz] -> (match Nt with None => N = S M | Some n => N = Nat.max (S M) (Z.to_nat n) end) ->
  exists a, fb_fft junk raw Nt = Ok a /\ a_shape a = [Nr; Z.of_nat N; Nz] /\ forall r k z, a_at a [r; Z.of_nat k; z] = series_at raw M r z (angle N k) + leak junk M N r k z.
Proof.
  intros E EN. unfold fb_fft. rewrite E. rewrite half_odd.
  assert (EN' : (match Nt with None => Z.of_nat (S M) | Some n => if (n <? Z.of_nat (S M))%Z then Z.of_nat (S M) else n end = Z.of_nat N)%Z).
  { destruct Nt as [n|]; [|lia]. destruct (Z.ltb_spec n (Z.of_nat (S M))); lia. }
  assert (LN : (S M <= N)%nat) by (destruct Nt; lia). rewrite EN'. clear EN EN'.
  destruct (Z.ltb_spec (Z.of_nat N) 1); [lia|]. destruct (Z.ltb_spec (Z.of_nat (2 * M + 1)) 1); [lia|]. cbn [orb].
  replace (Z.of_nat (2 * M + 1) / 2)%Z with (Z.of_nat M) by lia. replace ((Z.of_nat (2 * M + 1) - 1) / 2)%Z with (Z.of_nat M) by lia. replace (Z.of_nat (S M) - 1)%Z with (Z.of_nat M) by lia.
  unfold fits. rewrite Z.eqb_refl. cbn [orb negb]. eexists. split; [reflexivity|]. split; [reflexivity|]. intros r k z. cbn [a_at]. rewrite Nat2Z.id, fst_csum.
  replace N with (S M + (N - S M))%nat at 1 by lia. rewrite rsum_plus. f_equal.
  - rewrite rsum_shift. unfold series_at. f_equal.
    + cbn [Z.of_nat Z.eqb INR]. replace (- (2 * PI * 0 * IZR (Z.of_nat k) / IZR (Z.of_nat N))) with 0 by (unfold Rdiv; ring). rewrite cis_0. cbn. ring.
    + apply rsum_ext. intros m Hm. destruct (Z.eqb_spec (Z.of_nat (S m)) 0); [lia|]. destruct (Z.ltb_spec (Z.of_nat (S m)) (Z.of_nat (S M))); [|lia].
      replace (2 * PI * INR (S m) * IZR (Z.of_nat k) / IZR (Z.of_nat N)) with (INR (S m) * angle N k) by (unfold angle; rewrite !INR_IZR_INZ; unfold Rdiv; ring).
      replace (2 * Z.of_nat (S m) - 1)%Z with (2 * Z.of_nat m + 1)%Z by lia. replace (2 * Z.of_nat (S m))%Z with (2 * Z.of_nat m + 2)%Z by lia.
      rewrite cis_opp. unfold Cmul, Cconj, cis. cbn [fst snd]. ring.
  - unfold leak. apply rsum_ext. intros j Hj. destruct (Z.eqb_spec (Z.of_nat (S M + j)) 0); [lia|]. destruct (Z.ltb_spec (Z.of_nat (S M + j)) (Z.of_nat (S M))); [lia|].
    replace (2 * PI * INR (S M + j) * IZR (Z.of_nat k) / IZR (Z.of_nat N)) with (INR (S M + j) * angle N k) by (unfold angle; rewrite <- !INR_IZR_INZ; unfold Rdiv; ring). reflexivity.
Qed.
Lemma leak_none junk M r k z : leak junk M (S M) r k z = 0.
Proof. unfold leak. rewrite Nat.sub_diag. reflexivity. Qed.
Lemma leak_zero junk M N r k z : (forall j, (M < j)%nat -> junk [r; Z.of_nat j; z] = C0) -> leak junk M N r k z = 0.
Proof. intro H. unfold leak. rewrite (rsum_ext _ _ (fun _ => 0)); [apply rsum_zero|]. intros j _. rewrite H by lia. unfold Cmul, C0. cbn. ring. Qed.
Lemma angles_nth n k : (k < n)%nat -> nth_error (angles n) k = Some (angle n k).
Proof. intro H. unfold angles. rewrite nth_error_map. rewrite (nth_error_nth' _ 0%nat) by (rewrite seq_length; exact H). cbn. now rewrite seq_nth by exact H. Qed.
Lemma modes_agree junk raw M Nr Nz Nt : a_shape raw = [Z.of_nat (2 * M + 1); Nr; Nz] -> (match Nt with None => True | Some n => (n <= Z.of_nat (S M))%Z end) ->
  exists a b, fb_naiv raw (angles (S M)) = Ok a /\ fb_fft junk raw Nt = Ok b /\ a_shape a = [Nr; Z.of_nat (S M); Nz] /\ a_shape b = a_shape a /\
    forall r k z, (k < S M)%nat -> a_at b [r; Z.of_nat k; z] = a_at a [r; Z.of_nat k; z] /\ a_at a [r; Z.of_nat k; z] = series_at raw M r z (angle (S M) k).
Proof.
  intros E HN. assert (Na : angles (S M) <> []) by discriminate. destruct (naiv_ok raw M Nr Nz _ E Na) as (a & A1 & A2 & A3).
  destruct (fb_fft_ok junk raw M Nr Nz Nt (S M) E) as (b & B1 & B2 & B3); [destruct Nt; lia|]. unfold angles in A2 at 1. rewrite map_length, seq_length in A2. exists a, b.
  split; [exact A1|]. split; [exact B1|]. split; [exact A2|]. split; [now rewrite A2|]. intros r k z Hk. assert (Ea := A3 r k z _ (angles_nth _ _ Hk)). split; [|exact Ea]. rewrite Ea, B3, leak_none. ring.
Qed.
Lemma more_angles junk raw M Nr Nz N : a_shape raw = [Z.of_nat (2 * M + 1); Nr; Nz] -> (S M <= N)%nat -> (forall r j z, (M < j)%nat -> junk [r; Z.of_nat j; z] = C0) ->
  exists a b, fb_naiv raw (angles N) = Ok a /\ fb_fft junk raw (Some (Z.of_nat N)) = Ok b /\ a_shape a = [Nr; Z.of_nat N; Nz] /\ a_shape b = a_shape a /\
    forall r k z, (k < N)%nat -> a_at b [r; Z.of_nat k; z] = a_at a [r; Z.of_nat k; z].
Proof.
  intros E LN HJ. assert (Na : angles N <> []) by (destruct N; [lia|discriminate]). destruct (naiv_ok raw M Nr Nz _ E Na) as (a & A1 & A2 & A3).
  destruct (fb_fft_ok junk raw M Nr Nz (Some (Z.of_nat N)) N E) as (b & B1 & B2 & B3); [lia|]. unfold angles in A2 at 1. rewrite map_length, seq_length in A2. exists a, b.
  split; [exact A1|]. split; [exact B1|]. split; [exact A2|]. split; [now rewrite A2|]. intros r k z Hk. rewrite (A3 r k z _ (angles_nth _ _ Hk)), B3, leak_zero by (intros; apply HJ; lia). ring.
Qed.
Lemma more_angles_junk : exists junk raw a b, a_shape raw = [1; 1; 1]%Z /\ fb_naiv raw (angles 2) = Ok a /\ fb_fft junk raw (Some 2%Z) = Ok b /\ a_at b [0; 0; 0]%Z <> a_at a [0; 0; 0]%Z.
Proof.
  set (raw := mkarr [1; 1; 1]%Z (fun _ : list Z => 0)). destruct (naiv_ok raw 0 1 1 (angles 2) eq_refl) as (a & A1 & _ & A3); [discriminate|].
  destruct (fb_fft_ok (fun _ => C1) raw 0 1 1 (Some 2%Z) 2 eq_refl) as (b & B1 & _ & B3); [reflexivity|]. exists (fun _ => C1), raw, a, b. split; [reflexivity|]. split; [exact A1|]. split; [exact B1|].
  assert (Ea := A3 0%Z 0%nat 0%Z _ (angles_nth 2 0 ltac:(lia))). assert (Eb := B3 0%Z 0%nat 0%Z). change (Z.of_nat 0) with 0%Z in *. rewrite Ea, Eb. unfold leak. cbn [rsum Nat.sub]. unfold angle. replace (2 * PI * INR 0 / INR 2) with 0 by (cbn; unfold Rdiv; ring). rewrite Rmult_0_r, Ropp_0, cis_0. cbn. lra.
Qed.
Lemma even_records junk raw K Nr Nz : a_shape raw = [Z.of_nat (2 * K); Nr; Nz] -> (2 <= K)%nat -> (forall Nt, fb_fft junk raw Nt = Err ValueError) /\ forall t ts, fb_naiv raw (t :: ts) = Err ValueError.
Proof.
  intros E H. split.
  - intro Nt. unfold fb_fft. rewrite E. replace ((Z.of_nat (2 * K) + 1) / 2)%Z with (Z.of_nat K) by lia. set (N := match Nt with None => _ | Some _ => _ end). assert (1 <= N)%Z by (unfold N; destruct Nt as [n|]; [destruct (Z.ltb_spec n (Z.of_nat K))|]; lia).
    destruct (Z.ltb_spec N 1); [lia|]. destruct (Z.ltb_spec (Z.of_nat (2 * K)) 1); [lia|]. cbn [orb]. replace (Z.of_nat (2 * K) / 2)%Z with (Z.of_nat K) by lia. unfold fits. destruct (Z.eqb_spec (Z.of_nat K) (Z.of_nat K - 1)); [lia|]. destruct (Z.eqb_spec (Z.of_nat K) 1); [lia|]. reflexivity.
  - intros t ts. unfold fb_naiv. cbn [mapM]. assert (X : fb_naiv_single raw t = Err ValueError); [|now rewrite X].
    unfold fb_naiv_single. rewrite E. unfold fb_mult. cbn [length]. rewrite pairs_length, seq_length. match goal with |- context [if ?b then _ else _] => destruct b eqn:B end; [|reflexivity]. apply Z.eqb_eq in B. lia.
Qed.
Lemma two_records : exists raw, a_shape raw = [2; 1; 1]%Z /\ (forall junk, exists b, fb_fft junk raw None = Ok b) /\ forall t, fb_naiv raw [t] = Err ValueError.
Proof. exists (mkarr [2; 1; 1]%Z (fun _ => 0)). split; [reflexivity|]. split; [intro; eexists; reflexivity|]. intro. reflexivity. Qed.

(** * Smilei *)
Lemma sm_fold raw Nm idx thetas : forall F, fold_left (fun (F : list Z -> R) t => fun idx => F idx + sm_term raw Nm t idx) thetas F idx = F idx + fold_right (fun t s => sm_term raw Nm t idx + s) 0 thetas.
Proof. induction thetas as [|t l IH]; intro F; cbn [fold_left fold_right]; [ring|]. rewrite IH. ring. Qed.
Lemma sm_naiv_ok raw Nm Nx Nr thetas : a_shape raw = [Z.of_nat Nm; Nx; Nr] -> thetas <> [] ->
  exists a, sm_naiv raw thetas = Ok a /\ a_shape a = [Z.of_nat (length thetas); Nx; Nr] /\
    forall k x r, a_at a [k; x; r] = fold_right (fun t s => complex_series (fun m => a_at raw [Z.of_nat m; x; r]) Nm t + s) 0 thetas.
Proof.
  intros E N. unfold sm_naiv. rewrite E. destruct thetas as [|t l]; [congruence|]. eexists. split; [reflexivity|]. split; [reflexivity|]. intros k x r. cbn [a_at tl]. rewrite sm_fold, Rplus_0_l.
  assert (G : forall l, fold_right (fun t s => sm_term raw (Z.of_nat Nm) t [x; r] + s) 0 l = fold_right (fun t s => complex_series (fun m => a_at raw [Z.of_nat m; x; r]) Nm t + s) 0 l); [|apply G].
  induction l0 as [|u l0 IH]; [reflexivity|]. cbn [fold_right]. rewrite IH. f_equal. unfold sm_term, complex_series. now rewrite Nat2Z.id.
Qed.
Lemma sm_one raw Nm Nx Nr theta : a_shape raw = [Z.of_nat Nm; Nx; Nr] ->
  exists a, sm_naiv raw [theta] = Ok a /\ a_shape a = [1%Z; Nx; Nr] /\ forall x r, a_at a [0%Z; x; r] = complex_series (fun m => a_at raw [Z.of_nat m; x; r]) Nm theta.
Proof. intro E. destruct (sm_naiv_ok raw Nm Nx Nr [theta] E) as (a & A1 & A2 & A3); [discriminate|]. exists a. split; [exact A1|]. split; [exact A2|]. intros x r. rewrite A3. cbn [fold_right]. ring. Qed.
Lemma sm_two : exists raw a, a_shape raw = [1; 1; 1]%Z /\ sm_naiv raw [0; 0] = Ok a /\ a_at a [0; 0; 0]%Z <> complex_series (fun m => a_at raw [Z.of_nat m; 0; 0]%Z) 1 0.
Proof.
  set (raw := mkarr [1; 1; 1]%Z (fun _ : list Z => C1)). destruct (sm_naiv_ok raw 1 1 1 [0; 0] eq_refl) as (a & A1 & _ & A3); [discriminate|]. exists raw, a. split; [reflexivity|]. split; [exact A1|]. rewrite A3. unfold complex_series. cbn. rewrite Rmult_0_l, cos_0. lra.
Qed.
(** the available modes *)
Lemma highest_spec names : forall best, (best <> None \/ names <> []) ->
  exists d, highest best names = Some d /\ (Some d = best \/ In d (map snd names)) /\ (forall b, best = Some b -> (number b <= number d)%nat) /\ forall x, In x (map snd names) -> (number x <= number d)%nat.
Proof.
  induction names as [|[p d] names IH]; intros best H.
  - destruct best as [b|]; [|destruct H; congruence]. exists b. cbn. split; [reflexivity|]. split; [now left|]. split; [intros b' E; injection E as <-; lia|intros x []].
  - cbn [highest]. destruct best as [b|].
    + destruct (Nat.ltb_spec (number b) (number d)).
      * destruct (IH (Some d)) as (e & E1 & E2 & E3 & E4); [left; discriminate|]. exists e. split; [exact E1|]. cbn. specialize (E3 d eq_refl). split; [destruct E2 as [E2|E2]; [injection E2 as ->; right; now left|right; now right]|]. split; [intros b' E; injection E as <-; lia|]. intros x [<- | I]; [exact E3|now apply E4].
      * destruct (IH (Some b)) as (e & E1 & E2 & E3 & E4); [left; discriminate|]. exists e. split; [exact E1|]. cbn. specialize (E3 b eq_refl). split; [destruct E2 as [E2|E2]; [now left|right; now right]|]. split; [intros b' E; injection E as <-; lia|]. intros x [<- | I]; [lia|now apply E4].
    + destruct (IH (Some d)) as (e & E1 & E2 & E3 & E4); [left; discriminate|]. exists e. split; [exact E1|]. cbn. specialize (E3 d eq_refl). split; [destruct E2 as [E2|E2]; [injection E2 as ->; right; now left|right; now right]|]. split; [intros b' E; discriminate|]. intros x [<- | I]; [exact E3|now apply E4].
Qed.
Lemma modes_single_digit names : names <> [] -> (forall d, In d (map snd names) -> exists n, d = [n]) ->
  exists top, In [top] (map snd names) /\ (forall n, In [n] (map snd names) -> (n <= top)%nat) /\ sm_modes names = (map fst names, seq 0 (S top)).
Proof.
  intros N H. destruct (highest_spec names None) as (d & E & I & _ & M); [now right|]. destruct I as [I|I]; [discriminate|]. destruct (H d I) as (top & ->). exists top. split; [exact I|]. split.
  - intros n In'. apply M in In'. cbn in In'. lia.
  - unfold sm_modes. rewrite E. reflexivity.
Qed.
Lemma modes_lost : exists names, In [1; 0]%nat (map snd names) /\ (forall k, (k <= 9)%nat -> In [k] (map snd names)) /\ snd (sm_modes names) = [0%nat].
Proof.
  exists (map (fun d => (""%string, d)) ([[0]; [1]; [2]; [3]; [4]; [5]; [6]; [7]; [8]; [9]; [1; 0]]%nat)). split; [cbn; tauto|]. split; [|reflexivity].
  intros k Hk. do 10 (destruct k as [|k]; [cbn; tauto|]). lia.
Qed.
(** from the file to the angles *)
Lemma sm_complex_ok a Nx Nr : a_shape a = [Nx; 2 * Nr]%Z -> (0 <= Nr)%Z ->
  exists c, sm_complex false a = Ok c /\ a_shape c = [Nx; Nr] /\ forall x r, a_at c [x; r] = (a_at a [x; 2 * r]%Z, a_at a [x; 2 * r + 1]%Z).
Proof.
  intros E N. unfold sm_complex. rewrite E. replace ((2 * Nr) mod 2)%Z with 0%Z by lia. cbn [Z.eqb]. eexists. split; [reflexivity|]. split; [cbn [a_shape]; do 2 f_equal; lia|]. reflexivity.
Qed.
Lemma same_shapes_ok {V} sh (l : list (nda V)) : (forall a, In a l -> a_shape a = sh) -> same_shapes sh l = true.
Proof. induction l as [|a l IH]; intro H; [reflexivity|]. cbn. destruct (list_eq_dec Z.eq_dec (a_shape a) sh) as [|C]; [apply IH; intros; apply H; now right|exfalso; apply C, H; now left]. Qed.
Lemma sm_expanded_gen (file : nat -> res (nda R)) unit env M Nx Nr (data : nat -> nda R) (val : nat -> Z -> Z -> C) theta : (1 <= M)%nat ->
  (forall m, (m < M)%nat -> file m = Ok (data m) /\ exists c, sm_complex env (data m) = Ok c /\ a_shape c = [Nx; Nr] /\ forall x r, a_at c [x; r] = val m x r) ->
  exists a, sm_expanded file unit env (seq 0 M) [theta] = Ok a /\ a_shape a = [1%Z; Nx; Nr] /\
    forall x r, a_at a [0%Z; x; r] = complex_series (fun m => val m x r) M theta * unit.
Proof.
  intros HM H. destruct (mapM_all (fun m => let! a := file m in sm_complex env a) (fun m c => a_shape c = [Nx; Nr] /\ forall x r, a_at c [x; r] = val m x r) (seq 0 M)) as (l & El & F).
  { intros m I. apply in_seq in I. destruct (H m) as [F (c & C1 & C2)]; [lia|]. exists c. rewrite F. split; [exact C1|exact C2]. }
  unfold sm_expanded. rewrite El. cbn [bind]. assert (L := F2_len _ _ _ F). rewrite seq_length in L.
  assert (Shl : forall c, In c l -> a_shape c = [Nx; Nr]) by (intros c I; clear -F I; induction F as [|m c' ms l' [S0 _] F IH]; [destruct I|destruct I as [<- | I]; auto]).
  destruct l as [|c0 l']; [cbn in L; lia|]. unfold np_stack. rewrite (Shl c0 (or_introl eq_refl)), same_shapes_ok by exact Shl. cbn [bind].
  set (raw := mkarr _ _). destruct (sm_one raw M Nx Nr theta) as (a & A1 & A2 & A3); [unfold raw; cbn [a_shape]; now rewrite L|]. rewrite A1. cbn [bind]. eexists. split; [reflexivity|]. split; [exact A2|]. intros x r. cbn [a_at]. rewrite A3. f_equal.
  unfold complex_series. apply rsum_ext. intros m Hm. unfold raw. cbn [a_at]. rewrite Nat2Z.id. assert (Em : nth_error (seq 0 M) m = Some m) by (rewrite (nth_error_nth' _ 0%nat) by (rewrite seq_length; exact Hm); now rewrite seq_nth).
  destruct (F2_nth _ _ _ _ _ F Em) as (c & Ec & _ & Vc). rewrite Ec, Vc. reflexivity.
Qed.

Lemma sm_expanded_ok (file : nat -> res (nda R)) unit M Nx Nr data theta : (1 <= M)%nat -> (0 <= Nr)%Z ->
  (forall m, (m < M)%nat -> file m = Ok (data m) /\ a_shape (data m) = [Nx; 2 * Nr]%Z) ->
  exists a, sm_expanded file unit false (seq 0 M) [theta] = Ok a /\ a_shape a = [1%Z; Nx; Nr] /\
    forall x r, a_at a [0%Z; x; r] = complex_series (fun m => (a_at (data m) [x; 2 * r]%Z, a_at (data m) [x; 2 * r + 1]%Z)) M theta * unit.
Proof.
  intros HM HN H. apply (sm_expanded_gen file unit false M Nx Nr data (fun m x r => (a_at (data m) [x; 2 * r]%Z, a_at (data m) [x; 2 * r + 1]%Z)) theta HM).
  intros m Hm. destruct (H m Hm) as [F Sh]. split; [exact F|]. exact (sm_complex_ok _ _ _ Sh HN).
Qed.
Lemma sm_envelope_ok (file : nat -> res (nda R)) unit M Nx Nr data theta : (1 <= M)%nat ->
  (forall m, (m < M)%nat -> file m = Ok (data m) /\ a_shape (data m) = [Nx; Nr]) ->
  exists a, sm_expanded file unit true (seq 0 M) [theta] = Ok a /\ a_shape a = [1%Z; Nx; Nr] /\
    forall x r, a_at a [0%Z; x; r] = rsum M (fun m => a_at (data m) [x; r] * cos (INR m * theta)) * unit.
Proof.
  intros HM H. destruct (sm_expanded_gen file unit true M Nx Nr data (fun m x r => RtoC (a_at (data m) [x; r])) theta HM) as (a & A1 & A2 & A3).
  - intros m Hm. destruct (H m Hm) as [F Sh]. split; [exact F|]. unfold sm_complex. rewrite Sh. eexists. split; [reflexivity|]. split; reflexivity.
  - exists a. split; [exact A1|]. split; [exact A2|]. intros x r. rewrite A3. f_equal. unfold complex_series. apply rsum_ext. intros m _. cbn. ring.
Qed.
(** a data set of another size stops the reading *)
Lemma same_shapes_sound {V} sh (l : list (nda V)) : same_shapes sh l = true -> forall a, In a l -> a_shape a = sh.
Proof. induction l as [|b l IH]; intros H a I; [destruct I|]. cbn in H. destruct (list_eq_dec Z.eq_dec (a_shape b) sh) as [E|]; [|discriminate]. destruct I as [<- | I]; [exact E|now apply IH]. Qed.
Lemma sm_ragged (file : nat -> res (nda R)) unit modes theta a d0 d1 m0 m1 : sm_expanded file unit true modes theta = Ok a ->
  In m0 modes -> In m1 modes -> file m0 = Ok d0 -> file m1 = Ok d1 -> a_shape d0 = a_shape d1.
Proof.
  unfold sm_expanded. intros E I0 I1 F0 F1. destruct (mapM _ modes) as [l|] eqn:El; [|discriminate]. cbn [bind] in E. destruct (np_stack C0 l) as [raw|] eqn:Er; [|discriminate]. clear E.
  assert (G : forall m d, In m modes -> file m = Ok d -> exists c, In c l /\ a_shape c = a_shape d).
  { clear Er I0 I1 F0 F1. revert l El. induction modes as [|n modes IH]; intros l El m d I F; [destruct I|]. cbn in El. destruct (file n) as [b|] eqn:Fn; [|discriminate]. cbn [bind] in El. destruct (sm_complex true b) as [c|] eqn:Ec; [|discriminate]. cbn [bind] in El.
    destruct (mapM _ modes) as [l'|]; [|discriminate]. injection El as <-. destruct I as [-> | I].
    - exists c. split; [now left|]. rewrite F in Fn. injection Fn as <-. unfold sm_complex in Ec. destruct (a_shape d) as [|x [|y [|? ?]]]; try discriminate. injection Ec as <-. reflexivity.
    - destruct (IH l' eq_refl m d I F) as (c' & I' & S'). exists c'. split; [now right|exact S']. }
  unfold np_stack in Er. destruct l as [|c l]; [discriminate|]. destruct (same_shapes (a_shape c) (c :: l)) eqn:Es; [|discriminate].
  destruct (G m0 d0 I0 F0) as (c0 & J0 & <-). destruct (G m1 d1 I1 F1) as (c1 & J1 & <-). now rewrite (same_shapes_sound _ _ Es c0 J0), (same_shapes_sound _ _ Es c1 J1).
Qed.
(** which expansion the electric field gets *)
Lemma dataE_angles junk data raw M Nr Nz thetas : data = Ok raw -> a_shape raw = [Z.of_nat (2 * M + 1); Nr; Nz] -> thetas <> [] ->
  exists a, fb_dataE junk data (Some thetas) None = Ok a /\ a_shape a = [Nr; Z.of_nat (length thetas); Nz] /\ forall r k z t, nth_error thetas k = Some t -> a_at a [r; Z.of_nat k; z] = series_at raw M r z t.
Proof. intros -> E N. exact (naiv_ok raw M Nr Nz thetas E N). Qed.
Lemma dataE_default junk data raw M Nr Nz : data = Ok raw -> a_shape raw = [Z.of_nat (2 * M + 1); Nr; Nz] ->
  exists a, fb_dataE junk data None None = Ok a /\ a_shape a = [Nr; Z.of_nat (S M); Nz] /\ forall r k z, (k < S M)%nat -> a_at a [r; Z.of_nat k; z] = series_at raw M r z (angle (S M) k).
Proof.
  intros -> E. destruct (fb_fft_ok junk raw M Nr Nz None (S M) E eq_refl) as (b & B1 & B2 & B3). exists b. split; [exact B1|]. split; [exact B2|]. intros r k z _. rewrite B3, leak_none. ring.
Qed.
Lemma dataE_both : exists junk raw a, a_shape raw = [3; 1; 1]%Z /\ fb_dataE junk (Ok raw) (Some [PI]) (Some 2%Z) = Ok a /\ a_shape a = [1; 2; 1]%Z /\ a_at a [0; 0; 0]%Z <> series_at raw 1 0 0 PI.
Proof.
  set (raw := mkarr [3; 1; 1]%Z (fun i : list Z => IZR (hd 0%Z i))). destruct (fb_fft_ok (fun _ => C0) raw 1 1 1 (Some 2%Z) 2 eq_refl eq_refl) as (b & B1 & B2 & B3).
  exists (fun _ => C0), raw, b. split; [reflexivity|]. split; [exact B1|]. split; [exact B2|]. assert (Eb := B3 0%Z 0%nat 0%Z). change (Z.of_nat 0) with 0%Z in Eb. rewrite Eb, leak_zero by reflexivity.
  unfold angle, series_at, raw. cbn [rsum]. replace (2 * PI * INR 0 / INR 2) with 0 by (cbn; unfold Rdiv; ring). replace (INR 1 * PI) with PI by (cbn; ring). rewrite Rmult_0_r, cos_0, sin_0, cos_PI, sin_PI. cbn. lra.
Qed.
