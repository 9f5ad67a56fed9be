(** Propagation in k-space. *)
From Coq Require Import Reals String Ascii List ZArith Lia Lra Bool FunctionalExtensionality.
From Verif Require Import PyBase PyBaseFacts NumpyModel NdModel NdFacts FieldModel CplxModel CplxFacts FftModel FftSpec FftAxes FftKernel FftFacts FftLaws FftMore FftShift KspaceModel KspaceSpec KspaceFrame KspaceFacts KspaceTotal KspaceWave.
Import ListNotations.
Local Open Scope R_scope.

Lemma omega_frequency c axes idx : (length axes <= 3)%nat -> omega_free c axes idx = frequency c axes idx.
Proof. intro L. unfold omega_free, frequency. now rewrite k_squared_dot. Qed.
Lemma map_opt_id l s : map (fun p : nat * option R => option_map (fun x => x + INR 0 * 0) (snd p)) (combine (seq s (length l)) l) = l.
Proof. revert s. induction l as [|t l IH]; intro s; [reflexivity|]. cbn [length seq combine map snd]. rewrite IH. f_equal. destruct t; [cbn; f_equal; ring|reflexivity]. Qed.
Lemma tao_nth (h : nat -> option R -> option R) l : forall s a, nth_error (map (fun p => h (fst p) (snd p)) (combine (seq s (length l)) l)) a = option_map (h (s + a)%nat) (nth_error l a).
Proof. induction l as [|t l IH]; intros s a; [now destruct a|]. destruct a; cbn [length seq combine map nth_error fst snd option_map]; [now rewrite Nat.add_0_r|]. rewrite IH. now rewrite Nat.add_succ_comm. Qed.
Lemma advanced_0 c dt d f : advanced c dt d 0 f = f.
Proof.
  destruct f as [[sh at_] axes ats tao]. unfold advanced. cbn [rf_data rf_axes rf_ats rf_tao a_shape a_at]. f_equal.
  - f_equal. apply functional_extensionality. intro idx. rewrite Rmult_0_l, Ropp_0, cis_0. ring.
  - destruct d as [d|]; [|reflexivity]. apply nth_error_eq. intro a. rewrite (tao_nth (fun a => option_map (fun x => x + INR 0 * d a))). destruct (nth_error tao a) as [[x|]|]; cbn; [|reflexivity|reflexivity]. do 2 f_equal. ring.
Qed.
Lemma advanced_add c dt d i j f : advanced c dt d i (advanced c dt d j f) = advanced c dt d (j + i) f.
Proof.
  destruct f as [[sh at_] axes ats tao]. unfold advanced. cbn [rf_data rf_axes rf_ats rf_tao a_shape a_at]. f_equal.
  - f_equal. apply functional_extensionality. intro idx. rewrite plus_INR. replace (- ((INR j + INR i) * (frequency c axes idx * dt))) with (- (INR j * (frequency c axes idx * dt)) + - (INR i * (frequency c axes idx * dt))) by ring. rewrite cis_add. ring.
  - destruct d as [d|]; [|reflexivity]. apply nth_error_eq. intro a. rewrite !(tao_nth (fun a => option_map (fun x => x + INR _ * d a))). destruct (nth_error tao a) as [[x|]|]; cbn [option_map]; [|reflexivity|reflexivity]. do 2 f_equal. rewrite plus_INR. cbn [plus]. ring.
Qed.
(** one step of dt is a step of j dt in one *)
Lemma advanced_scale c dt d j f : advanced c dt d j f = advanced c (INR j * dt) (option_map (fun d a => INR j * d a) d) 1 f.
Proof.
  destruct f as [[sh at_] axes ats tao]. unfold advanced. cbn [rf_data rf_axes rf_ats rf_tao a_shape a_at]. f_equal.
  - f_equal. apply functional_extensionality. intro idx. f_equal. f_equal. cbn [INR]. ring.
  - destruct d as [d|]; [|reflexivity]. cbn [option_map]. apply map_ext. intros [a t]. cbn [fst snd]. destruct t; [|reflexivity]. cbn. f_equal. ring.
Qed.
Lemma advanced_inverse c dt d j f : advanced c (- dt) (option_map (fun d a => - d a) d) j (advanced c dt d j f) = f.
Proof.
  rewrite <- (advanced_0 c dt d f) at 2. destruct f as [[sh at_] axes ats tao]. unfold advanced. cbn [rf_data rf_axes rf_ats rf_tao a_shape a_at]. f_equal.
  - f_equal. apply functional_extensionality. intro idx. replace (Cmul (Cmul (at_ idx) (cis (- (INR j * (frequency c axes idx * dt))))) (cis (- (INR j * (frequency c axes idx * - dt))))) with (Cmul (at_ idx) (Cmul (cis (- (INR j * (frequency c axes idx * dt)))) (cis (- (INR j * (frequency c axes idx * - dt)))))) by ring.
    rewrite <- cis_add. do 2 f_equal. cbn [INR]. ring.
  - destruct d as [d|]; [|reflexivity]. cbn [option_map]. apply nth_error_eq. intro a. rewrite (tao_nth (fun a => option_map (fun x => x + INR j * - d a))), !(tao_nth (fun a => option_map (fun x => x + INR _ * d a))). destruct (nth_error tao a) as [[x|]|]; cbn [option_map]; [|reflexivity|reflexivity]. do 2 f_equal. cbn [plus INR]. ring.
Qed.
Lemma advanced_energy c dt d j f : energy (advanced c dt d j f) = energy f.
Proof. unfold energy, advanced. cbn [rf_data a_shape a_at]. apply total_ext. intros idx _. rewrite Cabs2_mul, Cabs2_cis. ring. Qed.

(** * The generator *)
Definition gen_of (c dt : R) (fftw : bool) (d : option (nat -> R)) (nd : nat) (axes : list raxis) (a : nat) : gen :=
  mkgen fftw (fun idx => cis (- (frequency c axes idx * dt))) (option_map (fun d => map (fun i => (Z.of_nat i, d i)) (seq 0 nd)) d) a.
Definition known (d : option (nat -> R)) (f : rfield) : Prop := d = None \/ forall a, (a < ndim f)%nat -> exists x, nth_error (rf_tao f) a = Some (Some x).
Lemma known_advanced c dt d j f : known d f -> known d (advanced c dt d j f).
Proof.
  intros [->|H]; [now left|]. right. intros a L. destruct d as [d|]; [|exact (H a L)]. unfold advanced. cbn [rf_tao]. destruct (H a L) as [x E]. rewrite (tao_nth (fun a => option_map (fun x => x + INR j * d a))), E. eexists. reflexivity.
Qed.
Lemma step_is c dt fftw d spl a k s : consistent k -> nth_error s a = Some k -> known d k ->
  prop_step spl (gen_of c dt fftw d (ndim k) (rf_axes k) a) s =
  (let s1 := s ++ [advanced c dt d 1 k] in let (s2, y) := (if fftw then fft_at spl (length s) else sret (length s)) s1 in
   (s2, rmap (fun y => (gen_of c dt fftw d (ndim k) (rf_axes k) (length s), y)) y)).
Proof.
  intros C H K. unfold prop_step, gen_of. cbn [g_cur g_phase g_window g_fft]. unfold sbind at 1, load at 1. rewrite H. unfold sbind at 1, alloc at 1.
  set (f1 := with_data k _).
  assert (Ed : forall tao, mkrf (rf_data f1) (rf_axes f1) (rf_ats f1) tao = mkrf (rf_data (advanced c dt d 1 k)) (rf_axes k) (rf_ats k) tao).
  { intro tao. unfold f1, with_data, advanced. cbn [rf_data rf_axes rf_ats a_shape a_at]. f_equal. f_equal. apply functional_extensionality. intro idx. cbn [INR]. now rewrite Rmult_1_l. }
  assert (L1 : nth_error (s ++ [f1]) (length s) = Some f1) by now rewrite nth_error_app2, Nat.sub_diag by lia.
  assert (Fin : (match option_map (fun d => map (fun i => (Z.of_nat i, d i)) (seq 0 (ndim k))) d with None => sret tt | Some w => st! f := load (length s) in st! tao := lift (move_origins (rf_tao f) w) in assign (length s) (mkrf (rf_data f) (rf_axes f) (rf_ats f) tao) end) (s ++ [f1]) = (s ++ [advanced c dt d 1 k], Ok tt)).
  { destruct d as [d|]; cbn [option_map].
    - unfold sbind, load, lift. rewrite L1. destruct K as [K|K]; [discriminate|].
      assert (TG' : exists x : nat -> R, forall c, In c (seq 0 (ndim k)) -> nth_error (rf_tao k) c = Some (Some (x c))).
      { exists (fun c => match nth_error (rf_tao k) c with Some (Some x) => x | _ => 0 end). intros i I. apply in_seq in I. destruct (K i) as [x E]; [lia|]. now rewrite E. }
      destruct TG' as (x & Hx). change (rf_tao f1) with (rf_tao k). destruct (move_ok d (seq 0 (ndim k)) (rf_tao k) x (seq_NoDup _ _) Hx) as (tao & Em & Lt & Ht). rewrite Em. unfold assign. rewrite Ed. f_equal.
      replace tao with (rf_tao (advanced c dt (Some d) 1 k)).
      + change (mkrf _ _ _ _) with (advanced c dt (Some d) 1 k). clear. induction s as [|z s IH]; [reflexivity|]. cbn [app length upd]. now rewrite IH.
      + apply nth_error_eq. intro i. unfold advanced. cbn [rf_tao]. rewrite (tao_nth (fun a => option_map (fun x => x + INR 1 * d a))), Ht. destruct (is_named (seq 0 (ndim k)) i) eqn:Ei.
        * apply is_named_In in Ei. rewrite (Hx i Ei). cbn [option_map INR plus]. do 2 f_equal. ring.
        * destruct (nth_error (rf_tao k) i) eqn:En; [|reflexivity]. exfalso. assert (i < length (rf_tao k))%nat by (apply nth_error_Some; congruence). rewrite (c_tao k C) in *. assert (is_named (seq 0 (ndim k)) i = true) by (apply is_named_In, in_seq; lia). congruence.
    - unfold sret. f_equal. f_equal. f_equal. specialize (Ed (rf_tao k)). exact Ed. }
  unfold sbind at 1. rewrite Fin. unfold sbind at 1. unfold shown. cbn [g_fft]. cbv zeta. destruct fftw.
  - destruct (fft_at spl (length s) (s ++ [advanced c dt d 1 k])) as [s2 [y|e]]; reflexivity.
  - reflexivity.
Qed.
Definition seen (spl : rspline) (fftw : bool) (f r : rfield) : Prop := if fftw then fft spl false false f (all_dims f) = Ok r else r = f.
Lemma advanced_consistent c dt d j f : consistent f -> consistent (advanced c dt d j f).
Proof. intros [A1 A2 A3 A4]. split; unfold advanced, ndim in *; cbn [rf_axes rf_ats rf_tao rf_data a_shape]; try assumption. destruct d; [|assumption]. rewrite map_length, combine_length, seq_length, Nat.min_id. exact A3. Qed.
Lemma steps_ok c dt fftw d spl : forall n s a k, consistent k -> nth_error s a = Some k -> known d k -> (forall j, exists r, seen spl fftw (advanced c dt d j k) r) ->
  exists s' ys, prop_steps spl n (gen_of c dt fftw d (ndim k) (rf_axes k) a) s = (s', Ok ys) /\ length ys = n /\ (length s <= length s')%nat /\ (forall b, (b < length s)%nat -> nth_error s' b = nth_error s b) /\
    forall j, (j < n)%nat -> exists y r, nth_error ys j = Some y /\ (length s <= y)%nat /\ nth_error s' y = Some r /\ seen spl fftw (advanced c dt d (S j) k) r.
Proof.
  induction n as [|n IH]; intros s a k C H K F.
  - exists s, []. split; [reflexivity|]. split; [reflexivity|]. split; [lia|]. split; [reflexivity|]. intros j Hj. lia.
  - cbn [prop_steps]. unfold sbind at 1. rewrite (step_is c dt fftw d spl a k s C H K). cbv zeta. set (k1 := advanced c dt d 1 k).
    assert (H1 : nth_error (s ++ [k1]) (length s) = Some k1) by now rewrite nth_error_app2, Nat.sub_diag by lia.
    assert (E : exists s2 y r, (if fftw then fft_at spl (length s) else sret (length s)) (s ++ [k1]) = (s2, Ok y) /\ (length s <= y)%nat /\ nth_error s2 y = Some r /\ seen spl fftw k1 r /\ (length (s ++ [k1]) <= length s2)%nat /\ forall b, (b < length (s ++ [k1]))%nat -> nth_error s2 b = nth_error (s ++ [k1]) b).
    { destruct (F 1%nat) as [r Er]. fold k1 in Er. destruct fftw.
      - unfold fft_at, sbind, load, lift, alloc. rewrite H1. unfold seen in Er. rewrite Er. do 2 eexists. exists r. split; [reflexivity|]. rewrite !app_length. cbn [length]. split; [lia|]. split; [rewrite nth_error_app2, app_length by (rewrite ?app_length; cbn; lia); cbn [length]; now rewrite Nat.sub_diag|]. split; [exact Er|]. split; [lia|]. intros b Lb. rewrite nth_error_app1; [reflexivity|rewrite app_length; cbn; lia].
      - exists (s ++ [k1]), (length s), k1. split; [reflexivity|]. split; [lia|]. split; [exact H1|]. split; [reflexivity|]. split; [lia|reflexivity]. }
    destruct E as (s2 & y & r & Ey & Ly & Hy & Sy & L2 & F2). rewrite Ey. cbn [rmap]. unfold sbind at 1. rewrite app_length in L2, F2. cbn [length] in L2, F2.
    destruct (IH s2 (length s) k1) as (s' & ys & Es & Len & L3 & F3 & Hj).
    + now apply advanced_consistent.
    + rewrite F2 by lia. exact H1.
    + now apply known_advanced.
    + intro j. unfold k1. rewrite advanced_add. apply F.
    + cbn [fst snd]. change (ndim k) with (ndim k1). change (rf_axes k) with (rf_axes k1). rewrite Es. exists s', (y :: ys). split; [reflexivity|]. cbn [length]. split; [lia|]. split; [lia|].
      split; [intros b Lb; rewrite F3, F2, nth_error_app1; [reflexivity|lia|lia|lia]|].
      intros [|j] L; cbn [nth_error].
      * exists y, r. split; [reflexivity|]. split; [exact Ly|]. split; [|exact Sy]. rewrite F3; [exact Hy|]. apply nth_error_Some. congruence.
      * destruct (Hj j) as (y' & r' & A1 & A2 & A3 & A4); [lia|]. exists y', r'. split; [exact A1|]. split; [lia|]. split; [exact A3|]. unfold k1 in A4. rewrite advanced_add in A4. exact A4.
Qed.
(** * The arguments *)
Lemma sum_pos v : (exists x, In x v /\ x <> 0) -> 0 < fold_right Rplus 0 (map (fun x => x * x) v).
Proof.
  assert (P : forall v, 0 <= fold_right Rplus 0 (map (fun x => x * x) v)) by (induction v0 as [|y v0 IHv]; cbn; [lra|nra]).
  induction v as [|y v IH]; intros (x & I & N); [contradiction|]. cbn. specialize (P v). destruct I as [-> |I]; [assert (0 < x * x) by nra; lra|]. assert (0 < fold_right Rplus 0 (map (fun x => x * x) v)) by (apply IH; eauto). nra.
Qed.
Lemma norm2_is v : norm2 v = sqrt (fold_right Rplus 0 (map (fun x => x * x) v)).
Proof. unfold norm2. do 2 f_equal. apply map_ext. intro. ring. Qed.
Lemma norm2_pos v : (exists x, In x v /\ x <> 0) -> 0 < norm2 v.
Proof. intro H. rewrite norm2_is. apply sqrt_lt_R0. now apply sum_pos. Qed.
Lemma combine_seq {A} (h : A -> R) (v : list A) : combine (zrange (Z.of_nat (length v))) (map h v) = map (fun p => (Z.of_nat (fst p), h (snd p))) (combine (seq 0 (length v)) v).
Proof.
  unfold zrange. rewrite Nat2Z.id. generalize 0%nat as b. induction v as [|x v IH]; intro b; [reflexivity|]. cbn [length seq map combine fst snd]. now rewrite IH.
Qed.
Lemma seq_pairs {B} (h : nat -> R -> B) (v : list R) : map (fun p => h (fst p) (snd p)) (combine (seq 0 (length v)) v) = map (fun i => h i (nth i v 0)) (seq 0 (length v)).
Proof.
  assert (G : forall b, map (fun p => h (fst p) (snd p)) (combine (seq b (length v)) v) = map (fun i => h i (nth (i - b) v 0)) (seq b (length v))).
  { induction v as [|x v IH]; intro b; [reflexivity|]. cbn [length seq combine map fst snd]. rewrite Nat.sub_diag. cbn [nth]. f_equal. rewrite IH. apply map_ext_in. intros i I. apply in_seq in I. replace (i - b)%nat with (S (i - S b)) by lia. reflexivity. }
  rewrite G. apply map_ext. intro i. now rewrite Nat.sub_0_r.
Qed.
Lemma against v axes idx : 0 < norm2 v ->
  Rltb (fold_right Rplus 0 (map (fun q => snd q * mesh axes (fst q) idx) (combine (zrange (Z.of_nat (length (unit_vector v)))) (unit_vector v)))) 0 = Rltb (along v (wave_vector axes idx)) 0.
Proof.
  intro P. unfold unit_vector at 1. rewrite map_length. unfold unit_vector. rewrite (combine_seq (fun x => x / norm2 v)), map_map. cbn [fst snd].
  assert (E : fold_right Rplus 0 (map (fun p : nat * R => snd p / norm2 v * mesh axes (Z.of_nat (fst p)) idx) (combine (seq 0 (length v)) v)) = along v (wave_vector axes idx) / norm2 v).
  { unfold along. generalize (combine (seq 0 (length v)) v) as l. induction l as [|[i x] l IH]; cbn [map fold_right fst snd]; [unfold Rdiv; ring|]. rewrite IH, mesh_wave. field. lra. }
  rewrite E. destruct (Rlt_or_le (along v (wave_vector axes idx)) 0) as [L|L].
  - rewrite !Rltb_true; [reflexivity|exact L|]. assert (0 < / norm2 v) by now apply Rinv_0_lt_compat. unfold Rdiv. nra.
  - rewrite !Rltb_false; [reflexivity|exact L|]. assert (0 < / norm2 v) by now apply Rinv_0_lt_compat. unfold Rdiv. nra.
Qed.
Lemma start_ok c spl p a s f st s1 a1 k : rstate (rf_ats f) (all_dims f) = Ok (Some st) -> nth_error s a = Some f -> (if st then sret a else fft_at spl a) s = (s1, Ok a1) -> nth_error s1 a1 = Some k -> consistent k -> dims (a_shape (rf_data k)) = Z.of_nat (ndim k) -> sensible p (ndim k) ->
  exists s2 a2, prop_start c spl p a s = (s2, Ok (gen_of c (p_dt p) (negb st) (moves c p) (ndim k) (rf_axes k) a2)) /\ nth_error s2 a2 = Some (start_of p k) /\
    (length s1 <= length s2)%nat /\ (forall b, (b < length s1)%nat -> nth_error s2 b = nth_error s1 b) /\ (removes p = None -> a2 = a1).
Proof.
  intros Rs Hf E1 Hk C Hd Se. unfold prop_start. unfold sbind at 1, load at 1. rewrite Hf. unfold sbind at 1, lift at 1. rewrite Rs. unfold sbind at 1. rewrite E1. unfold sbind at 1, load at 1. rewrite Hk.
  assert (Lax : (length (rf_axes k) <= 3)%nat) by (rewrite (c_axes k C); apply C).
  assert (Ph : (fun idx => cis (- (omega_free c (rf_axes k) idx * p_dt p))) = (fun idx => cis (- (frequency c (rf_axes k) idx * p_dt p)))) by (apply functional_extensionality; intro; now rewrite omega_frequency).
  cbv zeta. rewrite Ph. unfold sensible in Se. unfold gen_of, moves, removes, start_of, removes. destruct (p_vect p) as [v|].
  - destruct Se as [Lv Nv]. assert (P := norm2_pos v Nv). rewrite Lv, Hd, Z.eqb_refl. cbn [negb]. destruct (Req_EM_T (norm2 v) 0) as [Z|_]; [lra|]. unfold sbind at 1, sret at 1.
    assert (Ew : combine (zrange (Z.of_nat (length (unit_vector v)))) (map (fun x => c * p_dt p * x) (unit_vector v)) = map (fun i => (Z.of_nat i, c * p_dt p * (nth i v 0 / sqrt (fold_right Rplus 0 (map (fun x => x * x) v))))) (seq 0 (ndim k))).
    { unfold unit_vector. rewrite map_length, map_map, (combine_seq (fun x => c * p_dt p * (x / norm2 v))), (seq_pairs (fun i x => (Z.of_nat i, c * p_dt p * (x / norm2 v)))), Lv. apply map_ext. intro i. now rewrite <- norm2_is. }
    assert (El : with_data k (mkarr (a_shape (rf_data k)) (fun idx => if Rltb (fold_right Rplus 0 (map (fun q => snd q * mesh (rf_axes k) (fst q) idx) (combine (zrange (Z.of_nat (length (unit_vector v)))) (unit_vector v)))) 0 then C0 else a_at (rf_data k) idx)) = only_along v k).
    { unfold with_data, only_along. f_equal. f_equal. apply functional_extensionality. intro idx. now rewrite against. }
    assert (Rem : (if match p_remove p with Some _ => truth (p_remove p) | None => true end then alloc (only_along v k) else sret a1) s1 = (match p_remove p with Some false => (s1, Ok a1) | _ => (s1 ++ [only_along v k], Ok (length s1)) end)) by (destruct (p_remove p) as [[|]|]; reflexivity).
    rewrite El. unfold sbind at 1. rewrite Rem.
    assert (Ww : (if match p_move p with Some _ => truth (p_move p) | None => true end then Some (combine (zrange (Z.of_nat (length (unit_vector v)))) (map (fun x => c * p_dt p * x) (unit_vector v))) else None) = option_map (fun d : nat -> R => map (fun i => (Z.of_nat i, d i)) (seq 0 (ndim k))) (match p_move p with Some false => None | _ => Some (fun a => c * p_dt p * (nth a v 0 / sqrt (fold_right Rplus 0 (map (fun x => x * x) v)))) end)) by (rewrite Ew; destruct (p_move p) as [[|]|]; reflexivity).
    rewrite Ww. assert (HL : nth_error (s1 ++ [only_along v k]) (length s1) = Some (only_along v k)) by now rewrite nth_error_app2, Nat.sub_diag by lia.
    destruct (p_remove p) as [[|]|]; (do 2 eexists; split; [reflexivity|]); try (split; [exact HL|]; rewrite app_length; split; [cbn; lia|]; split; [intros b Lb; now rewrite nth_error_app1|discriminate]).
    split; [exact Hk|]. split; [lia|]. split; reflexivity.
  - destruct Se as [N1 N2]. unfold sbind at 1, sret at 1. assert (T1 : truth (p_remove p) = false) by (destruct (p_remove p) as [[|]|]; [congruence|reflexivity|reflexivity]). assert (T2 : truth (p_move p) = false) by (destruct (p_move p) as [[|]|]; [congruence|reflexivity|reflexivity]).
    rewrite T1, T2. do 2 eexists. split; [reflexivity|]. split; [exact Hk|]. split; [lia|]. split; reflexivity.
Qed.
(** * Together *)
Lemma start_consistent p f : consistent f -> consistent (start_of p f).
Proof. intros [A1 A2 A3 A4]. unfold start_of. destruct (removes p); split; assumption. Qed.
Lemma start_ndim p f : ndim (start_of p f) = ndim f.
Proof. unfold start_of. now destruct (removes p). Qed.
Lemma start_axes p f : rf_axes (start_of p f) = rf_axes f.
Proof. unfold start_of. now destruct (removes p). Qed.
Lemma start_tao p f : rf_tao (start_of p f) = rf_tao f.
Proof. unfold start_of. now destruct (removes p). Qed.
Lemma run_ok c spl p a s f st s1 a1 k n : rstate (rf_ats f) (all_dims f) = Ok (Some st) -> nth_error s a = Some f -> (if st then sret a else fft_at spl a) s = (s1, Ok a1) -> (length s <= length s1)%nat -> (forall b, (b < length s)%nat -> nth_error s1 b = nth_error s b) ->
  nth_error s1 a1 = Some k -> consistent k -> dims (a_shape (rf_data k)) = Z.of_nat (ndim k) -> sensible p (ndim k) -> window_ok c p k -> (forall j, exists r, seen spl (negb st) (advanced c (p_dt p) (moves c p) j (start_of p k)) r) ->
  exists s' ys, prop_run c spl p n a s = (s', Ok ys) /\ length ys = n /\ (forall b, (b < length s)%nat -> nth_error s' b = nth_error s b) /\
    forall j, (j < n)%nat -> exists y r, nth_error ys j = Some y /\ nth_error s' y = Some r /\ seen spl (negb st) (advanced c (p_dt p) (moves c p) (if p_zeroth p then j else S j) (start_of p k)) r /\
      ((0 < j)%nat \/ p_zeroth p = false -> (length s <= y)%nat) /\ (j = 0%nat -> p_zeroth p = true -> st = true -> removes p = None -> y = a1).
Proof.
  intros Rs Hf E1 L1 F1 Hk C Hd Se Wi Fs. destruct n as [|m]; [exists s, []; repeat split; lia|].
  destruct (start_ok c spl p a s f st s1 a1 k Rs Hf E1 Hk C Hd Se) as (s2 & a2 & E2 & H2 & L2 & F2 & Own). unfold prop_run. unfold sbind at 1. rewrite E2.
  assert (C' := start_consistent p k C). assert (K : known (moves c p) (start_of p k)) by (destruct Wi as [W|W]; [now left|]; right; rewrite start_ndim, start_tao; exact W).
  assert (Wd : forall n g u, g_window g = option_map (fun d : nat -> R => map (fun i => (Z.of_nat i, d i)) (seq 0 (ndim k))) (moves c p) ->
     (match n with O => sret [] | S _ => match g_window g, p_vect p with Some _, None => lift (Err ValueError) | _, _ => prop_steps spl n g end end) u = prop_steps spl n g u).
  { intros [|n] g u Eg; [reflexivity|]. rewrite Eg. unfold moves. destruct (p_vect p); [|reflexivity]. destruct (p_move p) as [[|]|]; reflexivity. }
  rewrite <- (start_ndim p k) in *. rewrite <- (start_axes p k) in *. destruct (p_zeroth p).
  - assert (EZ : exists s3 y r, shown spl (gen_of c (p_dt p) (negb st) (moves c p) (ndim (start_of p k)) (rf_axes (start_of p k)) a2) a2 s2 = (s3, Ok y) /\ nth_error s3 y = Some r /\ seen spl (negb st) (start_of p k) r /\ (length s2 <= length s3)%nat /\ (forall b, (b < length s2)%nat -> nth_error s3 b = nth_error s2 b) /\ (st = true -> y = a2)).
    { unfold shown, gen_of. cbn [g_fft]. destruct (Fs 0%nat) as [r Er]. rewrite advanced_0 in Er. destruct st; cbn [negb] in *.
      - exists s2, a2, r. split; [reflexivity|]. cbn in Er. subst r. split; [exact H2|]. split; [reflexivity|]. split; [lia|]. split; reflexivity.
      - unfold fft_at, sbind, load, lift, alloc. rewrite H2. unfold seen in Er. rewrite Er. exists (s2 ++ [r]), (length s2), r. split; [reflexivity|]. split; [now rewrite nth_error_app2, Nat.sub_diag by lia|]. split; [exact Er|]. rewrite app_length. cbn. split; [lia|]. split; [intros; now rewrite nth_error_app1|discriminate]. }
    destruct EZ as (s3 & y & r & Es & Hy & Sy & L3 & F3 & Oy). unfold sbind at 1. unfold sbind at 1. change (g_cur (gen_of _ _ _ _ _ _ a2)) with a2. rewrite Es. unfold sret at 1. cbv beta iota zeta. unfold sbind at 1. rewrite Wd by reflexivity.
    destruct (steps_ok c (p_dt p) (negb st) (moves c p) spl m s3 a2 (start_of p k) C') as (s4 & ys & Ey & Len & L4 & F4 & Hj); [rewrite F3; [exact H2|apply nth_error_Some; congruence]|exact K|exact Fs|].
    rewrite Ey. exists s4, (y :: ys). split; [reflexivity|]. cbn [length]. split; [lia|]. split; [intros b Lb; rewrite F4, F3, F2, F1; auto; lia|].
    intros [|j] L; cbn [nth_error].
    + exists y, r. split; [reflexivity|]. split; [rewrite F4; [exact Hy|apply nth_error_Some; congruence]|]. split; [now rewrite advanced_0|]. split; [intros [?|?]; [lia|discriminate]|]. intros _ _ Hst Hrm. rewrite Oy by exact Hst. now apply Own.
    + destruct (Hj j) as (y' & r' & A1 & A2 & A3 & A4); [lia|]. exists y', r'. split; [exact A1|]. split; [exact A3|]. split; [exact A4|]. split; [lia|lia].
  - unfold sbind at 1, sret at 1. cbv beta iota zeta. unfold sbind at 1. match goal with |- context [prop_steps spl (S m) ?g] => assert (W' := Wd (S m) g s2 eq_refl) end. cbv beta iota in W'. rewrite W'.
    destruct (steps_ok c (p_dt p) (negb st) (moves c p) spl (S m) s2 a2 (start_of p k) C' H2 K Fs) as (s4 & ys & Ey & Len & L4 & F4 & Hj). rewrite Ey. exists s4, ys. split; [reflexivity|]. split; [exact Len|]. split; [intros b Lb; rewrite F4, F2, F1; auto; lia|].
    intros j L. destruct (Hj j L) as (y' & r' & A1 & A2 & A3 & A4). exists y', r'. split; [exact A1|]. split; [exact A3|]. split; [exact A4|]. split; [lia|discriminate].
Qed.
Lemma wf_dims f : wellformed f -> dims (a_shape (rf_data f)) = Z.of_nat (ndim f).
Proof.
  intros (C & (U & G) & P & _). assert (H := all_dims_grid f U G). unfold all_dims, dims in *. destruct (zprod (a_shape (rf_data f)) =? 0)%Z; [|reflexivity]. exfalso. destruct (ndim f); [lia|discriminate H].
Qed.
Lemma wf_state f b : wellformed f -> all_in b f -> rstate (rf_ats f) (all_dims f) = Ok (Some b).
Proof. intros (C & (U & G) & P & _) A. rewrite (all_dims_grid f U G). apply rstate_nat; [destruct (ndim f); [lia|discriminate]|exact A]. Qed.
Lemma propagate_freq c spl p n a s f : wellformed f -> all_in true f -> nth_error s a = Some f -> sensible p (ndim f) -> window_ok c p f ->
  exists s' ys, prop_run c spl p n a s = (s', Ok ys) /\ length ys = n /\ (forall b, (b < length s)%nat -> nth_error s' b = nth_error s b) /\
    forall j, (j < n)%nat -> exists y, nth_error ys j = Some y /\ nth_error s' y = Some (advanced c (p_dt p) (moves c p) (if p_zeroth p then j else S j) (start_of p f)) /\
      ((0 < j)%nat \/ p_zeroth p = false -> (length s <= y)%nat) /\ (j = 0%nat -> p_zeroth p = true -> removes p = None -> y = a).
Proof.
  intros Wf A H Se Wi. assert (C := proj1 Wf).
  destruct (run_ok c spl p a s f true s a f n (wf_state f true Wf A) H eq_refl (le_n _) (fun b _ => eq_refl) H C (wf_dims f Wf) Se Wi) as (s' & ys & E & L & F & Hj); [intro j; eexists; reflexivity|].
  exists s', ys. split; [exact E|]. split; [exact L|]. split; [exact F|]. intros j Lj. destruct (Hj j Lj) as (y & r & A1 & A2 & A3 & A4 & A5). cbn in A3. subst r. exists y. split; [exact A1|]. split; [exact A2|]. split; [exact A4|]. auto.
Qed.
Lemma fft_full spl f st U : linear_spline spl -> consistent f -> (0 < ndim f)%nat -> on_grid f (seq 0 (ndim f)) U -> all_in st f ->
  exists F, fft spl false false f (all_dims f) = Ok F /\ ndim F = ndim f /\ consistent F /\ a_shape (rf_data F) = a_shape (rf_data f) /\ on_grid F (seq 0 (ndim f)) (VV f U) /\ all_in (negb st) F /\ (forall a, (a < ndim f)%nat -> nth_error (rf_tao F) a = Some (Some (u_x0 (U a)))) /\
    energy F * volume (VV f U) (seq 0 (ndim f)) = energy f * volume U (seq 0 (ndim f)).
Proof.
  intros Sp C P G A. rewrite (all_dims_grid f U G).
  destruct (fft_named spl false false f (map Z.of_nat (seq 0 (ndim f))) (seq 0 (ndim f)) U st Sp C) as (F & EF & T); [destruct (ndim f); [lia|discriminate]|exact G|exact A|intro; apply iff_refl|].
  assert (EN : named (ndim f) (seq 0 (ndim f)) = seq 0 (ndim f)).
  { unfold named. assert (H : forall l, (forall a, In a l -> In a (seq 0 (ndim f))) -> filter (fun a => existsb (Nat.eqb a) (seq 0 (ndim f))) l = l).
    { induction l as [|a l IH]; intro H; [reflexivity|]. cbn [filter]. replace (existsb (Nat.eqb a) (seq 0 (ndim f))) with true by (symmetry; apply (is_named_In (seq 0 (ndim f)) a), H; now left). now rewrite IH by (intros; apply H; now right). }
    now apply H. }
  rewrite EN in T. exists F. split; [exact EF|]. assert (NF := T_ndim f F _ U st false false T). split; [exact NF|]. split; [exact (T_consistent f F _ U st false false C T)|]. split; [exact (t_shape _ _ _ _ _ _ _ T)|].
  split; [exact (T_grid f F _ U st false false G T)|]. split; [intros a I; rewrite NF in I; exact (T_state f F _ U st false false T a I)|].
  split; [intros a L; rewrite (t_tao _ _ _ _ _ _ _ T); replace (is_named (seq 0 (ndim f)) a) with true by (symmetry; apply is_named_In, in_seq; lia); reflexivity|].
  unfold energy. rewrite (t_shape _ _ _ _ _ _ _ T). rewrite (total_ext _ _ _ (fun idx I => f_equal Cabs2 (t_data _ _ _ _ _ _ _ T idx I))). apply energy_kops.
  intros a I. split; [exact (dim_lt f _ U G a I)|]. split; [exact (proper_at f _ U G a I)|exact (shape_at f _ U G a I)].
Qed.
Lemma volume_pos U axes : (forall a, In a axes -> proper (U a)) -> 0 < volume U axes.
Proof. intro H. apply fold_pos. intros a I. apply (H a I). Qed.
Lemma volume_ext U V axes : (forall a, In a axes -> u_dx (U a) = u_dx (V a)) -> volume U axes = volume V axes.
Proof. intro H. unfold volume. f_equal. now apply map_ext_in. Qed.
Lemma propagate_space c spl p n a s f : linear_spline spl -> wellformed f -> all_in false f -> nth_error s a = Some f -> sensible p (ndim f) ->
  exists F s' ys, fft spl false false f (all_dims f) = Ok F /\ prop_run c spl p n a s = (s', Ok ys) /\ length ys = n /\ (forall b, (b < length s)%nat -> nth_error s' b = nth_error s b) /\
    forall j, (j < n)%nat -> exists y r, nth_error ys j = Some y /\ nth_error s' y = Some r /\ fft spl false false (advanced c (p_dt p) (moves c p) (if p_zeroth p then j else S j) (start_of p F)) (all_dims F) = Ok r /\
      all_in false r /\ (removes p = None -> energy r = energy f).
Proof.
  intros Sp Wf A H Se. destruct Wf as (C & (U & G) & P & Hb). assert (Wf : wellformed f) by (split; [exact C|]; split; [exists U; exact G|]; split; assumption).
  destruct (fft_full spl f false U Sp C P G A) as (F & EF & NF & CF & ShF & GF & AF & TF & En).
  assert (Wi : window_ok c p F) by (right; intros b L; rewrite NF in L; eexists; now apply TF).
  assert (GA : forall j, let g := advanced c (p_dt p) (moves c p) j (start_of p F) in consistent g /\ ndim g = ndim f /\ on_grid g (seq 0 (ndim f)) (VV f U) /\ all_in true g /\ all_dims g = all_dims F /\ (forall b, (b < ndim f)%nat -> exists x, nth b (rf_tao g) None = Some x)).
  { intros j g. assert (Ng : ndim g = ndim f) by (unfold g; transitivity (ndim (start_of p F)); [reflexivity|]; rewrite start_ndim; exact NF).
    assert (Sg : a_shape (rf_data g) = a_shape (rf_data F)) by (unfold g, advanced; cbn [rf_data a_shape]; unfold start_of; now destruct (removes p)).
    assert (Xg : rf_axes g = rf_axes F) by (unfold g, advanced; cbn [rf_axes]; apply start_axes). assert (Tg : rf_ats g = rf_ats F) by (unfold g, advanced; cbn [rf_ats]; unfold start_of; now destruct (removes p)).
    split; [apply advanced_consistent, start_consistent, CF|]. split; [exact Ng|]. split; [intros b I; destruct (GF b I) as (ax & Q1 & Q2 & Q3); exists ax; rewrite Xg, Sg; auto|]. split; [intros b I; rewrite Tg; apply AF; rewrite NF, <- Ng; exact I|].
    split; [unfold all_dims; now rewrite Sg|]. intros b L. assert (K : known (moves c p) g) by (apply known_advanced; destruct Wi as [W|W]; [now left|right; rewrite start_ndim, start_tao; exact W]).
    destruct K as [K|K]; [|destruct (K b) as [x Ex]; [lia|exists x; now apply nth_error_nth]]. unfold g, advanced. rewrite K. cbn [rf_tao]. rewrite start_tao. eexists. apply nth_error_nth. now apply TF. }
  assert (Fg : forall j, exists r, fft spl false false (advanced c (p_dt p) (moves c p) j (start_of p F)) (all_dims F) = Ok r /\ all_in false r /\ (removes p = None -> energy r = energy f)).
  { intro j. destruct (GA j) as (Cg & Ng & Gg & Ag & Dg & Tg). cbv zeta in *. set (g := advanced c (p_dt p) (moves c p) j (start_of p F)) in *.
    destruct (fft_full spl g true (VV f U) Sp Cg) as (r & Er & Nr & Cr & Shr & Gr & Ar & Tr & Enr); [lia|now rewrite Ng|exact Ag|]. exists r. rewrite <- Dg. split; [exact Er|]. split; [exact Ar|]. intro Rm. rewrite Ng in Enr.
    assert (Eg : energy g = energy F) by (unfold g; rewrite advanced_energy; unfold start_of; now rewrite Rm).
    assert (Ev : volume (VV g (VV f U)) (seq 0 (ndim f)) = volume U (seq 0 (ndim f))).
    { apply volume_ext. intros b I. unfold VV at 1. apply in_seq in I. destruct (Tg b) as [x Ex]; [lia|]. rewrite Ex. unfold VV. rewrite dual_moved; [reflexivity|]. destruct (G b) as (ax & _ & (_ & _ & Pr) & _); [apply in_seq; lia|]. exact Pr. }
    rewrite Ev, Eg, En in Enr. apply Rmult_eq_reg_r in Enr; [exact Enr|]. apply Rgt_not_eq, volume_pos. intros b I. destruct (G b I) as (ax & _ & (_ & _ & Pr) & _). exact Pr. }
  assert (Hs : (if false then sret a else fft_at spl a) s = (s ++ [F], Ok (length s))) by (unfold fft_at, sbind, load, lift, alloc; now rewrite H, EF).
  assert (WF : dims (a_shape (rf_data F)) = Z.of_nat (ndim F)) by (rewrite ShF, NF; now apply wf_dims).
  destruct (run_ok c spl p a s f false (s ++ [F]) (length s) F n (wf_state f false Wf A) H Hs) as (s' & ys & E & L & Fr & Hj).
  - rewrite app_length. lia.
  - intros b Lb. now rewrite nth_error_app1.
  - now rewrite nth_error_app2, Nat.sub_diag by lia.
  - exact CF.
  - exact WF.
  - now rewrite NF.
  - exact Wi.
  - intro j. destruct (Fg j) as (r & Er & _). exists r. cbn [negb seen]. destruct (GA j) as (_ & _ & _ & _ & Dg & _). cbv zeta in Dg. rewrite Dg. exact Er.
  - exists F, s', ys. split; [exact EF|]. split; [exact E|]. split; [exact L|]. split; [exact Fr|]. intros j Lj. destruct (Hj j Lj) as (y & r & A1 & A2 & A3 & _). exists y, r. split; [exact A1|]. split; [exact A2|].
    set (jj := if p_zeroth p then j else S j) in *. destruct (GA jj) as (_ & _ & _ & _ & Dg & _). cbv zeta in Dg. cbn [negb seen] in A3. rewrite Dg in A3. split; [exact A3|]. destruct (Fg jj) as (r' & Er' & X). rewrite A3 in Er'. injection Er' as <-. exact X.
Qed.
