(** The iterative time profile: lemmas. *)
From Coq Require Import Reals String Ascii List ZArith Lia Lra Bool.
From Verif Require Import PyBase PyBaseFacts NumpyModel NdModel NdFacts FieldModel FieldGridFacts CplxModel CplxFacts FftModel FftSpec FftAxes FftKernel FftFacts FftLaws FftMore KspaceModel KspaceSpec KspaceFrame KspaceFacts KspaceProp TimeModel TimeSpec.
Import ListNotations.
Local Open Scope R_scope.

(** * Small things *)
Lemma identify_nat b : (b < 3)%nat -> axesidentify (Z.of_nat b) = Ok (Z.of_nat b).
Proof. intro L. destruct b as [|[|[|]]]; try lia; reflexivity. Qed.
Lemma mod90 b : (b < 3)%nat -> (Z.of_nat b mod 90)%Z = Z.of_nat b.
Proof. intro L. apply Z.mod_small. lia. Qed.
Lemma existsb_nat b l : existsb (Z.eqb (Z.of_nat b)) (map Z.of_nat l) = existsb (Nat.eqb b) l.
Proof. induction l as [|a l IH]; [reflexivity|]. cbn [map existsb]. rewrite IH. f_equal. destruct (Nat.eqb_spec b a) as [->|N]; [apply Z.eqb_refl|]. apply Z.eqb_neq. lia. Qed.
Lemma others_ok nd b : (b < nd)%nat -> others_of (map Z.of_nat (seq 0 nd)) (Z.of_nat b) = Ok (map Z.of_nat (other_dims nd b)).
Proof.
  intro L. unfold others_of. rewrite existsb_nat. assert (I : existsb (Nat.eqb b) (seq 0 nd) = true) by (apply existsb_exists; exists b; split; [apply in_seq; lia|apply Nat.eqb_refl]). rewrite I. f_equal. unfold other_dims.
  generalize (seq 0 nd) as l. clear. induction l as [|a l IH]; [reflexivity|]. cbn [map filter]. rewrite IH. replace (Z.of_nat a =? Z.of_nat b)%Z with (Nat.eqb a b) by (destruct (Nat.eqb_spec a b) as [->|N]; [symmetry; apply Z.eqb_refl|symmetry; apply Z.eqb_neq; lia]). now destruct (Nat.eqb a b).
Qed.
Lemma others_refused nd b : ~ (b < nd)%nat -> others_of (map Z.of_nat (seq 0 nd)) (Z.of_nat b) = Err ValueError.
Proof.
  intro L. unfold others_of. rewrite existsb_nat. destruct (existsb (Nat.eqb b) (seq 0 nd)) eqn:E; [|reflexivity]. apply existsb_exists in E as (x & I & E). apply in_seq in I. apply Nat.eqb_eq in E. lia.
Qed.
Lemma vect_from dir : forall nd b s t, upd (map (fun _ : nat => 0) (seq t nd)) b dir = map (fun a => if Nat.eqb a (s + b) then dir else 0) (seq s nd).
Proof.
  induction nd as [|nd IH]; intros b s t; [destruct b; reflexivity|]. cbn [seq map]. destruct b as [|b]; cbn [upd].
  - rewrite Nat.add_0_r, Nat.eqb_refl. f_equal. transitivity (map (fun _ : nat => 0) (seq (S s) nd)); [|apply map_ext_in; intros a I; apply in_seq in I; destruct (Nat.eqb_spec a s); [lia|reflexivity]].
    generalize (S s) (S t). clear. induction nd as [|nd IH]; intros s t; [reflexivity|]. cbn. now rewrite (IH (S s)).
  - destruct (Nat.eqb_spec s (s + S b)); [lia|]. f_equal. rewrite (IH b (S s)). apply map_ext. intro a. now replace (S s + b)%nat with (s + S b)%nat by lia.
Qed.
Lemma vect_direction nd b dir : upd (map (fun _ : Z => 0) (map Z.of_nat (seq 0 nd))) b dir = direction nd b dir.
Proof. rewrite map_map. exact (vect_from dir nd b 0 0). Qed.
Lemma direction_length nd b dir : length (direction nd b dir) = nd.
Proof. unfold direction. now rewrite map_length, seq_length. Qed.
Lemma direction_nth nd b dir a : (a < nd)%nat -> nth a (direction nd b dir) 0 = if Nat.eqb a b then dir else 0.
Proof. intro L. unfold direction. rewrite (nth_indep _ 0 (if Nat.eqb 0 b then dir else 0)) by (rewrite map_length, seq_length; exact L). rewrite (map_nth (fun a => if Nat.eqb a b then dir else 0)). now rewrite seq_nth. Qed.
Lemma sum_zeros f l : (forall a : nat, In a l -> f a = 0) -> fold_right Rplus 0 (map f l) = 0.
Proof. induction l as [|a l IH]; intro H; [reflexivity|]. cbn. rewrite H by now left. rewrite IH; [ring|]. intros; apply H; now right. Qed.
Lemma sum_one f b nd : (b < nd)%nat -> (forall a, a <> b -> f a = 0) -> fold_right Rplus 0 (map f (seq 0 nd)) = f b.
Proof.
  intros L H. replace nd with (b + S (nd - b - 1))%nat by lia. rewrite seq_app, map_app, fold_right_app. cbn [seq map fold_right]. rewrite sum_zeros by (intros a I; apply in_seq in I; apply H; lia).
  assert (E : forall l x, (forall a, In a l -> a <> b) -> fold_right Rplus x (map f l) = x).
  { induction l as [|a l IH]; intros x Hl; [reflexivity|]. cbn. rewrite H by (apply Hl; now left). rewrite IH; [ring|]. intros; apply Hl; now right. }
  rewrite E; [cbn; ring|]. intros a I. apply in_seq in I. lia.
Qed.
Lemma direction_norm nd b dir : (b < nd)%nat -> dir = 1 \/ dir = -1 -> sqrt (fold_right Rplus 0 (map (fun x => x * x) (direction nd b dir))) = 1.
Proof.
  intros L D. unfold direction. rewrite map_map. rewrite (sum_one (fun a => (if Nat.eqb a b then dir else 0) * (if Nat.eqb a b then dir else 0)) b nd L).
  - rewrite Nat.eqb_refl. replace (dir * dir) with 1 by (destruct D as [-> | ->]; ring). apply sqrt_1.
  - intros a N. apply Nat.eqb_neq in N. rewrite N. ring.
Qed.
Lemma direction_sensible nd b dir dt mv rm z : (b < nd)%nat -> dir = 1 \/ dir = -1 -> sensible (mkpa dt (Some (direction nd b dir)) mv rm z) nd.
Proof.
  intros L D. split; [apply direction_length|]. exists dir. split; [|destruct D as [-> | ->]; lra]. replace dir with (nth b (direction nd b dir) 0) at 1 by (rewrite direction_nth by exact L; now rewrite Nat.eqb_refl).
  apply nth_In. now rewrite direction_length.
Qed.
Lemma norm_is n d : (0 < n)%nat -> 0 < d -> sqrt (d * IZR (Z.of_nat n) / (2 * PI / d)) / sqrt (IZR (Z.of_nat n)) = d / sqrt (2 * PI).
Proof.
  intros N D. assert (P := PI_RGT_0). assert (H : 0 < IZR (Z.of_nat n)) by (apply IZR_lt; lia). assert (S1 : 0 < sqrt (IZR (Z.of_nat n))) by now apply sqrt_lt_R0.
  assert (S2 : 0 < sqrt (2 * PI)) by (apply sqrt_lt_R0; lra). replace (d * IZR (Z.of_nat n) / (2 * PI / d)) with ((d * d) * IZR (Z.of_nat n) / (2 * PI)) by (field; split; lra).
  rewrite sqrt_div_alt by lra. rewrite sqrt_mult by nra. rewrite sqrt_square by lra. field. split; lra.
Qed.
Lemma times_grid n t d : (2 <= n)%nat -> rlinspace t (t + (IZR (Z.of_nat n) - 1) * d) n = grid_of (mkuni n t d).
Proof.
  intro L. unfold rlinspace, grid_of. cbn [u_n]. apply map_ext. intro i. unfold point. cbn [u_x0 u_dx]. rewrite <- !INR_IZR_INZ. f_equal. rewrite minus_INR by lia. cbn [INR]. field.
  assert (H : 1 < INR n) by (change 1 with (INR 1); apply lt_INR; lia). lra.
Qed.
Lemma wf_with f d : a_shape d = a_shape (rf_data f) -> wellformed f -> wellformed (with_data f d).
Proof.
  intros E ([C1 C2 C3 C4] & (U & G) & P & Hb). assert (N : ndim (with_data f d) = ndim f) by (unfold ndim; cbn; now rewrite E). split; [split; rewrite N; assumption|]. split; [exists U|split]; rewrite N; [|exact P|exact Hb].
  intros a I. destruct (G a I) as (ax & H1 & H2 & H3). exists ax. cbn. now rewrite E.
Qed.
Lemma in_with f d b : a_shape d = a_shape (rf_data f) -> all_in b f -> all_in b (with_data f d).
Proof. intros E A. unfold all_in, ndim in *. cbn. now rewrite E. Qed.
Lemma load_all s' : forall ys (g : nat -> rfield) o, (forall j, (j < length ys)%nat -> exists y, nth_error ys j = Some y /\ nth_error s' y = Some (g (o + j)%nat)) -> sfor load ys s' = (s', Ok (map g (seq o (length ys)))).
Proof.
  induction ys as [|y ys IH]; intros g o H; [reflexivity|]. cbn [sfor length seq map]. destruct (H 0%nat) as (y' & E & Hy); [cbn; lia|]. injection E as <-. rewrite Nat.add_0_r in Hy. unfold sbind at 1, load at 1. rewrite Hy. unfold sbind. rewrite (IH g (S o)).
  - reflexivity.
  - intros j L. destruct (H (S j)) as (y' & E & Hy'); [cbn; lia|]. exists y'. split; [exact E|]. now replace (S o + j)%nat with (o + S j)%nat by lia.
Qed.
Lemma map_seq_nth {A} (g : nat -> A) n i : (i < n)%nat -> nth_error (map g (seq 0 n)) i = Some (g i).
Proof. intro L. rewrite nth_error_map'. rewrite nth_error_nth' with (d := 0%nat) by (rewrite seq_length; exact L). cbn. now rewrite seq_nth. Qed.
Lemma tao_moved (tao : list (option R)) (d : nat -> R) : (forall a, (a < length tao)%nat -> exists x, nth_error tao a = Some (Some x)) ->
  map (fun p => option_map (fun x => x + INR 1 * d (fst p)) (snd p)) (combine (seq 0 (length tao)) tao) = map (fun a => option_map (fun x => x + d a) (nth a tao None)) (seq 0 (length tao)).
Proof.
  intros _. apply nth_error_eq. intro a. rewrite (tao_nth (fun a o => option_map (fun x => x + INR 1 * d a) o)). rewrite nth_error_map'. destruct (Nat.lt_ge_cases a (length tao)) as [L|L].
  - rewrite (nth_error_nth' tao None L). rewrite nth_error_nth' with (d := 0%nat) by (rewrite seq_length; exact L). cbn [option_map Nat.add]. rewrite seq_nth by exact L. cbn [Nat.add]. f_equal. destruct (nth a tao None); [|reflexivity]. cbn. f_equal. ring.
  - rewrite (proj2 (nth_error_None tao a) L). rewrite (proj2 (nth_error_None (seq 0 (length tao)) a)) by (rewrite seq_length; exact L). reflexivity.
Qed.

(** * After the domains are known *)
Lemma sbind_ok' {A B} (m : ST A) (k : A -> ST B) s s1 x : m s = (s1, Ok x) -> sbind m k s = k x s1.
Proof. intro E. unfold sbind. now rewrite E. Qed.
Lemma lift_ok {A} (r : res A) x (s : store) : r = Ok x -> lift r s = (s, Ok x).
Proof. intros ->. reflexivity. Qed.
Lemma load_ok a f s : nth_error s a = Some f -> load a s = (s, Ok f).
Proof. intro E. unfold load. now rewrite E. Qed.
Lemma plane_ok dir ax X : axis_is ax X -> default_plane dir ax (u_dx X) = Ok (end_plane dir X).
Proof.
  intros (G & _ & [N P]). unfold default_plane, end_plane, Rltb. rewrite G. destruct (Rlt_dec 0 dir); [|now rewrite grid_first by exact N].
  assert (E : getidx (grid_of X) (-1) = Ok (point X (Z.of_nat (u_n X - 1)))).
  { apply getidx_some. exists (u_n X - 1)%nat. split; [apply py_pos_ok; rewrite grid_length; lia|]. rewrite nth_error_nth' with (d := 0) by (rewrite grid_length; lia). f_equal. apply grid_at. lia. }
  rewrite E. cbn [bind]. f_equal. unfold point. rewrite <- INR_IZR_INZ, minus_INR by lia. cbn [INR]. ring.
Qed.
Lemma start_with p f : start_of p f = mkrf (rf_data (start_of p f)) (rf_axes f) (rf_ats f) (rf_tao f).
Proof. unfold start_of. destruct (removes p); [reflexivity|now destruct f]. Qed.
Lemma start_shape p f : a_shape (rf_data (start_of p f)) = a_shape (rf_data f).
Proof. unfold start_of. now destruct (removes p). Qed.
Lemma start_ats p f : rf_ats (start_of p f) = rf_ats f.
Proof. unfold start_of. now destruct (removes p). Qed.
Lemma mesh_point f U b idx m : on_grid f (seq 0 (ndim f)) U -> (b < ndim f)%nat -> in_shape (a_shape (rf_data f)) idx = true -> (m < u_n (U b))%nat -> mesh (rf_axes f) (Z.of_nat b) (upd idx b (Z.of_nat m)) = point (U b) (Z.of_nat m).
Proof.
  intros G L I Lm. destruct (G b) as (ax & E & (Ga & _) & Sh); [apply in_seq; lia|]. unfold mesh. rewrite Nat2Z.id, E, Ga, nth_upd_eq, Nat2Z.id by (rewrite (in_shape_length _ _ I); exact L). now apply grid_at.
Qed.
Definition drops (rm : option bool) : bool := match rm with Some false => false | _ => true end.
Lemma start_at z y rm zr W f idx : a_at (rf_data (start_of (mkpa z (Some W) y rm zr) f)) idx = if drops rm && Rltb (along W (wave_vector (rf_axes f) idx)) 0 then C0 else a_at (rf_data f) idx.
Proof. unfold start_of, removes. cbn [p_vect p_remove]. destruct rm as [[|]|]; reflexivity. Qed.
Lemma going_at nd b dir rm f idx : a_at (rf_data (going nd b dir rm f)) idx = if drops rm && Rltb (along (direction nd b dir) (wave_vector (rf_axes f) idx)) 0 then C0 else a_at (rf_data f) idx.
Proof. unfold going. destruct rm as [[|]|]; reflexivity. Qed.
Lemma going_axes nd b dir rm f : rf_axes (going nd b dir rm f) = rf_axes f.
Proof. unfold going. destruct rm as [[|]|]; reflexivity. Qed.
Section Core.
  Variables (c : R) (spl : rspline) (k : rfield) (U : nat -> uni) (b : nat) (value : option R) (dir t_input : R) (remove : option bool) (x : rfield) (axx : raxis).
  Hypotheses (Pc : 0 < c) (Sp : linear_spline spl) (Ck : consistent k) (Gk : on_grid k (seq 0 (ndim k)) U) (Ak : all_in true k) (Rk : remembered k) (Lb : (b < ndim k)%nat) (Hd : dir = 1 \/ dir = -1).
  Let X := dual (nth b (rf_tao k) None) (U b).
  Hypotheses (Ex : nth_error (rf_axes x) b = Some axx) (Ix : axis_is axx X).
  Let v := plane_of value dir X.
  Let dt0 := dir * (v - end_plane dir X) / c.
  Let V := direction (ndim k) b dir.
  Let p1 := mkpa dt0 (Some V) (Some true) remove false.
  Let p2 := mkpa (u_dx X / c) (Some V) (Some false) remove true.
  Let k1 := with_data k (mkarr (a_shape (rf_data k)) (fun idx => Cmul (a_at (rf_data k) idx) (RtoC (u_dx (U b) / sqrt (2 * PI))))).
  Let k2 := advanced c dt0 (moves c p1) 1 (start_of p1 k1).
  Let out := u_x0 X + (v - end_plane dir X).
  Let ph idx := cis (out * mesh (rf_axes k) (Z.of_nat b) idx + 0 + - (u_x0 (U b) * out)).
  Let k3 := with_data k2 (apply_phase C1 ph (rf_data k2)).
  Let step j := advanced c (u_dx X / c) None j (start_of p2 k3).
  Let n := u_n (U b).
  Let r := mkrf (zero_components (a_shape (rf_data k)) (Z.of_nat b) (Z.of_nat n) (map step (seq 0 n))) (upd (rf_axes k) b (mkra "t" "s" (grid_of (times c dir v t_input X)) (node_of (times c dir v t_input X))))
             (upd (rf_ats k) b (Some false)) (upd (rf_tao k) b None).
  Lemma Wk : wellformed k.
  Proof. split; [exact Ck|]. split; [exists U; exact Gk|]. split; [lia|]. intros a L. exists true. apply Ak, in_seq. lia. Qed.
  Lemma proper_b : proper (U b).
  Proof. destruct (Gk b) as (ax & _ & (_ & _ & P) & _); [apply in_seq; lia|exact P]. Qed.
  Lemma dir2 : dir * dir = 1.
  Proof. destruct Hd as [-> | ->]; ring. Qed.
  Lemma k2_axes : rf_axes k2 = rf_axes k.
  Proof. unfold k2, advanced. cbn [rf_axes]. now rewrite start_axes. Qed.
  Lemma k2_ats : rf_ats k2 = rf_ats k.
  Proof. unfold k2, advanced. cbn [rf_ats]. now rewrite start_ats. Qed.
  Lemma k2_shape : a_shape (rf_data k2) = a_shape (rf_data k).
  Proof. unfold k2, advanced. cbn [rf_data a_shape]. now rewrite start_shape. Qed.
  Lemma moved_tao d tao m : (forall a, (a < length tao)%nat -> a <> b -> d a = 0) -> nth_error tao b = Some (Some m) ->
    map (fun p => option_map (fun x => x + INR 1 * d (fst p)) (snd p)) (combine (seq 0 (length tao)) tao) = upd tao b (Some (m + d b)).
  Proof.
    intros H E. apply nth_error_eq. intro a. rewrite (tao_nth (fun a o => option_map (fun x => x + INR 1 * d a) o)). cbn [Nat.add]. destruct (Nat.eq_dec a b) as [->|N].
    - rewrite E. cbn [option_map INR]. assert (L : (b < length (upd tao b (Some (m + d b)%R)))%nat) by (rewrite upd_len; apply nth_error_Some; congruence). rewrite (nth_error_nth' _ None L), nth_upd_eq by (rewrite upd_len in L; exact L). do 2 f_equal. ring.
    - destruct (Nat.lt_ge_cases a (length tao)) as [L|L].
      + rewrite (nth_error_nth' tao None L). rewrite nth_error_nth' with (d := @None R) by (rewrite upd_len; exact L). rewrite nth_upd_ne by congruence. cbn [option_map]. rewrite H by assumption. f_equal. destruct (nth a tao None); [|reflexivity]. cbn [option_map]. f_equal. ring.
      + rewrite (proj2 (nth_error_None tao a) L). rewrite (proj2 (nth_error_None _ a)) by (rewrite upd_len; exact L). reflexivity.
  Qed.
  Lemma tao_b : nth_error (rf_tao k) b = Some (Some (u_x0 X)).
  Proof. destruct (Rk b Lb) as [m E]. rewrite E. unfold X. now rewrite (nth_error_nth _ _ None E). Qed.
  Lemma k2_tao : rf_tao k2 = upd (rf_tao k) b (Some out).
  Proof.
    unfold k2, advanced, moves, p1. cbn [p_vect p_move p_dt rf_tao]. rewrite start_tao. unfold V. rewrite direction_norm by assumption. change (rf_tao k1) with (rf_tao k).
    rewrite (moved_tao (fun a => c * dt0 * (nth a (direction (ndim k) b dir) 0 / 1)) (rf_tao k) (u_x0 X)).
    - rewrite direction_nth, Nat.eqb_refl by exact Lb. f_equal. f_equal. unfold out, dt0. f_equal. replace (c * (dir * (v - end_plane dir X) / c) * (dir / 1)) with ((dir * dir) * (v - end_plane dir X)) by (field; lra). rewrite dir2. ring.
    - intros a L N. rewrite (c_tao k Ck) in L. rewrite direction_nth by exact L. apply Nat.eqb_neq in N. rewrite N. unfold Rdiv. ring.
    - apply tao_b.
  Qed.
  Lemma k2_ndim : ndim k2 = ndim k.
  Proof. unfold ndim. now rewrite k2_shape. Qed.
  Lemma W2 : wellformed k2 /\ all_in true k2.
  Proof.
    split.
    - split; [split; rewrite ?k2_axes, ?k2_ats, ?k2_tao, ?upd_len, k2_ndim; apply Ck|]. split; [exists U|split]; rewrite k2_ndim; [|lia|intros a L; rewrite k2_ats; exists true; apply Ak, in_seq; lia].
      intros a I. destruct (Gk a I) as (ax & H1 & H2 & H3). exists ax. now rewrite k2_axes, k2_shape.
    - intros a I. rewrite k2_ats. apply Ak. now rewrite <- k2_ndim.
  Qed.
  Lemma k3_shape : a_shape (apply_phase C1 ph (rf_data k2)) = a_shape (rf_data k2). Proof. reflexivity. Qed.
  Lemma step_data j idx : a_at (rf_data (step j)) idx = Cmul (cis (out * mesh (rf_axes k) (Z.of_nat b) idx - u_x0 (U b) * out - frequency c (rf_axes k) idx * (dt0 + INR j * (u_dx X / c))))
      (Cmul (RtoC (u_dx (U b) / sqrt (2 * PI))) (a_at (rf_data (going (ndim k) b dir remove k)) idx)).
  Proof.
    assert (D3 : a_at (rf_data k3) idx = Cmul C1 (Cmul (Cmul (a_at (rf_data (start_of p1 k1)) idx) (cis (- (INR 1 * (frequency c (rf_axes k) idx * dt0))))) (ph idx))).
    { unfold k3, apply_phase, with_data. cbn [rf_data a_at]. unfold k2, advanced. cbn [rf_data a_at]. rewrite start_axes. reflexivity. }
    assert (D1 : a_at (rf_data (start_of p1 k1)) idx = Cmul (a_at (rf_data (going (ndim k) b dir remove k)) idx) (RtoC (u_dx (U b) / sqrt (2 * PI)))).
    { unfold p1. rewrite start_at, going_at. fold V. change (rf_axes k1) with (rf_axes k). destruct (drops remove && Rltb (along V (wave_vector (rf_axes k) idx)) 0); [ring|reflexivity]. }
    assert (D : a_at (rf_data (step j)) idx = Cmul (a_at (rf_data k3) idx) (cis (- (INR j * (frequency c (rf_axes k) idx * (u_dx X / c)))))).
    { unfold step, advanced. cbn [rf_data a_at]. rewrite start_axes. change (rf_axes k3) with (rf_axes k2). rewrite k2_axes. unfold p2. rewrite start_at. change (rf_axes k3) with (rf_axes k2). rewrite k2_axes.
      destruct (drops remove && Rltb (along V (wave_vector (rf_axes k) idx)) 0) eqn:Q; [|reflexivity].
      assert (Z0 : a_at (rf_data (going (ndim k) b dir remove k)) idx = C0) by (rewrite going_at; fold V; now rewrite Q). rewrite D3, D1, Z0. ring. }
    rewrite D, D3, D1. unfold ph. set (g := a_at _ idx). set (w := frequency _ _ _). set (h := mesh _ _ _).
    replace (out * h - u_x0 (U b) * out - w * (dt0 + INR j * (u_dx X / c))) with ((out * h + 0 + - (u_x0 (U b) * out)) + ((- (INR 1 * (w * dt0))) + - (INR j * (w * (u_dx X / c))))) by (cbn [INR]; ring).
    rewrite !cis_add. ring.
  Qed.
  Lemma r_profile : profile c k b (U b) X v dir t_input remove (- (u_x0 (U b) * v)) r.
  Proof.
    split; try reflexivity. intros idx I. unfold r, zero_components. cbn [rf_data a_at]. rewrite !Nat2Z.id. destruct (Gk b) as (ax & Ea & (Ga & _ & [N2 Pd]) & Sh); [apply in_seq; lia|].
    assert (B := in_shape_nth _ _ b I Lb). rewrite (nth_error_nth _ _ 0%Z Sh) in B. fold n in B. rewrite map_seq_nth by lia. unfold passing. rewrite <- csum_scale. fold n. apply csum_ext. intros m Lm.
    rewrite step_data. rewrite (mesh_point k U b idx m Gk Lb I Lm). rewrite going_axes.
    set (w := frequency _ _ _). set (g := a_at _ _). set (tau := point (times c dir v t_input X) (nth b idx 0%Z) - t_input).
    assert (Et : tau = dt0 + INR (Z.to_nat (nth b idx 0%Z)) * (u_dx X / c)).
    { unfold tau, times, point. cbn [u_x0 u_dx]. fold dt0. rewrite INR_IZR_INZ, Z2Nat.id by lia. ring. }
    rewrite <- Et. assert (Q : exists q : Z, out * point (U b) (Z.of_nat m) - u_x0 (U b) * out - w * tau = - (u_x0 (U b) * v) + (point (U b) (Z.of_nat m) * v - w * tau) + 2 * PI * IZR q).
    { unfold point. rewrite <- INR_IZR_INZ. unfold out, end_plane. destruct (Rlt_dec 0 dir).
      - exists (- Z.of_nat m)%Z. rewrite opp_IZR, <- INR_IZR_INZ. assert (E : INR (u_n X) * u_dx X * u_dx (U b) = 2 * PI) by (unfold X; cbn [dual u_n u_dx]; field; split; [lra|apply not_0_INR; lia]).
        replace (u_x0 X + (v - (u_x0 X + INR (u_n X) * u_dx X))) with (v - INR (u_n X) * u_dx X) by ring. replace (2 * PI * - INR m) with (- (INR (u_n X) * u_dx X * u_dx (U b)) * INR m) by (rewrite E; ring). ring.
      - exists 0%Z. ring. }
    destruct Q as [q ->]. rewrite !cis_add, cis_period. ring.
  Qed.
  Lemma iterate_ok st s : exists s1 y, nth_error s1 y = Some r /\ (forall a, (a < length s)%nat -> nth_error s1 a = nth_error s a) /\ (length s <= y)%nat /\ (length s <= length s1)%nat /\
    iterate c spl (Z.of_nat b) value dir t_input remove st k x s =
      if st then (s1, Ok y) else match map Z.of_nat (other_dims (ndim k) b) with [] => (s1, Err MemFault) | l => match fft spl false false r l with Ok F => (s1 ++ [F], Ok (length s1)) | Err e => (s1, Err e) end end.
  Proof.
    assert (L3 : (b < 3)%nat) by (destruct Ck; lia). destruct (Gk b) as (axk & Ea & Ia & Sh); [apply in_seq; lia|]. destruct Ia as (Ga & Na & [N2 Pd]). assert (Ia : axis_is axk (U b)) by (split; [exact Ga|split; [exact Na|split; assumption]]).
    unfold iterate. rewrite (sbind_ok' _ _ _ _ _ (lift_ok _ _ _ (identify_nat b L3))). rewrite (all_dims_grid k U Gk).
    rewrite (sbind_ok' _ _ _ _ _ (lift_ok _ _ _ (others_ok (ndim k) b Lb))). rewrite (sbind_ok' _ _ _ _ _ (lift_ok _ _ _ (getidx_nat _ _ _ Ex))).
    rewrite (sbind_ok' _ _ _ _ _ (lift_ok _ _ _ (spacing_grid _ _ Ix))). cbv zeta. rewrite (sbind_ok' _ _ _ _ _ (lift_ok _ _ _ (getidx_nat _ _ _ Ea))).
    rewrite (sbind_ok' _ _ _ _ _ (lift_ok _ _ _ (spacing_grid _ _ Ia))). rewrite (sbind_ok' _ _ _ _ _ (lift_ok _ _ _ (getidx_nat _ _ _ Sh))).
    rewrite norm_is by (lia || lra). fold k1. unfold sbind at 1, alloc at 1. rewrite Nat2Z.id. rewrite vect_direction. fold V.
    assert (Edt : (match value with None => sret 0 | Some v0 => st! r0 := lift (default_plane dir axx (u_dx X)) in sret (dir * (v0 - r0) / c) end) (s ++ [k1]) = (s ++ [k1], Ok dt0)).
    { unfold dt0, v, plane_of. destruct value as [v0|].
      - rewrite (sbind_ok' _ _ _ _ _ (lift_ok _ _ _ (plane_ok dir axx X Ix))). reflexivity.
      - unfold sret. f_equal. f_equal. unfold Rminus. rewrite Rplus_opp_r. unfold Rdiv. ring. }
    rewrite (sbind_ok' _ _ _ _ _ Edt). fold p1.
    assert (W1 : wellformed k1) by (apply wf_with; [reflexivity|exact Wk]). assert (A1 : all_in true k1) by (apply in_with; [reflexivity|exact Ak]).
    assert (H1 : nth_error (s ++ [k1]) (length s) = Some k1) by (rewrite nth_error_app2, Nat.sub_diag by lia; reflexivity).
    destruct (propagate_freq c spl p1 1 (length s) (s ++ [k1]) k1 W1 A1 H1) as (s2 & ys & E2 & Ly & F2 & Hj); [exact (direction_sensible (ndim k) b dir _ _ _ _ Lb Hd)|right; exact Rk|].
    change (kspace_propagate c spl p1 1 (length s)) with (prop_run c spl p1 1 (length s)). rewrite (sbind_ok' _ _ _ _ _ E2). destruct (Hj 0%nat) as (y2 & Ey & Hy & Ny & _); [lia|].
    destruct ys as [|y0 [|? ?]]; try discriminate Ly. injection Ey as ->. cbn [hd]. change (advanced c (p_dt p1) (moves c p1) (if p_zeroth p1 then 0 else 1) (start_of p1 k1)) with k2 in Hy. rewrite (sbind_ok' _ _ _ _ _ (load_ok _ _ _ Hy)).
    rewrite k2_axes, k2_ats. rewrite (sbind_ok' _ _ _ _ _ (lift_ok _ _ _ (getidx_nat _ _ _ Ea))). rewrite Ga. rewrite (sbind_ok' _ _ _ _ _ (lift_ok _ _ _ (grid_first _ N2))).
    assert (Eo : nth_error (rf_tao k2) b = Some (Some out)) by (rewrite k2_tao; rewrite nth_error_nth' with (d := @None R) by (rewrite upd_len, (c_tao k Ck); exact Lb); now rewrite nth_upd_eq by (rewrite (c_tao k Ck); exact Lb)).
    assert (Ecg : conjugate_grid k2 [Z.of_nat b] = Ok [(Z.of_nat b, grid_of (dual (Some out) (U b)))]).
    { unfold conjugate_grid. cbn [mapM]. rewrite (conjugate_grid_ok k2 b axk (U b) (Some out)); [reflexivity|rewrite k2_axes; exact Ea|exact Ia|rewrite k2_shape; exact Sh|exact Eo]. }
    rewrite (sbind_ok' _ _ _ _ _ (lift_ok _ _ _ Ecg)). assert (Ez : zget [(Z.of_nat b, grid_of (dual (Some out) (U b)))] (Z.of_nat b) = Ok (grid_of (dual (Some out) (U b)))) by (cbn; now rewrite Z.eqb_refl).
    rewrite (sbind_ok' _ _ _ _ _ (lift_ok _ _ _ Ez)). rewrite (sbind_ok' _ _ _ _ _ (lift_ok _ _ _ (grid_first (dual (Some out) (U b)) N2))). change (u_x0 (dual (Some out) (U b))) with out.
    assert (Eph : linear_phase (rf_axes k) (rf_ats k) [(Z.of_nat b, out)] (- (u_x0 (U b) * out)) = Ok ph).
    { unfold linear_phase. cbn [map fst]. change [Z.of_nat b] with (map Z.of_nat [b]). rewrite (rstate_nat (rf_ats k) [b] true); [|discriminate|intros a [<-|[]]; apply Ak, in_seq; lia]. cbn [bind forallb fst]. replace (0 <=? Z.of_nat b)%Z with true by (symmetry; apply Z.leb_le; lia). reflexivity. }
    rewrite (sbind_ok' _ _ _ _ _ (lift_ok _ _ _ Eph)). fold k3. unfold sbind at 1, alloc at 1.
    assert (Lg : length (ra_grid axx) = n) by (rewrite (proj1 Ix), grid_length; reflexivity). rewrite Lg. assert (N1 : negb (n =? 1)%nat = true) by (apply negb_true_iff, Nat.eqb_neq; unfold n; lia). rewrite N1. unfold guard. rewrite (sbind_ok' _ _ _ _ _ (lift_ok (Ok tt) tt _ eq_refl)).
    fold p2. unfold kspace_propagate. replace (Z.of_nat n <? 0)%Z with false by (symmetry; apply Z.ltb_ge; lia). rewrite Nat2Z.id.
    destruct W2 as [Wf2 Al2]. assert (W3 : wellformed k3) by (apply wf_with; [reflexivity|exact Wf2]). assert (A3 : all_in true k3) by (apply in_with; [reflexivity|exact Al2]).
    assert (H3 : nth_error (s2 ++ [k3]) (length s2) = Some k3) by (rewrite nth_error_app2, Nat.sub_diag by lia; reflexivity).
    assert (Nd3 : ndim k3 = ndim k) by (unfold ndim; cbn; now rewrite start_shape).
    destruct (propagate_freq c spl p2 n (length s2) (s2 ++ [k3]) k3 W3 A3 H3) as (s3 & zs & E3 & Lz & F3 & Hz); [rewrite Nd3; exact (direction_sensible (ndim k) b dir _ _ _ _ Lb Hd)|left; reflexivity|].
    rewrite (sbind_ok' _ _ _ _ _ E3). rewrite (sbind_ok' _ _ _ s3 (map step (seq 0 n))).
    2:{ rewrite <- Lz. apply load_all. intros j Lj. destruct (Hz j) as (z & Ez1 & Ez2 & _); [lia|]. exists z. split; [exact Ez1|exact Ez2]. }
    assert (L2 : (length s <= length s2)%nat) by (assert (Q := proj1 (nth_error_Some s2 (length s))); rewrite F2, H1 in Q by (rewrite app_length; cbn; lia); specialize (Q ltac:(discriminate)); lia).
    assert (H3' : nth_error s3 (length s2) = Some k3) by (rewrite F3 by (rewrite app_length; cbn; lia); exact H3). rewrite (sbind_ok' _ _ _ _ _ (load_ok _ _ _ H3')).
    rewrite Nat2Z.id, times_grid by exact N2. change (mkuni (u_n (U b)) (t_input + dt0) (u_dx X / c)) with (times c dir v t_input X).
    assert (PX : 0 < u_dx X) by (apply (dual_proper _ (U b)); split; assumption). assert (Pt : proper (times c dir v t_input X)) by (split; [exact N2|]; cbn [times u_dx]; apply Rdiv_lt_0_compat; assumption).
    rewrite (sbind_ok' _ _ _ _ _ (lift_ok _ _ _ (mk_axis_grid spl "t" "s" _ Pt Sp))). set (tax := mkra "t" "s" _ _).
    assert (Esa : set_axis (with_data k3 (zero_components (a_shape (rf_data k3)) (Z.of_nat b) (Z.of_nat (u_n (U b))) (map step (seq 0 n)))) (Z.of_nat b) tax = Ok (mkrf (rf_data r) (rf_axes r) (rf_ats k) (rf_tao k2))).
    { unfold set_axis. rewrite identify_nat by exact L3. cbn [bind]. rewrite mod90 by exact L3. cbn [with_data rf_data zero_components a_shape rf_axes rf_ats rf_tao]. change (a_shape (rf_data k3)) with (a_shape (rf_data k2)). change (rf_axes k3) with (rf_axes k2). change (rf_ats k3) with (rf_ats k2). change (rf_tao k3) with (rf_tao k2). rewrite k2_shape, k2_axes, k2_ats.
      rewrite (getidx_nat _ _ _ Sh). cbn [bind]. change (length (ra_grid tax)) with (length (grid_of (times c dir v t_input X))). rewrite grid_length. change (u_n (times c dir v t_input X)) with (u_n (U b)). rewrite Z.eqb_refl. rewrite setidx_at by (rewrite (c_axes k Ck); exact Lb). reflexivity. }
    rewrite (sbind_ok' _ _ _ _ _ (lift_ok _ _ _ Esa)). cbn [rf_ats rf_tao rf_data rf_axes].
    assert (S1 : setidx (rf_ats k) (Z.of_nat b) (Some false) = Ok (rf_ats r)) by (rewrite setidx_at by (rewrite (c_ats k Ck); exact Lb); reflexivity). rewrite (sbind_ok' _ _ _ _ _ (lift_ok _ _ _ S1)).
    assert (S2 : setidx (rf_tao k2) (Z.of_nat b) None = Ok (rf_tao r)) by (rewrite k2_tao, setidx_at by (rewrite upd_len, (c_tao k Ck); exact Lb); now rewrite upd_upd). rewrite (sbind_ok' _ _ _ _ _ (lift_ok _ _ _ S2)).
    change (mkrf (rf_data r) (rf_axes r) (rf_ats r) (rf_tao r)) with r. unfold sbind at 1, alloc at 1.
    assert (L4 : (length s2 <= length s3)%nat) by (assert (Q := proj1 (nth_error_Some s3 (length s2))); rewrite H3' in Q; specialize (Q ltac:(discriminate)); lia).
    exists (s3 ++ [r]), (length s3). split; [rewrite nth_error_app2, Nat.sub_diag by lia; reflexivity|]. split.
    { intros a La. rewrite nth_error_app1 by lia. rewrite F3 by (rewrite app_length; cbn; lia). rewrite nth_error_app1 by lia. rewrite F2 by (rewrite app_length; cbn; lia). now rewrite nth_error_app1 by lia. }
    split; [lia|]. split; [rewrite app_length; lia|]. destruct st; [reflexivity|]. destruct (map Z.of_nat (other_dims (ndim k) b)); [reflexivity|]. unfold sbind, lift. destruct (fft spl false false r _); reflexivity.
  Qed.
End Core.
