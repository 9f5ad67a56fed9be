(** Linear interpolation between grid points, and the linear shift of grids. *)
From Coq Require Import Reals String Lra Lia ZArith List Bool.
From Verif Require Import PyBase PyBaseFacts NumpyModel NumpyFacts NdModel NdFacts CplxModel CplxFacts FieldModel FieldGridFacts FftModel FftSpec FftAxes FftFacts FftShift UnstagModel UnstagFacts RealModel MapModel MapSpec MapFacts MapLaws LinShiftSpec.
Import ListNotations.
Local Open Scope R_scope.

Lemma int_part_IZR z : Int_part (IZR z) = z.
Proof.
  destruct (base_Int_part (IZR z)) as [L G]. assert (K : IZR (Int_part (IZR z)) < IZR (z + 1)) by (rewrite plus_IZR; lra). apply lt_IZR in K.
  assert (K' : IZR z < IZR (Int_part (IZR z) + 1)) by (rewrite plus_IZR; lra). apply lt_IZR in K'. lia.
Qed.
Lemma clamp_range n x : (1 <= n)%Z -> 0 <= clamp n x <= IZR (n - 1).
Proof.
  intro H. assert (0 <= IZR (n - 1)) by (apply IZR_le; lia). unfold clamp. split; [apply Rmax_l|]. apply Rmax_lub; [lra|apply Rmin_r].
Qed.
Lemma cell_of n x : (1 <= n)%Z -> let c := clamp n x in let i := Int_part c in (0 <= i < n)%Z /\ 0 <= c - IZR i < 1 /\ (0 <= Z.min (i + 1) (n - 1) < n)%Z /\
  (c - IZR i) * (IZR (Z.min (i + 1) (n - 1)) - IZR i) = c - IZR i.
Proof.
  intros H c i. pose proof (clamp_range n x H) as [C0 C1]. fold c in C0, C1. destruct (base_Int_part c) as [L G]. fold i in L, G.
  assert (I0 : (0 <= i)%Z). { assert (K : IZR (-1) < IZR i) by lra. apply lt_IZR in K. lia. }
  assert (I1 : (i <= n - 1)%Z) by (apply le_IZR; lra). split; [lia|]. split; [lra|]. split; [lia|].
  destruct (Z.eq_dec i (n - 1)) as [E|N].
  - assert (c - IZR i = 0) by (rewrite E; rewrite E in L; lra). rewrite H0. ring.
  - rewrite Z.min_l by lia. rewrite plus_IZR. ring.
Qed.
Definition sizes (sh : list Z) : Prop := Forall (fun n => 1 <= n)%Z sh.
Lemma in_shape_cons n sh i r : (0 <= i < n)%Z -> in_shape sh r = true -> in_shape (n :: sh) (i :: r) = true.
Proof. intros H I. apply in_shape_spec. constructor; [exact H|now apply in_shape_spec]. Qed.
Lemma linear_affine : forall sh b p c g, sizes sh -> length b = length sh -> length p = length sh -> (forall idx, in_shape sh idx = true -> g idx = c + dot b (map IZR idx)) ->
  linear_at sh g p = c + dot b (map2 clamp sh p).
Proof.
  induction sh as [|n sh IH]; intros [|b0 b] [|x p] c g Sz Lb Lp Hg; try discriminate.
  - cbn. rewrite (Hg [] eq_refl). reflexivity.
  - inversion Sz as [|? ? Hn Sz']; subst. cbn [linear_at]. destruct (cell_of n x Hn) as (Hi & Ht & Hi' & E). cbv zeta in E. set (cc := clamp n x) in *. set (i := Int_part cc) in *. set (i' := Z.min (i + 1) (n - 1)) in *.
    rewrite (IH b p (c + b0 * IZR i)); [|assumption|cbn in Lb; lia|cbn in Lp; lia|intros idx I; rewrite Hg by (now apply in_shape_cons); unfold dot; cbn; ring].
    rewrite (IH b p (c + b0 * IZR i')); [|assumption|cbn in Lb; lia|cbn in Lp; lia|intros idx I; rewrite Hg by (now apply in_shape_cons); unfold dot; cbn; ring].
    unfold dot. cbn [map2 fold_right]. fold cc. set (D := fold_right Rplus 0 (map2 Rmult b (map2 clamp sh p))).
    replace ((1 - (cc - IZR i)) * (c + b0 * IZR i + D) + (cc - IZR i) * (c + b0 * IZR i' + D)) with (c + D + b0 * (IZR i + (cc - IZR i) * (IZR i' - IZR i))) by ring. rewrite E. ring.
Qed.
Lemma clamp_int n i : clamp n (IZR i) = IZR (nearest_index n i).
Proof.
  unfold clamp, nearest_index. unfold Rmin. destruct (Rle_dec (IZR i) (IZR (n - 1))) as [L|L].
  - apply le_IZR in L. rewrite Z.min_l by exact L. unfold Rmax. destruct (Rle_dec 0 (IZR i)) as [K|K]; [apply (le_IZR 0) in K; now rewrite Z.max_r|]. apply Rnot_le_lt, (lt_IZR _ 0) in K. now rewrite Z.max_l by lia.
  - apply Rnot_le_lt, lt_IZR in L. rewrite Z.min_r by lia. unfold Rmax. destruct (Rle_dec 0 (IZR (n - 1))) as [K|K]; [apply (le_IZR 0) in K; now rewrite Z.max_r|]. apply Rnot_le_lt, (lt_IZR _ 0) in K. now rewrite Z.max_l by lia.
Qed.
Lemma linear_int : forall sh j g, length j = length sh -> linear_at sh g (map IZR j) = g (map2 nearest_index sh j).
Proof.
  induction sh as [|n sh IH]; intros [|i j] g L; try discriminate; [reflexivity|]. cbn [map linear_at map2]. rewrite clamp_int, int_part_IZR.
  rewrite !IH by (cbn in L; lia). ring.
Qed.
Lemma linear_between : forall sh p g lo hi, sizes sh -> length p = length sh -> (forall idx, in_shape sh idx = true -> lo <= g idx <= hi) -> lo <= linear_at sh g p <= hi.
Proof.
  induction sh as [|n sh IH]; intros [|x p] g lo hi Sz L H; try discriminate; [exact (H [] eq_refl)|]. inversion Sz as [|? ? Hn Sz']; subst. cbn [linear_at].
  destruct (cell_of n x Hn) as (Hi & Ht & Hi' & _). set (cc := clamp n x) in *. set (i := Int_part cc) in *. set (i' := Z.min (i + 1) (n - 1)) in *.
  assert (A := IH p (fun r => g (i :: r)) lo hi Sz' ltac:(cbn in L; lia) (fun idx I => H _ (in_shape_cons n sh i idx Hi I))).
  assert (B := IH p (fun r => g (i' :: r)) lo hi Sz' ltac:(cbn in L; lia) (fun idx I => H _ (in_shape_cons n sh i' idx Hi' I))).
  cbv beta in A, B. revert A B. generalize (linear_at sh (fun r => g (i :: r)) p) (linear_at sh (fun r => g (i' :: r)) p) (cc - IZR i) Ht. intros u v t [T0 T1] [A0 A1] [B0 B1]. split.
  - assert ((1 - t) * lo <= (1 - t) * u) by (apply Rmult_le_compat_l; lra). assert (t * lo <= t * v) by (apply Rmult_le_compat_l; lra). lra.
  - assert ((1 - t) * u <= (1 - t) * hi) by (apply Rmult_le_compat_l; lra). assert (t * v <= t * hi) by (apply Rmult_le_compat_l; lra). lra.
Qed.

(** * assignments to some of the entries *)
Lemma fold_set {X} (v : nat -> X) A : forall l, (forall a, In a A -> (a < length l)%nat) ->
  exists l', fold_left (fun acc a => let! l := acc in setidx l (Z.of_nat a) (v a)) A (Ok l) = Ok l' /\ length l' = length l /\
    forall k, nth_error l' k = if existsb (Nat.eqb k) A then match nth_error l k with Some _ => Some (v k) | None => None end else nth_error l k.
Proof.
  induction A as [|a A IH]; intros l H; [exists l; now repeat split|]. cbn [fold_left bind]. assert (L : (a < length l)%nat) by (apply H; now left).
  assert (E : setidx l (Z.of_nat a) (v a) = Ok (upd l a (v a))) by (unfold setidx; now rewrite py_pos_nat). rewrite E.
  destruct (IH (upd l a (v a))) as (l' & El & Ll & Hl); [intros b I; rewrite upd_length; apply H; now right|]. rewrite upd_length in Ll. exists l'. split; [exact El|]. split; [exact Ll|]. intro k. rewrite Hl. cbn [existsb].
  rewrite nth_error_upd. destruct (Nat.eqb_spec k a) as [->|N]; cbn [orb].
  - destruct (nth_error l a) as [y|] eqn:Ey; [|apply nth_error_None in Ey; lia]. destruct (existsb (Nat.eqb a) A); destruct (Nat.ltb_spec a (length l)); try lia; try reflexivity.
  - reflexivity.
Qed.
Lemma fold_set_map {X} (v : nat -> X) (d : nat -> R) (F : Z * R -> res X) A : (forall a, In a A -> F (Z.of_nat a, d a) = Ok (v a)) -> forall l, (forall a, In a A -> (a < length l)%nat) ->
  exists l', fold_left (fun acc p => let! l := acc in let! y := F p in setidx l (fst p) y) (map (fun a => (Z.of_nat a, d a)) A) (Ok l) = Ok l' /\ length l' = length l /\
    forall k, nth_error l' k = if existsb (Nat.eqb k) A then match nth_error l k with Some _ => Some (v k) | None => None end else nth_error l k.
Proof.
  intros HF l H. destruct (fold_set v A l H) as (l' & E & R). exists l'. split; [|exact R]. rewrite <- E. clear E R H. generalize (Ok l). clear l.
  induction A as [|a A IH]; intro r; [reflexivity|]. cbn [map fold_left fst]. rewrite (HF a (or_introl eq_refl)). cbn [bind]. apply IH. intros b I. apply HF. now right.
Qed.
Lemma moved_grid u d : map (fun x => x + d) (grid_of u) = grid_of (moved_by d u).
Proof. unfold grid_of. rewrite map_map. apply map_ext. intro i. unfold point. cbn. ring. Qed.
Lemma moved_node u d : map (fun x => x + d) (node_of u) = node_of (moved_by d u).
Proof. unfold node_of. rewrite map_map. apply map_ext. intro i. unfold point. cbn. ring. Qed.

Section Shift.
  Variables (f : sfield) (nd : nat) (U : nat -> uni) (A : list nat) (d : nat -> R).
  Hypothesis Uf : uniform_field f nd U.
  Hypothesis HA : forall a, In a A -> (a < nd)%nat.
  Let dx := map (fun a => (Z.of_nat a, d a)) A.
  Lemma shift_list : fold_left (fun acc p => let! l := acc in setidx l (fst p) (snd p)) dx (Ok (repeat 0 nd)) = Ok (map (shift_of A d) (seq 0 nd)).
  Proof.
    destruct (fold_set_map d d (fun p => Ok (snd p)) A (fun a _ => eq_refl) (repeat 0 nd)) as (l' & E & Ll & Hl); [rewrite repeat_length; exact HA|]. cbn [bind] in E. unfold dx. rewrite E. f_equal.
    rewrite repeat_length in Ll. apply nth_error_ext. intro k. rewrite Hl, nth_error_map. destruct (Nat.lt_ge_cases k nd) as [L|L].
    - rewrite nth_error_seq_lt by exact L. rewrite (nth_error_nth' (repeat 0 nd) 0) by (rewrite repeat_length; exact L). cbn. unfold shift_of. destruct (existsb (Nat.eqb k) A); [reflexivity|]. now rewrite nth_repeat.
    - replace (nth_error (repeat 0 nd) k) with (@None R) by (symmetry; apply nth_error_None; rewrite repeat_length; lia). replace (nth_error (seq 0 nd) k) with (@None nat) by (symmetry; apply nth_error_None; rewrite seq_length; lia). cbn. now destruct (existsb (Nat.eqb k) A).
  Qed.
  Lemma shift_spacings : mapM rspacing (rf_axes (sf_field f)) = Ok (map (fun a => u_dx (U a)) (seq 0 nd)).
  Proof. rewrite <- (uf_axes f nd U Uf). apply mapM_at. intros a ax E. cbn [Nat.add]. apply spacing_grid. exact (uf_axis f nd U Uf a ax E). Qed.
  Lemma linear_ok : sf_real f = true -> exists g, shift_grid_by_linear f dx = Ok g /\ moved_axes A d U f g /\ same_rest f g /\
    forall idx, a_at (rf_data (sf_field g)) idx = RtoC (linear_at (a_shape (rf_data (sf_field f))) (value f) (map2 (fun i s => IZR i - s) idx (map Ropp (map (fun a => shift_of A d a / u_dx (U a)) (seq 0 nd))))).
  Proof.
    intro Er. unfold shift_grid_by_linear. rewrite (uf_axes f nd U Uf), shift_list, shift_spacings. cbn [bind]. rewrite Er. cbn [negb]. rewrite map2_map.
    set (va := fun a => match nth_error (rf_axes (sf_field f)) a with Some ax => mkra "" "" (map (fun x => x + d a) (ra_grid ax)) (map (fun x => x + d a) (ra_node ax)) | None => mkra "" "" [] [] end).
    destruct (fold_set_map va d (fun p => let! ax := getidx (rf_axes (sf_field f)) (fst p) in Ok (mkra "" "" (map (fun x => x + snd p) (ra_grid ax)) (map (fun x => x + snd p) (ra_node ax)))) A) with (l := rf_axes (sf_field f)) as (l' & E & Ll & Hl).
    { intros a I. specialize (HA a I). destruct (nth_error (rf_axes (sf_field f)) a) as [ax|] eqn:Ea; [|apply nth_error_None in Ea; rewrite (uf_axes f nd U Uf) in Ea; lia].
      cbn [fst snd]. rewrite (getidx_nat _ _ _ Ea). unfold va. now rewrite Ea. }
    { intros a I. rewrite (uf_axes f nd U Uf). now apply HA. }
    match goal with |- context [fold_left ?F dx ?a] => replace (fold_left F dx a) with (Ok l') end.
    2: { rewrite <- E. unfold dx. clear. generalize (Ok (rf_axes (sf_field f)) : res (list raxis)). induction A as [|a B IH]; intro r; [reflexivity|]. cbn [map fold_left]. rewrite <- IH. f_equal. destruct r; [|reflexivity]. cbn [bind]. now destruct (getidx (rf_axes (sf_field f)) (fst (Z.of_nat a, d a))). }
    cbn [bind]. eexists. split; [reflexivity|]. split; [|split].
    - split; [exact Ll|]. intros a ax Ea. cbn [sf_field rf_axes]. rewrite Hl, Ea. destruct (existsb (Nat.eqb a) A); [|now exists ax]. exists (va a). split; [reflexivity|]. unfold va. rewrite Ea.
      destruct (uf_axis f nd U Uf a ax Ea) as (Eg & En & P). cbn. split; [|now split]. split; [cbn; rewrite Eg; apply moved_grid|]. split; [cbn; rewrite En; apply moved_node|exact P].
    - repeat split. now rewrite Er.
    - intro idx. reflexivity.
  Qed.
  Lemma uf_sizes : sizes (a_shape (rf_data (sf_field f))).
  Proof. apply Forall_forall. intros n I. apply In_nth_error in I. destruct I as [a E]. assert (L : (a < nd)%nat) by (destruct Uf as (_ & <- & _); apply nth_error_Some; unfold ndim; congruence). destruct (uf_shape f nd U Uf a L) as [Es [P _]]. rewrite Es in E. injection E as <-. lia. Qed.
  Lemma uf_shape_map : a_shape (rf_data (sf_field f)) = map (fun a => Z.of_nat (u_n (U a))) (seq 0 nd).
  Proof.
    apply nth_error_ext. intro k. rewrite nth_error_map. destruct (Nat.lt_ge_cases k nd) as [L|L].
    - rewrite nth_error_seq_lt by exact L. destruct (uf_shape f nd U Uf k L) as [-> _]. reflexivity.
    - replace (nth_error (seq 0 nd) k) with (@None nat) by (symmetry; apply nth_error_None; rewrite seq_length; lia). apply nth_error_None. destruct Uf as (_ & E & _). unfold ndim in E. lia.
  Qed.
  Lemma idx_map idx : in_shape (a_shape (rf_data (sf_field f))) idx = true -> idx = map (fun a => nth a idx 0%Z) (seq 0 nd).
  Proof.
    intro I. assert (L : length idx = nd) by (rewrite (in_shape_length _ _ I); exact (proj1 (proj2 Uf))). apply nth_error_ext. intro k. rewrite nth_error_map. destruct (Nat.lt_ge_cases k nd) as [K|K].
    - rewrite nth_error_seq_lt by exact K. cbn. apply nth_error_nth'. lia.
    - replace (nth_error (seq 0 nd) k) with (@None nat) by (symmetry; apply nth_error_None; rewrite seq_length; lia). apply nth_error_None. lia.
  Qed.
  Lemma positions idx : in_shape (a_shape (rf_data (sf_field f))) idx = true ->
    map2 (fun i s => IZR i - s) idx (map Ropp (map (fun a => shift_of A d a / u_dx (U a)) (seq 0 nd))) = map (fun a => IZR (nth a idx 0%Z) + shift_of A d a / u_dx (U a)) (seq 0 nd).
  Proof. intro I. rewrite (idx_map idx I) at 1. rewrite map_map, map2_map. apply map_ext. intro a. ring. Qed.
  (** data which vary linearly are exact, with the ends of the grid beyond them *)
  Lemma shift_affine (c : R) (b : nat -> R) : sf_real f = true ->
    (forall idx, in_shape (a_shape (rf_data (sf_field f))) idx = true -> value f idx = c + weighted nd b (fun a => point (U a) (nth a idx 0%Z))) ->
    exists g, shift_grid_by_linear f dx = Ok g /\ moved_axes A d U f g /\ same_rest f g /\
      forall idx, in_shape (a_shape (rf_data (sf_field f))) idx = true -> a_at (rf_data (sf_field g)) idx = RtoC (c + weighted nd b (fun a => nearest (U a) (point (moved_by (shift_of A d a) (U a)) (nth a idx 0%Z)))).
  Proof.
    intros Er Hd. destruct (linear_ok Er) as (g & E & M & S & H). exists g. split; [exact E|]. split; [exact M|]. split; [exact S|]. intros idx I. rewrite H. f_equal. rewrite (positions idx I).
    assert (Pd : forall a, (a < nd)%nat -> 0 < u_dx (U a)) by (intros a L; destruct (uf_shape f nd U Uf a L) as (_ & _ & P); exact P).
    rewrite (linear_affine _ (map (fun a => b a * u_dx (U a)) (seq 0 nd)) _ (c + weighted nd b (fun a => u_x0 (U a)))).
    - rewrite uf_shape_map, map2_map. unfold dot. rewrite map2_map. unfold weighted. rewrite Rplus_assoc. f_equal.
      assert (G : forall l, (forall a, In a l -> (a < nd)%nat) -> fold_right Rplus 0 (map (fun a => b a * u_x0 (U a)) l) + fold_right Rplus 0 (map (fun a => b a * u_dx (U a) * clamp (Z.of_nat (u_n (U a))) (IZR (nth a idx 0%Z) + shift_of A d a / u_dx (U a))) l) =
                                 fold_right Rplus 0 (map (fun a => b a * nearest (U a) (point (moved_by (shift_of A d a) (U a)) (nth a idx 0%Z))) l)).
      { induction l as [|a l IH]; intro Hl; [cbn; ring|]. cbn [map fold_right]. rewrite <- IH by (intros; apply Hl; now right). specialize (Pd a (Hl a (or_introl eq_refl))).
        assert (K : nearest (U a) (point (moved_by (shift_of A d a) (U a)) (nth a idx 0%Z)) = u_x0 (U a) + u_dx (U a) * clamp (Z.of_nat (u_n (U a))) (IZR (nth a idx 0%Z) + shift_of A d a / u_dx (U a))).
        { unfold nearest, clamp. set (y := IZR (nth a idx 0%Z) + shift_of A d a / u_dx (U a)). replace (point (moved_by (shift_of A d a) (U a)) (nth a idx 0%Z)) with (u_x0 (U a) + u_dx (U a) * y) by (unfold point, y; cbn; field; lra).
          unfold point. set (m := IZR (Z.of_nat (u_n (U a)) - 1)). replace (u_x0 (U a) + m * u_dx (U a)) with (u_x0 (U a) + u_dx (U a) * m) by ring.
          assert (Mi : Rmin (u_x0 (U a) + u_dx (U a) * y) (u_x0 (U a) + u_dx (U a) * m) = u_x0 (U a) + u_dx (U a) * Rmin y m).
          { unfold Rmin. destruct (Rle_dec y m) as [L|L]; destruct (Rle_dec (u_x0 (U a) + u_dx (U a) * y) (u_x0 (U a) + u_dx (U a) * m)) as [L'|L']; try reflexivity; exfalso.
            - apply L'. apply Rplus_le_compat_l, Rmult_le_compat_l; lra.
            - apply L. apply Rmult_le_reg_l with (u_dx (U a)); lra. }
          rewrite Mi. generalize (Rmin y m). intro z. unfold Rmax. destruct (Rle_dec 0 z) as [L|L]; destruct (Rle_dec (u_x0 (U a)) (u_x0 (U a) + u_dx (U a) * z)) as [L'|L']; try reflexivity; try ring; exfalso.
          - apply L'. assert (0 <= u_dx (U a) * z) by (apply Rmult_le_pos; lra). lra.
          - apply L. apply Rmult_le_reg_l with (u_dx (U a)); lra. }
        rewrite K. ring. }
      apply G. intros a J. apply in_seq in J. lia.
    - exact uf_sizes.
    - rewrite map_length, seq_length. symmetry. exact (proj1 (proj2 Uf)).
    - rewrite map_length, seq_length. symmetry. exact (proj1 (proj2 Uf)).
    - intros j J. rewrite (Hd j J). rewrite Rplus_assoc. f_equal. assert (Ej : map IZR j = map (fun a => IZR (nth a j 0%Z)) (seq 0 nd)) by (rewrite <- (map_map (fun a => nth a j 0%Z) IZR); f_equal; exact (idx_map j J)). rewrite Ej. unfold dot. rewrite map2_map. unfold weighted. generalize (seq 0 nd). clear. induction l as [|a l IH]; [cbn; ring|]. cbn [map fold_right]. rewrite IH. unfold point. ring.
  Qed.
  (** shifts by whole cells copy the data *)
  Lemma shift_cells (k : nat -> Z) : sf_real f = true -> (forall a, In a A -> d a = IZR (k a) * u_dx (U a)) ->
    exists g, shift_grid_by_linear f dx = Ok g /\ moved_axes A d U f g /\ same_rest f g /\
      forall idx, in_shape (a_shape (rf_data (sf_field f))) idx = true ->
        a_at (rf_data (sf_field g)) idx = RtoC (value f (map (fun a => nearest_index (Z.of_nat (u_n (U a))) (nth a idx 0 + (if existsb (Nat.eqb a) A then k a else 0))%Z) (seq 0 nd))).
  Proof.
    intros Er Hk. destruct (linear_ok Er) as (g & E & M & S & H). exists g. split; [exact E|]. split; [exact M|]. split; [exact S|]. intros idx I. rewrite H. f_equal. rewrite (positions idx I).
    replace (map (fun a => IZR (nth a idx 0%Z) + shift_of A d a / u_dx (U a)) (seq 0 nd)) with (map IZR (map (fun a => (nth a idx 0 + (if existsb (Nat.eqb a) A then k a else 0))%Z) (seq 0 nd))).
    - rewrite linear_int by (rewrite map_length, seq_length; symmetry; exact (proj1 (proj2 Uf))). rewrite uf_shape_map, map2_map. reflexivity.
    - rewrite map_map. apply map_ext_in. intros a J. apply in_seq in J. rewrite plus_IZR. f_equal. unfold shift_of. destruct (uf_shape f nd U Uf a ltac:(lia)) as (_ & _ & P). destruct (existsb (Nat.eqb a) A) eqn:Ex; [|unfold Rdiv; now rewrite Rmult_0_l].
      apply existsb_exists in Ex. destruct Ex as (b & Ib & Eb). apply Nat.eqb_eq in Eb. subst b. rewrite (Hk a Ib). field. lra.
  Qed.
  (** no value beyond those of the data *)
  Lemma shift_between lo hi : sf_real f = true -> (forall idx, in_shape (a_shape (rf_data (sf_field f))) idx = true -> lo <= value f idx <= hi) ->
    exists g, shift_grid_by_linear f dx = Ok g /\ forall idx, in_shape (a_shape (rf_data (sf_field f))) idx = true -> lo <= value g idx <= hi.
  Proof.
    intros Er Hb. destruct (linear_ok Er) as (g & E & _ & _ & H). exists g. split; [exact E|]. intros idx I. unfold value at 1 2. rewrite H. cbn [fst RtoC]. apply linear_between; [exact uf_sizes| |exact Hb].
    rewrite (positions idx I), map_length, seq_length. symmetry. exact (proj1 (proj2 Uf)).
  Qed.
  Lemma linear_complex : sf_real f = false -> shift_grid_by_linear f dx = Err NameError.
  Proof. intro Er. unfold shift_grid_by_linear. rewrite (uf_axes f nd U Uf), shift_list, shift_spacings. cbn [bind]. now rewrite Er. Qed.
  Lemma shift_with spl : shift_grid_with spl f dx Linear = shift_grid_by_linear f dx.
  Proof.
    unfold shift_grid_with. assert (E : mapM (fun p => rmap (fun i => (i, snd p)) (axesidentify (fst p))) dx = Ok dx).
    { unfold dx. rewrite <- (map_id (map _ A)) at 2. apply mapM_map. intros p I. apply in_map_iff in I. destruct I as (a & <- & I). cbn [fst snd].
      specialize (HA a I). destruct Uf as (C & En & _). pose proof (c_dims _ C). destruct a as [|[|[|a]]]; [reflexivity..|lia]. }
    rewrite E. reflexivity.
  Qed.
End Shift.

(** * the same for the method which chooses *)
Lemma with_affine spl f nd U A d c b : uniform_field f nd U -> (forall a, In a A -> (a < nd)%nat) -> sf_real f = true ->
  (forall idx, in_shape (a_shape (rf_data (sf_field f))) idx = true -> value f idx = c + weighted nd b (fun a => point (U a) (nth a idx 0%Z))) ->
  exists g, shift_grid_with spl f (map (fun a => (Z.of_nat a, d a)) A) Linear = Ok g /\ moved_axes A d U f g /\ same_rest f g /\
    forall idx, in_shape (a_shape (rf_data (sf_field f))) idx = true ->
      a_at (rf_data (sf_field g)) idx = RtoC (c + weighted nd b (fun a => nearest (U a) (point (moved_by (shift_of A d a) (U a)) (nth a idx 0%Z)))).
Proof. intros Uf HA Rf Hv. rewrite (shift_with f nd U A d Uf HA). exact (shift_affine f nd U A d Uf HA c b Rf Hv). Qed.
Lemma with_cells spl f nd U A d k : uniform_field f nd U -> (forall a, In a A -> (a < nd)%nat) -> sf_real f = true -> (forall a, In a A -> d a = IZR (k a) * u_dx (U a)) ->
  exists g, shift_grid_with spl f (map (fun a => (Z.of_nat a, d a)) A) Linear = Ok g /\ moved_axes A d U f g /\ same_rest f g /\
    forall idx, in_shape (a_shape (rf_data (sf_field f))) idx = true ->
      a_at (rf_data (sf_field g)) idx = RtoC (value f (map (fun a => nearest_index (Z.of_nat (u_n (U a))) (nth a idx 0%Z + (if existsb (Nat.eqb a) A then k a else 0%Z))) (seq 0 nd))).
Proof. intros Uf HA Rf Hv. rewrite (shift_with f nd U A d Uf HA). exact (shift_cells f nd U A d Uf HA k Rf Hv). Qed.
Lemma with_between spl f nd U A d lo hi : uniform_field f nd U -> (forall a, In a A -> (a < nd)%nat) -> sf_real f = true ->
  (forall idx, in_shape (a_shape (rf_data (sf_field f))) idx = true -> lo <= value f idx <= hi) ->
  exists g, shift_grid_with spl f (map (fun a => (Z.of_nat a, d a)) A) Linear = Ok g /\ forall idx, in_shape (a_shape (rf_data (sf_field f))) idx = true -> lo <= value g idx <= hi.
Proof. intros Uf HA Rf Hv. rewrite (shift_with f nd U A d Uf HA). exact (shift_between f nd U A d Uf HA lo hi Rf Hv). Qed.
