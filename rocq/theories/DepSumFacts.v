(** Consequences of the cell formulas: totals, additivity, symmetry. *)
From Coq Require Import Lia Lqa Permutation Qround Qabs ZifyBool ZifyNat.
From Verif Require Import PyBase PyBaseFacts NumpyModel NumpyFacts QSum DepSpec DepModel DepFacts DepHistFacts.

(** *** Partition of unity *)
Lemma weights_sum o x xr : qsum (weights_of o x xr) == 1.
Proof. destruct o; cbn [weights_of]; rewrite ?qsum_cons, qsum_nil; field. Qed.

Lemma wnth_sum o x xr : qsum (map (wnth (weights_of o x xr)) (offsets o)) == 1.
Proof. rewrite <- (weights_sum o x xr). destruct o; reflexivity. Qed.

Lemma share_total ub o n x : cell_bounded o n (cell ub o x) ->
  qsum (map (fun j => share ub o x (Z.of_nat j)) (seq 0 (Z.to_nat (n + 2 * supp o)))) == 1.
Proof.
  intros B. unfold share. rewrite qsum_swap. rewrite <- (wnth_sum o x (cell ub o x)).
  apply qsum_map_ext. intros k K. pose proof (touched_in_bounds o n _ k B K) as T.
  rewrite (qsum_map_ext _ (fun j : nat => if (Z.of_nat j =? cell ub o x + base o + Z.of_nat k)%Z
     then wnth (weights_of o x (cell ub o x)) k else 0)) by (intros j _; rewrite Z.eqb_sym; reflexivity).
  rewrite qsum_delta. destruct ((0 <=? _) && (_ <? _))%Z eqn:E; [reflexivity|lia].
Qed.

(** sum over the padded cells, split into lower ghosts, cells and upper ghosts *)
Lemma qsum_three (f : Z -> Q) (s n : nat) :
  qsum (map (fun j => f (Z.of_nat j)) (seq 0 (n + 2 * s)))
  == qsum (map (fun j => f (Z.of_nat j)) (seq 0 s))
     + qsum (map (fun j => f (Z.of_nat j + Z.of_nat s)%Z) (seq 0 n))
     + qsum (map (fun j => f (Z.of_nat j + Z.of_nat (s + n))%Z) (seq 0 s)).
Proof.
  replace (n + 2 * s)%nat with (s + (n + s))%nat by lia.
  rewrite seq_app, map_app, qsum_app. rewrite (seq_app n s), map_app, qsum_app.
  assert (SH : forall a b, qsum (map (fun j => f (Z.of_nat j)) (seq a b))
     == qsum (map (fun j => f (Z.of_nat j + Z.of_nat a)%Z) (seq 0 b))).
  { intros a b. revert a. induction b as [|b IH]; intros a; [reflexivity|].
    rewrite !seq_S, !map_app, !qsum_app, IH. cbn [map]. rewrite !qsum_cons.
    replace (Z.of_nat (0 + b) + Z.of_nat a)%Z with (Z.of_nat (a + b)) by lia. reflexivity. }
  rewrite (SH (0 + s)%nat n), (SH (0 + s + n)%nat s). cbn [plus]. ring.
Qed.

Definition ub0 : Q -> Z := fun _ => 0%Z.

Lemma share_spline o x j : 0 <= x -> x < inject_Z int_max ->
  share ub0 o x j == bspline (degree o) (x - (inject_Z (j - supp o) + (1#2))).
Proof.
  intros A B. replace j with (j - supp o + supp o)%Z at 1 by lia.
  apply share_ref. apply ref_ok_from; [destruct o; lra|exact B].
Qed.

Lemma cell_bounded_inside o n x : 0 <= x -> x <= inject_Z n -> (n < int_max)%Z ->
  (degree o = 0%nat -> x < inject_Z n) -> cell_bounded o n (cell ub0 o x).
Proof.
  intros A B N D. assert (N' := N). rewrite Zlt_Qlt in N'.
  assert (R : ref_ok o x (cell ub0 o x)) by (apply ref_ok_from; [destruct o; lra|lra]).
  assert (P : (0 <= cell ub0 o x)%Z) by (apply cell_nonneg_fits; lra).
  assert (U : inject_Z (cell ub0 o x) < inject_Z (n + 1)).
  { rewrite inject_Z_plus. change (inject_Z 1) with 1. destruct o; cbn [ref_ok] in R; lra. }
  rewrite <- Zlt_Qlt in U. destruct o; cbn [cell_bounded]; try lia.
  cbn [ref_ok degree] in *. specialize (D eq_refl).
  assert (V : inject_Z (cell ub0 NGP x) < inject_Z n) by lra. rewrite <- Zlt_Qlt in V. lia.
Qed.

Lemma spline_sum_split o n x : (0 < n < int_max)%Z -> 0 <= x -> x <= inject_Z n ->
  (degree o = 0%nat -> x < inject_Z n) ->
  exists lo hi, 0 <= lo /\ 0 <= hi
   /\ lo + qsum (map (fun i => bspline (degree o) (x - (inject_Z (Z.of_nat i) + (1#2)))) (seq 0 (Z.to_nat n))) + hi == 1
   /\ (inject_Z (Z.of_nat (degree o)) * (1#2) <= x -> lo == 0)
   /\ (x <= inject_Z n - inject_Z (Z.of_nat (degree o)) * (1#2) -> hi == 0).
Proof.
  intros N A B D. assert (N' : (n < int_max)%Z) by lia. rewrite Zlt_Qlt in N'.
  assert (F : x < inject_Z int_max) by lra.
  pose proof (share_total ub0 o n x (cell_bounded_inside o n x A B ltac:(lia) D)) as T.
  pose proof (supp_nonneg o) as SN.
  replace (Z.to_nat (n + 2 * supp o)) with (Z.to_nat n + 2 * Z.to_nat (supp o))%nat in T by lia.
  rewrite qsum_three in T.
  eexists; eexists; split; [|split; [|split; [|split]]].
  3: { rewrite <- T. apply Qplus_comp; [apply Qplus_comp; [reflexivity|]|reflexivity].
       apply qsum_map_ext. intros i _. rewrite share_spline by assumption.
       replace (Z.of_nat i + Z.of_nat (Z.to_nat (supp o)) - supp o)%Z with (Z.of_nat i) by lia. reflexivity. }
  - apply qsum_nonneg. intros j _. rewrite share_spline by assumption. apply bspline_nonneg.
  - apply qsum_nonneg. intros j _. rewrite share_spline by assumption. apply bspline_nonneg.
  - intros H. apply qsum_zero. intros j J. apply in_seq in J. rewrite share_spline by assumption.
    destruct o; [cbn [supp] in J; lia|..]; (apply bspline_out_le; [cbn [degree]; lia|]);
    match goal with |- context [qabs (x - (inject_Z ?k + _))] => assert (K : (k <= -1)%Z) by lia end;
    rewrite Zle_Qle in K; change (inject_Z (-1)) with (- (1)) in K;
    cbn [degree] in H |- *; cbn [reach];
    (assert (HH : forall d : nat, inject_Z (Z.of_nat d) * (1#2) == inject_Z (Z.of_nat d) / 2) by (intros; field));
    cbn [Z.of_nat Pos.of_succ_nat Pos.succ] in H; injc H; rewrite qabs_pos by lra; lra.
  - intros H. apply qsum_zero. intros j J. apply in_seq in J. rewrite share_spline by assumption.
    destruct o; [cbn [supp] in J; lia|..]; (apply bspline_out_le; [cbn [degree]; lia|]);
    match goal with |- context [qabs (x - (inject_Z ?k + _))] => assert (K : (n <= k)%Z) by lia end;
    rewrite Zle_Qle in K;
    cbn [degree] in H |- *; cbn [reach];
    cbn [Z.of_nat Pos.of_succ_nat Pos.succ] in H; injc H; rewrite qabs_neg by lra; lra.
Qed.

Lemma pos_bounds spacing r n v : good_range spacing r n -> fst r <= v -> v <= snd r ->
  0 <= cell_pos r n v /\ cell_pos r n v <= inject_Z n.
Proof.
  intros (A & _ & N) L U. destruct r as [a b]. cbn [fst snd] in *. unfold cell_pos, cell_width. cbn [fst snd].
  assert (P : 0 < inject_Z n) by (apply inject_Z_pos; lia).
  assert (E : (v - a) / ((b - a) / inject_Z n) == (v - a) * inject_Z n / (b - a)) by (field; split; lra).
  rewrite E. split.
  - apply Qle_shift_div_l; [lra|]. nra.
  - apply Qle_shift_div_r; [lra|]. nra.
Qed.

Lemma pos_lt_upper spacing r n v : good_range spacing r n -> v < snd r -> cell_pos r n v < inject_Z n.
Proof.
  intros (A & _ & N) U. destruct r as [a b]. cbn [fst snd] in *. unfold cell_pos, cell_width. cbn [fst snd].
  assert (P : 0 < inject_Z n) by (apply inject_Z_pos; lia).
  assert (E : (v - a) / ((b - a) / inject_Z n) == (v - a) * inject_Z n / (b - a)) by (field; split; lra).
  rewrite E. apply Qlt_shift_div_r; [lra|]. nra.
Qed.

Lemma pos_gt_lower spacing r n v : good_range spacing r n -> fst r < v -> 0 < cell_pos r n v.
Proof.
  intros (A & _ & N) U. destruct r as [a b]. cbn [fst snd] in *. unfold cell_pos, cell_width. cbn [fst snd].
  assert (P : 0 < inject_Z n) by (apply inject_Z_pos; lia).
  assert (E : (v - a) / ((b - a) / inject_Z n) == (v - a) * inject_Z n / (b - a)) by (field; split; lra).
  rewrite E. apply Qlt_shift_div_l; [lra|]. nra.
Qed.

Lemma width_pos spacing r n : good_range spacing r n -> 0 < cell_width r n.
Proof.
  intros (A & _ & N). unfold cell_width. apply Qlt_shift_div_l; [apply inject_Z_pos; lia|]. lra.
Qed.

(** every particle in the closed range is deposited by its B-spline shares
    (order 0: unless it sits on the lower edge) *)
Lemma in_range_tested spacing r n v d : good_range spacing r n -> fst r <= v -> v <= snd r ->
  (d = 0%nat -> fst r < v) ->
  tested_cell d n (cell_pos r n v) /\ tested_sign d n (cell_pos r n v) /\ fits_int (cell_pos r n v).
Proof.
  intros G L U D. destruct (pos_bounds spacing r n v G L U) as [A B].
  assert (N : (n < int_max)%Z) by (unfold good_range in G; lia). rewrite Zlt_Qlt in N.
  assert (UO : upper_ok d n (cell_pos r n v)) by (unfold upper_ok; destruct d as [|[|[|[|d]]]]; lra).
  assert (P : d = 0%nat -> ~ cell_pos r n v == 0).
  { intros E. pose proof (pos_gt_lower spacing r n v G (D E)). lra. }
  split; [|split].
  - split; [|exact UO]. destruct d as [|[|[|d]]]; [exact (P eq_refl)|left; lra..].
  - split; [|exact UO]. destruct d as [|[|[|d]]]; [exact (P eq_refl)|left; lra..].
  - assert (0 < inject_Z (2^31-1)) by reflexivity.
    split; [lra|]. change (inject_Z (2^31-1)) with (inject_Z int_max). lra.
Qed.

Lemma shape_inside_pos spacing d r n v : good_range spacing r n -> shape_inside d r n v ->
  inject_Z (Z.of_nat d) * (1#2) <= cell_pos r n v
  /\ cell_pos r n v <= inject_Z n - inject_Z (Z.of_nat d) * (1#2).
Proof.
  intros G [A B]. pose proof (width_pos spacing r n G) as W. unfold cell_pos.
  destruct G as (R & _ & N). split.
  - apply Qle_shift_div_l; [exact W|]. lra.
  - apply Qle_shift_div_r; [exact W|].
    assert (E : inject_Z n * cell_width r n == snd r - fst r).
    { unfold cell_width. field. apply inject_Z_nz. lia. }
    assert (E2 : (inject_Z n - inject_Z (Z.of_nat d) * (1#2)) * cell_width r n
       == snd r - fst r - inject_Z (Z.of_nat d) * (1#2) * cell_width r n) by (rewrite <- E; ring).
    rewrite E2. lra.
Qed.

Lemma shape_inside_range spacing d r n v : good_range spacing r n -> shape_inside d r n v ->
  fst r <= v /\ v <= snd r.
Proof.
  intros G [A B]. pose proof (width_pos spacing r n G) as W.
  assert (0 <= inject_Z (Z.of_nat d)).
  { change 0 with (inject_Z 0). rewrite <- Zle_Qle. lia. }
  assert (0 <= inject_Z (Z.of_nat d) * (1#2) * cell_width r n).
  { apply Qmult_le_0_compat; [|lra]. lra. }
  lra.
Qed.

Lemma order_of_degree o : order_of (ShInt (Z.of_nat (degree o))) = Ok o.
Proof. destruct o; reflexivity. Qed.

(** shares of a particle over all cells of one coordinate *)
Lemma spline_sum_one spacing o r n v : good_range spacing r n -> shape_inside (degree o) r n v ->
  (degree o = 0%nat -> v < snd r) ->
  qsum (map (fun i => bspline (degree o) (cell_dist r n (Z.of_nat i) v)) (seq 0 (Z.to_nat n))) == 1.
Proof.
  intros G S D. destruct (shape_inside_range _ _ _ _ _ G S) as [L U].
  destruct (pos_bounds _ _ _ _ G L U) as [A B].
  destruct (shape_inside_pos _ _ _ _ _ G S) as [C E].
  destruct (spline_sum_split o n (cell_pos r n v)) as (lo & hi & _ & _ & T & ZL & ZH); try assumption.
  - unfold good_range in G; lia.
  - intros DO. apply (pos_lt_upper spacing); [exact G|]. apply D, DO.
  - rewrite (ZL C), (ZH E) in T. rewrite Qplus_0_l, Qplus_0_r in T. rewrite <- T.
    apply qsum_map_ext. intros i _. apply bspline_ext. apply (cell_dist_pos spacing). exact G.
Qed.

Lemma spline_sum_le spacing o r n v : good_range spacing r n -> fst r <= v -> v <= snd r ->
  let s := qsum (map (fun i => bspline (degree o) (cell_dist r n (Z.of_nat i) v)) (seq 0 (Z.to_nat n))) in
  0 <= s /\ s <= 1.
Proof.
  intros G L U s. split; [apply qsum_nonneg; intros; apply bspline_nonneg|].
  destruct (pos_bounds _ _ _ _ G L U) as [A B]. subst s.
  destruct (Qlt_le_dec (cell_pos r n v) (inject_Z n)) as [C|C].
  - destruct (spline_sum_split o n (cell_pos r n v)) as (lo & hi & L0 & H0 & T & _); try assumption.
    + unfold good_range in G; lia.
    + intros _; exact C.
    + rewrite (qsum_map_ext _ (fun i : nat => bspline (degree o) (cell_pos r n v - (inject_Z (Z.of_nat i) + (1#2)))))
        by (intros i _; apply bspline_ext, (cell_dist_pos spacing), G). lra.
  - destruct (degree o) as [|d] eqn:DO.
    + rewrite qsum_zero; [lra|]. intros i I. apply in_seq in I.
      rewrite (bspline_ext 0 _ (cell_pos r n v - (inject_Z (Z.of_nat i) + (1#2))))
        by (apply (cell_dist_pos spacing), G).
      apply (bspline0_out _ _ n); [unfold good_range in G; lia|right; exact C].
    + rewrite <- DO.
      destruct (spline_sum_split o n (cell_pos r n v)) as (lo & hi & L0 & H0 & T & _); try assumption.
      * unfold good_range in G; lia.
      * intros X; congruence.
      * rewrite (qsum_map_ext _ (fun i : nat => bspline (degree o) (cell_pos r n v - (inject_Z (Z.of_nat i) + (1#2)))))
        by (intros i _; apply bspline_ext, (cell_dist_pos spacing), G). lra.
Qed.

(** total over an array whose entries factorise *)
Lemma total1_qsum {A} n (F : Z -> A -> Q) (l : list A) h :
  (forall i, (0 <= i < n)%Z -> h [i] == qsum (map (F i) l)) ->
  total [n] h == qsum (map (fun a => qsum (map (fun i => F (Z.of_nat i) a) (seq 0 (Z.to_nat n)))) l).
Proof.
  intros H. cbn [total]. rewrite qsum_swap. apply qsum_map_ext.
  intros i I. apply in_seq in I. apply H. lia.
Qed.

Lemma total2_qsum {A} n m (F G : Z -> A -> Q) (W : A -> Q) (l : list A) h :
  (forall i j, (0 <= i < n)%Z -> (0 <= j < m)%Z -> h [i; j] == qsum (map (fun a => F i a * G j a * W a) l)) ->
  total [n; m] h == qsum (map (fun a =>
     qsum (map (fun i => F (Z.of_nat i) a) (seq 0 (Z.to_nat n)))
     * qsum (map (fun j => G (Z.of_nat j) a) (seq 0 (Z.to_nat m))) * W a) l).
Proof.
  intros H. cbn [total].
  transitivity (qsum (map (fun i => qsum (map (fun a => F (Z.of_nat i) a *
      qsum (map (fun j => G (Z.of_nat j) a) (seq 0 (Z.to_nat m))) * W a) l)) (seq 0 (Z.to_nat n)))).
  - apply qsum_map_ext. intros i I. apply in_seq in I.
    transitivity (qsum (map (fun j => qsum (map (fun a => F (Z.of_nat i) a * G (Z.of_nat j) a * W a) l)) (seq 0 (Z.to_nat m)))).
    + apply qsum_map_ext. intros j J. apply in_seq in J. apply H; lia.
    + rewrite qsum_swap. apply qsum_map_ext. intros a _. rewrite qsum_map_scale_r, qsum_map_scale. reflexivity.
  - rewrite qsum_swap. apply qsum_map_ext. intros a _.
    rewrite !qsum_map_scale_r. reflexivity.
Qed.

Lemma total3_qsum {A} n m q (F G K : Z -> A -> Q) (W : A -> Q) (l : list A) h :
  (forall i j k, (0 <= i < n)%Z -> (0 <= j < m)%Z -> (0 <= k < q)%Z ->
     h [i; j; k] == qsum (map (fun a => F i a * G j a * K k a * W a) l)) ->
  total [n; m; q] h == qsum (map (fun a =>
     qsum (map (fun i => F (Z.of_nat i) a) (seq 0 (Z.to_nat n)))
     * qsum (map (fun j => G (Z.of_nat j) a) (seq 0 (Z.to_nat m)))
     * qsum (map (fun j => K (Z.of_nat j) a) (seq 0 (Z.to_nat q))) * W a) l).
Proof.
  intros H.
  assert (R : total [n; m; q] h = qsum (map (fun i => total [m; q] (fun idx => h (Z.of_nat i :: idx))) (seq 0 (Z.to_nat n)))) by reflexivity.
  rewrite R.
  transitivity (qsum (map (fun i => qsum (map (fun a => F (Z.of_nat i) a *
      (qsum (map (fun j => G (Z.of_nat j) a) (seq 0 (Z.to_nat m))) *
      qsum (map (fun j => K (Z.of_nat j) a) (seq 0 (Z.to_nat q))) * W a)) l)) (seq 0 (Z.to_nat n)))).
  - apply qsum_map_ext. intros i I. apply in_seq in I.
    rewrite (total2_qsum m q G K (fun a => F (Z.of_nat i) a * W a) l).
    + apply qsum_map_ext. intros a _. ring.
    + intros j k J Kk. rewrite H by lia. apply qsum_map_ext. intros a _. ring.
  - rewrite qsum_swap. apply qsum_map_ext. intros a _. rewrite qsum_map_scale_r. ring.
Qed.

(** the total weight *)
Lemma qsum_snd_combine {A} (l : list A) w : (length l = length w)%nat ->
  qsum (map snd (combine l w)) = qsum w.
Proof.
  revert w. induction l as [|x l IH]; intros [|y w] H; cbn [combine map snd length] in *; try discriminate; [reflexivity|].
  rewrite !qsum_cons. f_equal. apply IH. lia.
Qed.

(** *** Public forms: the shape is given as its order 0..3 *)
Definition valid_order (d : nat) : Prop := (d <= 3)%nat.

Lemma order_of_valid d : valid_order d -> exists o, degree o = d /\ order_of (ShInt (Z.of_nat d)) = Ok o.
Proof.
  unfold valid_order. intros V. destruct d as [|[|[|[|d]]]]; [exists NGP|exists Tophat|exists Triangle|exists Spline3|lia];
    split; reflexivity.
Qed.

Lemma weights_ok ws n : (forall l, ws = Some l -> length l = n) ->
  length (weights_list ws n) = n.
Proof. destruct ws as [l|]; cbn; intros H; [apply H; reflexivity|apply repeat_length]. Qed.

(** a particle of the data lies in the range; for order 0 strictly above its lower end *)
Definition within (d : nat) (r : Q * Q) (v : Q) : Prop :=
  fst r <= v /\ v <= snd r /\ (d = 0%nat -> fst r < v).

Lemma hist1_shares_in_range ub spacing d data r n ws :
  valid_order d -> good_range spacing r n ->
  (forall l, ws = Some l -> length l = length data) ->
  Forall (within d r) data ->
  exists h edges, histogram ub spacing data r n ws (ShInt (Z.of_nat d)) = Ok (h, edges)
    /\ a_shape h = [n]
    /\ forall i, (0 <= i < n)%Z -> a_at h [i] ==
       qsum (map (fun vw => bspline d (cell_dist r n i (fst vw)) * snd vw)
              (combine data (weights_list ws (length data)))).
Proof.
  intros V G L F. destruct (order_of_valid d V) as (o & <- & O).
  destruct (histogram_exact ub spacing data r n ws _ o G O) as (h & e & H & Sh & _ & X).
  - rewrite weights_ok by exact L. lia.
  - rewrite Forall_forall in *. intros v I. destruct (F v I) as (A & B & C).
    destruct (in_range_tested spacing r n v _ G A B C) as (T & _ & FI). split; assumption.
  - exists h, e. repeat split; assumption.
Qed.

Lemma hist2_shares_in_range ub spacing d datax datay rx ry nx ny ws :
  valid_order d -> good_range spacing rx nx -> good_range spacing ry ny ->
  length datax = length datay -> (forall l, ws = Some l -> length l = length datax) ->
  Forall (within d rx) datax -> Forall (within d ry) datay ->
  exists h ex ey, histogram2d ub spacing datax datay ws rx ry nx ny (ShInt (Z.of_nat d)) = Ok (h, ex, ey)
    /\ a_shape h = [nx; ny]
    /\ forall i j, (0 <= i < nx)%Z -> (0 <= j < ny)%Z -> a_at h [i; j] ==
       qsum (map (fun vw => bspline d (cell_dist rx nx i (fst (fst vw))) *
                            bspline d (cell_dist ry ny j (snd (fst vw))) * snd vw)
              (combine (combine datax datay) (weights_list ws (length datax)))).
Proof.
  intros V G G' EL L F F'. destruct (order_of_valid d V) as (o & <- & O).
  destruct (histogram2d_exact ub spacing datax datay rx ry nx ny ws _ o G G' O EL) as (h & ex & ey & H & Sh & _ & _ & X).
  - rewrite weights_ok by exact L. lia.
  - rewrite Forall_forall in *. intros v I. destruct (F v I) as (A & B & C).
    destruct (in_range_tested spacing rx nx v _ G A B C) as (T & _ & FI). split; assumption.
  - rewrite Forall_forall in *. intros v I. destruct (F' v I) as (A & B & C).
    destruct (in_range_tested spacing ry ny v _ G' A B C) as (_ & T & FI). split; assumption.
  - exists h, ex, ey. repeat split; assumption.
Qed.

Lemma hist3_shares_in_range ub spacing d datax datay dataz rx ry rz nx ny nz ws :
  valid_order d -> good_range spacing rx nx -> good_range spacing ry ny -> good_range spacing rz nz ->
  length datax = length datay -> length datax = length dataz ->
  (forall l, ws = Some l -> length l = length datax) ->
  Forall (within d rx) datax -> Forall (within d ry) datay -> Forall (within d rz) dataz ->
  exists h ex ey ez,
    histogram3d ub spacing datax datay dataz ws rx ry rz nx ny nz (ShInt (Z.of_nat d)) = Ok (h, ex, ey, ez)
    /\ a_shape h = [nx; ny; nz]
    /\ forall i j k, (0 <= i < nx)%Z -> (0 <= j < ny)%Z -> (0 <= k < nz)%Z -> a_at h [i; j; k] ==
       qsum (map (fun vw => bspline d (cell_dist rx nx i (fst (fst (fst vw)))) *
                            bspline d (cell_dist ry ny j (snd (fst (fst vw)))) *
                            bspline d (cell_dist rz nz k (snd (fst vw))) * snd vw)
              (combine (combine (combine datax datay) dataz) (weights_list ws (length datax)))).
Proof.
  intros V G G' G'' EL EL' L F F' F''. destruct (order_of_valid d V) as (o & <- & O).
  destruct (histogram3d_exact ub spacing datax datay dataz rx ry rz nx ny nz ws _ o G G' G'' O EL EL')
    as (h & ex & ey & ez & H & Sh & _ & _ & _ & X).
  - rewrite weights_ok by exact L. lia.
  - rewrite Forall_forall in *. intros v I. destruct (F v I) as (A & B & C).
    destruct (in_range_tested spacing rx nx v _ G A B C) as (T & _ & FI). split; assumption.
  - rewrite Forall_forall in *. intros v I. destruct (F' v I) as (A & B & C).
    destruct (in_range_tested spacing ry ny v _ G' A B C) as (_ & T & FI). split; assumption.
  - rewrite Forall_forall in *. intros v I. destruct (F'' v I) as (A & B & C).
    destruct (in_range_tested spacing rz nz v _ G'' A B C) as (T & T' & FI). split; [|assumption].
    unfold tested_third. destruct (degree o) as [|[|k]]; assumption.
  - exists h, ex, ey, ez. repeat split; assumption.
Qed.

(** for order 0 the upper edge is outside the half open last cell *)
Definition wholly_inside (d : nat) (r : Q * Q) (n : Z) (v : Q) : Prop :=
  shape_inside d r n v /\ (d = 0%nat -> fst r < v /\ v < snd r).

Lemma wholly_within spacing d r n v : good_range spacing r n -> wholly_inside d r n v -> within d r v.
Proof.
  intros G [S D]. destruct (shape_inside_range _ _ _ _ _ G S). repeat split; try assumption. apply D.
Qed.

Lemma hist1_total ub spacing d data r n ws :
  valid_order d -> good_range spacing r n ->
  (forall l, ws = Some l -> length l = length data) ->
  Forall (wholly_inside d r n) data ->
  exists h edges, histogram ub spacing data r n ws (ShInt (Z.of_nat d)) = Ok (h, edges)
    /\ total (a_shape h) (a_at h) == qsum (weights_list ws (length data)).
Proof.
  intros V G L F.
  destruct (hist1_shares_in_range ub spacing d data r n ws V G L) as (h & e & H & Sh & X).
  { eapply Forall_impl; [|exact F]. intros v. apply (wholly_within spacing). exact G. }
  exists h, e. split; [exact H|]. rewrite Sh.
  rewrite (total1_qsum n (fun i vw => bspline d (cell_dist r n i (fst vw)) * snd vw) _ _ X).
  rewrite <- (qsum_snd_combine data (weights_list ws (length data))) by (rewrite weights_ok by exact L; reflexivity).
  apply qsum_map_ext. intros [v w] I. cbn [fst snd]. rewrite qsum_map_scale_r.
  apply in_combine_l in I. rewrite Forall_forall in F. destruct (F v I) as [S D].
  destruct (order_of_valid d V) as (o & <- & O).
  rewrite (spline_sum_one spacing) by (try assumption; intros E; apply D, E). ring.
Qed.

Lemma hist1_total_le ub spacing d data r n ws :
  valid_order d -> good_range spacing r n ->
  (forall l, ws = Some l -> length l = length data) ->
  Forall (within d r) data -> Forall (fun w => 0 <= w) (weights_list ws (length data)) ->
  exists h edges, histogram ub spacing data r n ws (ShInt (Z.of_nat d)) = Ok (h, edges)
    /\ (forall i, (0 <= i < n)%Z -> 0 <= a_at h [i])
    /\ total (a_shape h) (a_at h) <= qsum (weights_list ws (length data)).
Proof.
  intros V G L F FW.
  destruct (hist1_shares_in_range ub spacing d data r n ws V G L F) as (h & e & H & Sh & X).
  exists h, e. split; [exact H|]. rewrite Forall_forall in F, FW. split.
  - intros i I. rewrite X by exact I. apply qsum_nonneg. intros [v w] J. cbn [fst snd].
    apply Qmult_le_0_compat; [apply bspline_nonneg|]. apply FW. apply in_combine_r in J. exact J.
  - rewrite Sh.
    rewrite (total1_qsum n (fun i vw => bspline d (cell_dist r n i (fst vw)) * snd vw) _ _ X).
    rewrite <- (qsum_snd_combine data (weights_list ws (length data))) by (rewrite weights_ok by exact L; reflexivity).
    apply qsum_le. intros [v w] I. cbn [fst snd]. rewrite qsum_map_scale_r.
    destruct (F v) as (A & B & _); [apply in_combine_l in I; exact I|].
    assert (0 <= w) by (apply FW; apply in_combine_r in I; exact I).
    destruct (order_of_valid d V) as (o & <- & O).
    destruct (spline_sum_le spacing o r n v G A B) as [P Q]. nra.
Qed.

Lemma hist2_total ub spacing d datax datay rx ry nx ny ws :
  valid_order d -> good_range spacing rx nx -> good_range spacing ry ny ->
  length datax = length datay -> (forall l, ws = Some l -> length l = length datax) ->
  Forall (wholly_inside d rx nx) datax -> Forall (wholly_inside d ry ny) datay ->
  exists h ex ey, histogram2d ub spacing datax datay ws rx ry nx ny (ShInt (Z.of_nat d)) = Ok (h, ex, ey)
    /\ total (a_shape h) (a_at h) == qsum (weights_list ws (length datax)).
Proof.
  intros V G G' EL L F F'.
  destruct (hist2_shares_in_range ub spacing d datax datay rx ry nx ny ws V G G' EL L) as (h & ex & ey & H & Sh & X).
  { eapply Forall_impl; [|exact F]. intros v. apply (wholly_within spacing). exact G. }
  { eapply Forall_impl; [|exact F']. intros v. apply (wholly_within spacing). exact G'. }
  exists h, ex, ey. split; [exact H|]. rewrite Sh.
  rewrite (total2_qsum nx ny (fun i vw => bspline d (cell_dist rx nx i (fst (fst vw))))
     (fun i vw => bspline d (cell_dist ry ny i (snd (fst vw)))) snd _ _ X).
  rewrite <- (qsum_snd_combine (combine datax datay) (weights_list ws (length datax))) by
    (rewrite combine_length, <- EL, Nat.min_id, weights_ok by exact L; reflexivity).
  apply qsum_map_ext. intros [[v v'] w] I. cbn [fst snd].
  apply in_combine_l in I. rewrite Forall_forall in F, F'.
  destruct (F v) as [S D]; [apply in_combine_l in I; exact I|].
  destruct (F' v') as [S' D']; [apply in_combine_r in I; exact I|].
  destruct (order_of_valid d V) as (o & <- & O).
  rewrite (spline_sum_one spacing) by (try assumption; intros E; apply D, E).
  rewrite (spline_sum_one spacing) by (try assumption; intros E; apply D', E). ring.
Qed.

Lemma hist3_total ub spacing d datax datay dataz rx ry rz nx ny nz ws :
  valid_order d -> good_range spacing rx nx -> good_range spacing ry ny -> good_range spacing rz nz ->
  length datax = length datay -> length datax = length dataz ->
  (forall l, ws = Some l -> length l = length datax) ->
  Forall (wholly_inside d rx nx) datax -> Forall (wholly_inside d ry ny) datay ->
  Forall (wholly_inside d rz nz) dataz ->
  exists h ex ey ez,
    histogram3d ub spacing datax datay dataz ws rx ry rz nx ny nz (ShInt (Z.of_nat d)) = Ok (h, ex, ey, ez)
    /\ total (a_shape h) (a_at h) == qsum (weights_list ws (length datax)).
Proof.
  intros V G G' G'' EL EL' L F F' F''.
  destruct (hist3_shares_in_range ub spacing d datax datay dataz rx ry rz nx ny nz ws V G G' G'' EL EL' L)
    as (h & ex & ey & ez & H & Sh & X).
  { eapply Forall_impl; [|exact F]. intros v. apply (wholly_within spacing). exact G. }
  { eapply Forall_impl; [|exact F']. intros v. apply (wholly_within spacing). exact G'. }
  { eapply Forall_impl; [|exact F'']. intros v. apply (wholly_within spacing). exact G''. }
  exists h, ex, ey, ez. split; [exact H|]. rewrite Sh.
  rewrite (total3_qsum nx ny nz (fun i vw => bspline d (cell_dist rx nx i (fst (fst (fst vw)))))
     (fun i vw => bspline d (cell_dist ry ny i (snd (fst (fst vw)))))
     (fun i vw => bspline d (cell_dist rz nz i (snd (fst vw)))) snd _ _ X).
  rewrite <- (qsum_snd_combine (combine (combine datax datay) dataz) (weights_list ws (length datax))) by
    (rewrite !combine_length, <- EL, <- EL', !Nat.min_id, weights_ok by exact L; reflexivity).
  apply qsum_map_ext. intros [[[v v'] v''] w] I. cbn [fst snd].
  apply in_combine_l in I. rewrite Forall_forall in F, F', F''.
  destruct (F'' v'') as [S'' D'']; [apply in_combine_r in I; exact I|]. apply in_combine_l in I.
  destruct (F v) as [S D]; [apply in_combine_l in I; exact I|].
  destruct (F' v') as [S' D']; [apply in_combine_r in I; exact I|].
  destruct (order_of_valid d V) as (o & <- & O).
  rewrite (spline_sum_one spacing) by (try assumption; intros E; apply D, E).
  rewrite (spline_sum_one spacing) by (try assumption; intros E; apply D', E).
  rewrite (spline_sum_one spacing) by (try assumption; intros E; apply D'', E). ring.
Qed.

(** *** Order zero: counting *)
Lemma ngp_exact_any ub n x i : (0 <= i < n)%Z -> (n < int_max)%Z -> ~ x == 0 ->
  gated (acc_cell ub NGP n x) (share ub NGP x (i + supp NGP)) == bspline 0 (x - (inject_Z i + (1#2))).
Proof.
  intros I N Z. assert (N' := N). rewrite Zlt_Qlt in N'. cbn [acc_cell supp]. unfold gated.
  destruct (Qltb_spec 0 x) as [A|A]; cbn [andb].
  - destruct (Qltb_spec x (inject_Z n)) as [B|B].
    + apply (share_ref ub NGP). apply ref_ok_from; lra.
    + symmetry. apply (bspline0_out _ _ n); [exact I|]. right; lra.
  - symmetry. apply (bspline0_out _ _ n); [exact I|]. left. lra.
Qed.

(** lower edge of cell i *)
Definition edge (r : Q * Q) (n i : Z) : Q := fst r + inject_Z i * cell_width r n.

Lemma bspline0_cell spacing r n i v : good_range spacing r n ->
  bspline 0 (cell_dist r n i v) = if (edge r n i <=?q v) && (v <?q edge r n (i + 1)) then 1 else 0.
Proof.
  intros G. pose proof (width_pos spacing r n G) as W. unfold bspline.
  assert (E : (- (1#2) <=?q cell_dist r n i v) = (edge r n i <=?q v)).
  { unfold cell_dist, cell_centre, edge.
    destruct (Qleb_spec (- (1#2)) ((v - (fst r + (inject_Z i + (1#2)) * cell_width r n)) / cell_width r n)) as [A|A];
      destruct (Qleb_spec (fst r + inject_Z i * cell_width r n) v) as [B|B]; try reflexivity; exfalso.
    - apply B. apply Qmult_le_r with (z := cell_width r n) in A; [|exact W].
      assert (Y : (v - (fst r + (inject_Z i + (1#2)) * cell_width r n)) / cell_width r n * cell_width r n
        == v - (fst r + (inject_Z i + (1#2)) * cell_width r n)) by (field; lra).
      rewrite Y in A. lra.
    - apply A. apply Qle_shift_div_l; [exact W|]. lra. }
  assert (E' : (cell_dist r n i v <?q (1#2)) = (v <?q edge r n (i + 1))).
  { unfold cell_dist, cell_centre, edge.
    assert (IS : inject_Z (i + 1) == inject_Z i + 1) by (rewrite inject_Z_plus; reflexivity).
    destruct (Qltb_spec ((v - (fst r + (inject_Z i + (1#2)) * cell_width r n)) / cell_width r n) (1#2)) as [A|A];
      destruct (Qltb_spec v (fst r + inject_Z (i + 1) * cell_width r n)) as [B|B]; try reflexivity; exfalso.
    - apply B. apply Qmult_lt_r with (z := cell_width r n) in A; [|exact W].
      assert (Y : (v - (fst r + (inject_Z i + (1#2)) * cell_width r n)) / cell_width r n * cell_width r n
        == v - (fst r + (inject_Z i + (1#2)) * cell_width r n)) by (field; lra).
      rewrite Y in A. rewrite IS. lra.
    - apply A. apply Qlt_shift_div_r; [exact W|]. rewrite IS in B. lra. }
  rewrite E, E'. reflexivity.
Qed.

Lemma hist1_counts ub spacing data r n ws :
  good_range spacing r n -> (forall l, ws = Some l -> length l = length data) ->
  exists h edges, histogram ub spacing data r n ws (ShInt 0) = Ok (h, edges)
    /\ a_shape h = [n]
    /\ forall i, (0 <= i < n)%Z -> a_at h [i] ==
       qsum (map snd (filter (fun vw => (edge r n i <=?q fst vw) && (fst vw <?q edge r n (i + 1))
                                        && negb (fst vw ==?q fst r))
              (combine data (weights_list ws (length data))))).
Proof.
  intros G L. destruct (histogram_shares ub spacing data r n ws (ShInt 0) NGP G eq_refl) as (h & e & H & Sh & _ & X).
  { rewrite weights_ok by exact L. lia. }
  exists h, e. do 2 (split; [assumption|]). intros i I. rewrite X, qsum_filter.
  apply qsum_map_ext. intros [v w] _. cbn [fst snd].
  pose proof (scaled_pos spacing r n v G) as SP.
  set (x := scaled _ _ _) in *.
  assert (N : (n < int_max)%Z) by (unfold good_range in G; lia).
  destruct (Qeqb_spec v (fst r)) as [E|E].
  - rewrite andb_false_r.
    assert (Z : x == 0). { rewrite SP. unfold cell_pos. rewrite E.
      pose proof (width_pos spacing r n G). field. lra. }
    cbn [acc_cell]. destruct (Qltb_spec 0 x); [lra|]. cbn [andb gated]. ring.
  - cbn [negb]. rewrite andb_true_r.
    assert (Z : ~ x == 0).
    { intros Z. apply E. rewrite SP in Z. unfold cell_pos in Z.
      pose proof (width_pos spacing r n G).
      assert (Y : (v - fst r) / cell_width r n * cell_width r n == v - fst r) by (field; lra).
      rewrite Z in Y. lra. }
    rewrite ngp_exact_any by assumption.
    rewrite (bspline_ext 0 _ (cell_dist r n i v)) by (rewrite (cell_dist_pos spacing) by exact G; rewrite SP; reflexivity).
    rewrite (bspline0_cell spacing) by exact G.
    destruct ((_ <=?q v) && (v <?q _)); ring.
Qed.
