(** Facts about integrals of one line of samples. *)
From Coq Require Import Lia Lqa Setoid.
From Verif Require Import PyBase PyBaseFacts NumpyModel QSum AxisModel NdModel FieldModel FieldSpec IntegModel IntegSpec.

(** * Linear in the samples *)
Definition linear_on (n : nat) (F : list Q -> Q) : Prop :=
  forall y z w c, length y = n -> length z = n -> length w = n ->
    (forall i, (i < n)%nat -> nth i w 0 == nth i y 0 + c * nth i z 0) -> F w == F y + c * F z.
Lemma trapezoid_linear x : linear_on (length x) (trapezoid x).
Proof.
  induction x as [|x0 x IH]; intros y z w c Ly Lz Lw H.
  { destruct y; [|discriminate]. destruct z; [|discriminate]. destruct w; [|discriminate]. cbn. ring. }
  destruct y as [|y0 y], z as [|z0 z], w as [|w0 w]; try discriminate. cbn [length] in Ly, Lz, Lw.
  destruct x as [|x1 x].
  { destruct y; [|discriminate]. cbn. ring. }
  destruct y as [|y1 y], z as [|z1 z], w as [|w1 w]; try discriminate.
  change (trapezoid (x0 :: x1 :: x) (w0 :: w1 :: w)) with ((x1 - x0) * (w1 + w0) / 2 + trapezoid (x1 :: x) (w1 :: w)).
  change (trapezoid (x0 :: x1 :: x) (y0 :: y1 :: y)) with ((x1 - x0) * (y1 + y0) / 2 + trapezoid (x1 :: x) (y1 :: y)).
  change (trapezoid (x0 :: x1 :: x) (z0 :: z1 :: z)) with ((x1 - x0) * (z1 + z0) / 2 + trapezoid (x1 :: x) (z1 :: z)).
  assert (H0 : w0 == y0 + c * z0) by (exact (H 0%nat ltac:(cbn; lia))). assert (H1 : w1 == y1 + c * z1) by (exact (H 1%nat ltac:(cbn; lia))).
  rewrite (IH (y1 :: y) (z1 :: z) (w1 :: w) c); [|cbn in *; lia..|].
  - rewrite H0, H1. unfold Qdiv. ring.
  - intros i Hi. apply (H (S i)). cbn in *. lia.
Qed.
Lemma piece_linear h0 h1 y0 y1 y2 z0 z1 z2 w0 w1 w2 c : w0 == y0 + c * z0 -> w1 == y1 + c * z1 -> w2 == y2 + c * z2 ->
  simpson_piece h0 h1 w0 w1 w2 == simpson_piece h0 h1 y0 y1 y2 + c * simpson_piece h0 h1 z0 z1 z2.
Proof. intros E0 E1 E2. unfold simpson_piece. rewrite E0, E1, E2. unfold Qdiv. ring. Qed.
Lemma last_linear h0 h1 y0 y1 y2 z0 z1 z2 w0 w1 w2 c : w0 == y0 + c * z0 -> w1 == y1 + c * z1 -> w2 == y2 + c * z2 ->
  simpson_last h0 h1 w0 w1 w2 == simpson_last h0 h1 y0 y1 y2 + c * simpson_last h0 h1 z0 z1 z2.
Proof. intros E0 E1 E2. unfold simpson_last. rewrite E0, E1, E2. unfold Qdiv. ring. Qed.
Lemma pieces_unfold x0 x1 x2 x y0 y1 y2 y : simpson_pieces (x0 :: x1 :: x2 :: x) (y0 :: y1 :: y2 :: y)
  = simpson_piece (x1 - x0) (x2 - x1) y0 y1 y2 + simpson_pieces (x2 :: x) (y2 :: y).
Proof. reflexivity. Qed.
Lemma two_step (P : list Q -> Prop) : (forall x, (length x <= 2)%nat -> P x) -> (forall a b c x, P (c :: x) -> P (a :: b :: c :: x)) -> forall x, P x.
Proof.
  intros H0 H1 x. remember (length x) as n eqn:E. assert (L : (length x <= n)%nat) by lia. clear E. revert x L.
  induction n as [|n IH]; intros x L; [apply H0; lia|]. destruct x as [|a [|b [|c x]]]; try (apply H0; cbn; lia).
  apply H1, IH. cbn in *. lia.
Qed.
Lemma pieces_short x y : (length x <= 2)%nat -> simpson_pieces x y = 0.
Proof. destruct x as [|a [|b [|c x]]]; try reflexivity. cbn. lia. Qed.
Lemma pieces_linear x : linear_on (length x) (simpson_pieces x).
Proof.
  induction x as [x L|x0 x1 x2 x IH] using two_step; intros y z w c Ly Lz Lw H.
  { rewrite !pieces_short by exact L. ring. }
  destruct y as [|y0 [|y1 [|y2 y]]], z as [|z0 [|z1 [|z2 z]]], w as [|w0 [|w1 [|w2 w]]]; try discriminate.
  rewrite !pieces_unfold. rewrite (IH (y2 :: y) (z2 :: z) (w2 :: w) c); [|cbn in *; lia..|].
  - rewrite (piece_linear _ _ y0 y1 y2 z0 z1 z2 w0 w1 w2 c); [ring|..].
    + exact (H 0%nat ltac:(cbn; lia)).
    + exact (H 1%nat ltac:(cbn; lia)).
    + exact (H 2%nat ltac:(cbn; lia)).
  - intros i Hi. apply (H (S (S i))). cbn in *. lia.
Qed.
Lemma simpson_linear x : (1 <= length x)%nat -> linear_on (length x) (simpson x).
Proof.
  intros L1 y z w c Ly Lz Lw H. unfold simpson. rewrite Ly, Lz, Lw. destruct (Nat.even (length x)) eqn:E.
  - destruct (Nat.eqb_spec (length x) 2) as [E2|N2].
    + rewrite (H 0%nat), (H 1%nat) by lia. unfold Qdiv. ring.
    + assert (4 <= length x)%nat.
      { destruct (length x) as [|[|[|[|n]]]]; try discriminate; try lia. }
      rewrite (pieces_linear x y z w c) by assumption.
      rewrite (last_linear _ _ (nth (length x - 3) y 0) (nth (length x - 2) y 0) (nth (length x - 1) y 0)
                 (nth (length x - 3) z 0) (nth (length x - 2) z 0) (nth (length x - 1) z 0) _ _ _ c) by (apply H; lia). ring.
  - now apply pieces_linear.
Qed.
Lemma line_linear m x : (1 <= length x)%nat -> linear_on (length x) (line_integral m x).
Proof. destruct m; cbn [line_integral]; intro; [now apply simpson_linear|apply trapezoid_linear]. Qed.

(** * ... hence a sum of shares *)
Lemma nth_map_seq (g : nat -> Q) n i : (i < n)%nat -> nth i (map g (seq 0 n)) 0 = g i.
Proof.
  intro H. rewrite (nth_indep _ 0 (g 0%nat)) by (rewrite map_length, seq_length; lia). rewrite map_nth. now rewrite seq_nth.
Qed.
Lemma linear_sum n F y : linear_on n F -> length y = n ->
  F y == qsum (map (fun i => nth i y 0 * F (only n (Z.of_nat i))) (seq 0 n)).
Proof.
  intros HL Ly. set (cut := fun m => map (fun j => if (j <? m)%nat then nth j y 0 else 0) (seq 0 n)).
  assert (Lc : forall m, length (cut m) = n) by (intro; unfold cut; now rewrite map_length, seq_length).
  assert (Lo : forall i, length (only n i) = n) by (intro; unfold only; now rewrite map_length, seq_length).
  assert (G : forall m, (m <= n)%nat -> F (cut m) == qsum (map (fun i => nth i y 0 * F (only n (Z.of_nat i))) (seq 0 m))).
  { induction m as [|m IH]; intro Hm.
    - cbn [seq map]. rewrite qsum_nil. assert (E : F (cut 0%nat) == F (cut 0%nat) + 1 * F (cut 0%nat)).
      { apply HL; auto. intros i Hi. unfold cut. rewrite nth_map_seq by exact Hi. cbn. ring. }
      lra.
    - rewrite (HL (cut m) (only n (Z.of_nat m)) (cut (S m)) (nth m y 0)); auto.
      + rewrite IH by lia. rewrite seq_S, map_app, qsum_app. cbn [map]. rewrite qsum_cons, qsum_nil. cbn [Nat.add]. ring.
      + intros i Hi. unfold cut, only. rewrite !nth_map_seq by exact Hi.
        destruct (Nat.ltb_spec i (S m)), (Nat.ltb_spec i m), (Z.eqb_spec (Z.of_nat i) (Z.of_nat m)); try lia; try ring.
        replace i with m by lia. ring. }
  assert (E : F y == F (cut n) + 0 * F (cut n)).
  { apply HL; auto. intros i Hi. unfold cut. rewrite nth_map_seq by exact Hi. destruct (Nat.ltb_spec i n); [ring|lia]. }
  rewrite E, G by lia. ring.
Qed.

(** * Exact for polynomials *)
Definition steps (P : Q -> Q -> Prop) (x : list Q) : Prop := forall i, (S i < length x)%nat -> P (nth i x 0) (nth (S i) x 0).
Definition rising := steps Qlt.
Definition falling := steps (fun a b => b < a).
Definition strictly (x : list Q) : Prop := rising x \/ falling x.
Lemma steps_tail P a x : steps P (a :: x) -> steps P x.
Proof. intros H i Hi. apply (H (S i)). cbn. lia. Qed.
Lemma strictly_tail a x : strictly (a :: x) -> strictly x.
Proof. intros [H|H]; [left|right]; now apply steps_tail in H. Qed.
Lemma strictly_three a b c x : strictly (a :: b :: c :: x) -> (a < b /\ b < c) \/ (b < a /\ c < b).
Proof. intros [H|H]; [left|right]; (split; [apply (H 0%nat)|apply (H 1%nat)]; cbn; lia). Qed.
Lemma quadratic_proper a b c x x' : x == x' -> quadratic a b c x == quadratic a b c x'.
Proof. intro E. unfold quadratic. now rewrite E. Qed.
Lemma piece_exact a b c x0 x1 x2 : (x0 < x1 /\ x1 < x2) \/ (x1 < x0 /\ x2 < x1) ->
  simpson_piece (x1 - x0) (x2 - x1) (quadratic a b c x0) (quadratic a b c x1) (quadratic a b c x2)
  == quadratic_area a b c x2 - quadratic_area a b c x0.
Proof.
  intro H. assert (~ x1 - x0 == 0) by lra. assert (~ x2 - x1 == 0) by lra.
  unfold simpson_piece, quadratic, quadratic_area. field. split; [assumption|]. assumption.
Qed.
Lemma last_exact a b c x0 x1 x2 : (x0 < x1 /\ x1 < x2) \/ (x1 < x0 /\ x2 < x1) ->
  simpson_last (x1 - x0) (x2 - x1) (quadratic a b c x0) (quadratic a b c x1) (quadratic a b c x2)
  == quadratic_area a b c x2 - quadratic_area a b c x1.
Proof.
  intro H. assert (~ x1 - x0 == 0) by lra. assert (~ x2 - x0 == 0) by lra.
  unfold simpson_last, quadratic, quadratic_area. field. split; lra.
Qed.
Definition on_curve (a b c : Q) (x y : list Q) : Prop := forall i, (i < length x)%nat -> nth i y 0 == quadratic a b c (nth i x 0).
Lemma piece_ext h0 h1 y0 y1 y2 w0 w1 w2 : w0 == y0 -> w1 == y1 -> w2 == y2 -> simpson_piece h0 h1 w0 w1 w2 == simpson_piece h0 h1 y0 y1 y2.
Proof. intros E0 E1 E2. unfold simpson_piece. now rewrite E0, E1, E2. Qed.
Lemma last_ext h0 h1 y0 y1 y2 w0 w1 w2 : w0 == y0 -> w1 == y1 -> w2 == y2 -> simpson_last h0 h1 w0 w1 w2 == simpson_last h0 h1 y0 y1 y2.
Proof. intros E0 E1 E2. unfold simpson_last. now rewrite E0, E1, E2. Qed.
Lemma pieces_exact a b c n : forall x y, (length x = S (2 * n) \/ length x = S (S (2 * n)))%nat -> length y = length x -> strictly x -> on_curve a b c x y ->
  simpson_pieces x y == quadratic_area a b c (nth (2 * n) x 0) - quadratic_area a b c (nth 0 x 0).
Proof.
  induction n as [|n IH]; intros x y Lx Ly Hs Hc.
  { rewrite pieces_short by lia. change (2 * 0)%nat with 0%nat. ring. }
  destruct x as [|x0 [|x1 [|x2 x]]]; [cbn in Lx; lia..|]. destruct y as [|y0 [|y1 [|y2 y]]]; try discriminate.
  rewrite pieces_unfold. replace (2 * S n)%nat with (S (S (2 * n))) by lia.
  change (nth (S (S (2 * n))) (x0 :: x1 :: x2 :: x) 0) with (nth (2 * n) (x2 :: x) 0).
  rewrite (IH (x2 :: x) (y2 :: y)).
  - rewrite (piece_ext _ _ (quadratic a b c x0) (quadratic a b c x1) (quadratic a b c x2)).
    + rewrite piece_exact; [cbn [nth]; ring|]. exact (strictly_three x0 x1 x2 x Hs).
    + exact (Hc 0%nat ltac:(cbn; lia)).
    + exact (Hc 1%nat ltac:(cbn; lia)).
    + exact (Hc 2%nat ltac:(cbn; lia)).
  - cbn in *. lia.
  - cbn in *. lia.
  - now apply strictly_tail, strictly_tail in Hs.
  - intros i Hi. apply (Hc (S (S i))). cbn in *. lia.
Qed.
Lemma strictly_at x i : strictly x -> (S (S i) < length x)%nat ->
  (nth i x 0 < nth (S i) x 0 /\ nth (S i) x 0 < nth (S (S i)) x 0) \/ (nth (S i) x 0 < nth i x 0 /\ nth (S (S i)) x 0 < nth (S i) x 0).
Proof. intros [H|H] Hi; [left|right]; (split; apply H; lia). Qed.
Lemma simpson_exact a b c x y : (1 <= length x)%nat -> (length x <> 2%nat \/ a == 0) -> length y = length x -> strictly x -> on_curve a b c x y ->
  simpson x y == quadratic_area a b c (nth (length x - 1) x 0) - quadratic_area a b c (nth 0 x 0).
Proof.
  intros L1 L2 Ly Hs Hc. unfold simpson. rewrite Ly. destruct (Nat.even (length x)) eqn:E.
  - destruct (Nat.eqb_spec (length x) 2) as [E2|N2].
    + destruct L2 as [|Ha]; [contradiction|]. rewrite (Hc 0%nat), (Hc 1%nat) by lia. rewrite E2. cbn [Nat.sub]. unfold quadratic, quadratic_area. rewrite Ha. field.
    + apply Nat.even_spec in E as [k Ek]. assert (2 <= k)%nat by lia.
      rewrite (pieces_exact a b c (k - 1)) by (auto; lia).
      replace (length x - 1)%nat with (S (S (length x - 3))) by lia. replace (length x - 2)%nat with (S (length x - 3)) by lia.
      replace (2 * (k - 1))%nat with (S (length x - 3)) by lia.
      rewrite (last_ext _ _ (quadratic a b c (nth (length x - 3) x 0)) (quadratic a b c (nth (S (length x - 3)) x 0))
                 (quadratic a b c (nth (S (S (length x - 3))) x 0))) by (apply Hc; lia).
      rewrite last_exact; [ring|]. apply strictly_at; [exact Hs|lia].
  - assert (O : Nat.odd (length x) = true) by (unfold Nat.odd; now rewrite E). apply Nat.odd_spec in O as [k Ek].
    rewrite (pieces_exact a b c k) by (auto; lia). replace (2 * k)%nat with (length x - 1)%nat by lia. reflexivity.
Qed.
Lemma trapezoid_exact b c x : forall y, (1 <= length x)%nat -> length y = length x -> on_curve 0 b c x y ->
  trapezoid x y == quadratic_area 0 b c (nth (length x - 1) x 0) - quadratic_area 0 b c (nth 0 x 0).
Proof.
  induction x as [|x0 x IH]; intros y L1 Ly Hc; [cbn in L1; lia|]. destruct y as [|y0 y]; [discriminate|]. destruct x as [|x1 x].
  { destruct y; [|discriminate]. cbn [trapezoid length Nat.sub nth]. ring. }
  destruct y as [|y1 y]; [discriminate|].
  change (trapezoid (x0 :: x1 :: x) (y0 :: y1 :: y)) with ((x1 - x0) * (y1 + y0) / 2 + trapezoid (x1 :: x) (y1 :: y)).
  rewrite IH; [|cbn in *; lia..|].
  - replace (length (x0 :: x1 :: x) - 1)%nat with (S (length (x1 :: x) - 1)) by (cbn; lia). cbn [nth].
    assert (E0 : y0 == quadratic 0 b c x0) by (exact (Hc 0%nat ltac:(cbn; lia))). assert (E1 : y1 == quadratic 0 b c x1) by (exact (Hc 1%nat ltac:(cbn; lia))).
    rewrite E0, E1. unfold quadratic, quadratic_area. field.
  - intros i Hi. apply (Hc (S i)). cbn in *. lia.
Qed.

(** * No sign of its own *)
Lemma trapezoid_nonneg x : forall y, rising x -> (forall i, 0 <= nth i y 0) -> 0 <= trapezoid x y.
Proof.
  induction x as [|x0 x IH]; intros y Hs Hy; [cbn; lra|]. destruct y as [|y0 y]; [destruct x; cbn; lra|].
  destruct x as [|x1 x]; [cbn; lra|]. destruct y as [|y1 y]; [cbn; lra|].
  change (trapezoid (x0 :: x1 :: x) (y0 :: y1 :: y)) with ((x1 - x0) * (y1 + y0) / 2 + trapezoid (x1 :: x) (y1 :: y)).
  assert (H1 : x0 < x1) by (exact (Hs 0%nat ltac:(cbn; lia))). pose proof (Hy 0%nat) as Y0. pose proof (Hy 1%nat) as Y1. cbn [nth] in Y0, Y1.
  pose proof (IH (y1 :: y) (steps_tail _ _ _ Hs) (fun i => Hy (S i))).
  assert (0 <= (x1 - x0) * (y1 + y0)) by (apply Qmult_le_0_compat; lra).
  assert (E : (x1 - x0) * (y1 + y0) / 2 == (x1 - x0) * (y1 + y0) * (1 # 2)) by (field). rewrite E. lra.
Qed.
Definition even_steps (h : Q) := steps (fun a b => b - a == h).
Lemma piece_even h h0 h1 y0 y1 y2 : ~ h == 0 -> h0 == h -> h1 == h -> simpson_piece h0 h1 y0 y1 y2 == h * (1 # 3) * (y0 + 4 * y1 + y2).
Proof. intros N E0 E1. unfold simpson_piece. rewrite E0, E1. field. assumption. Qed.
Lemma last_even h h0 h1 y0 y1 y2 : ~ h == 0 -> h0 == h -> h1 == h -> simpson_last h0 h1 y0 y1 y2 == h * (1 # 12) * (5 * y2 + 8 * y1 - y0).
Proof. intros N E0 E1. unfold simpson_last. rewrite E0, E1. field. repeat split; lra. Qed.
Lemma hmul h a : 0 < h -> 0 <= a -> 0 <= h * a.
Proof. intros. apply Qmult_le_0_compat; lra. Qed.
Lemma pieces_even h n : 0 < h -> forall x y, (S (2 * n) <= length x)%nat -> length y = length x -> even_steps h x -> (forall i, 0 <= nth i y 0) ->
  0 <= simpson_pieces x y /\ ((1 <= n)%nat -> h * (4 # 3) * nth (2 * n - 1) y 0 <= simpson_pieces x y).
Proof.
  intro Hh. induction n as [|n IH]; intros x y Lx Ly Hs Hy.
  - split; [|lia]. clear Lx. revert y Ly Hs Hy. induction x as [x L|x0 x1 x2 x IHx] using two_step; intros y Ly Hs Hy.
    { rewrite pieces_short by exact L. lra. }
    destruct y as [|y0 [|y1 [|y2 y]]]; try discriminate. rewrite pieces_unfold.
    assert (E0 : x1 - x0 == h) by (exact (Hs 0%nat ltac:(cbn; lia))). assert (E1 : x2 - x1 == h) by (exact (Hs 1%nat ltac:(cbn; lia))).
    rewrite (piece_even h) by (auto; lra). pose proof (Hy 0%nat) as Y0. pose proof (Hy 1%nat) as Y1. pose proof (Hy 2%nat) as Y2. cbn [nth] in Y0, Y1, Y2.
    assert (0 <= simpson_pieces (x2 :: x) (y2 :: y)).
    { apply IHx; [cbn in *; lia|now apply steps_tail, steps_tail in Hs|intro i; apply (Hy (S (S i)))]. }
    pose proof (hmul h _ Hh Y0). pose proof (hmul h _ Hh Y1). pose proof (hmul h _ Hh Y2). lra.
  - destruct x as [|x0 [|x1 [|x2 x]]]; [cbn in Lx; lia..|]. destruct y as [|y0 [|y1 [|y2 y]]]; try discriminate. rewrite pieces_unfold.
    assert (E0 : x1 - x0 == h) by (exact (Hs 0%nat ltac:(cbn; lia))). assert (E1 : x2 - x1 == h) by (exact (Hs 1%nat ltac:(cbn; lia))).
    pose proof (Hy 0%nat) as Y0. pose proof (Hy 1%nat) as Y1. pose proof (Hy 2%nat) as Y2. cbn [nth] in Y0, Y1, Y2.
    destruct (IH (x2 :: x) (y2 :: y)) as [I1 I2]; [cbn in *; lia|cbn in *; lia|now apply steps_tail, steps_tail in Hs|intro i; apply (Hy (S (S i)))|].
    pose proof (hmul h _ Hh Y0). pose proof (hmul h _ Hh Y1). pose proof (hmul h _ Hh Y2).
    assert (EP : simpson_piece (x1 - x0) (x2 - x1) y0 y1 y2 == h * (1 # 3) * (y0 + 4 * y1 + y2)) by (apply piece_even; auto; lra).
    split; [rewrite EP; lra|]. intros _. destruct n as [|n].
    + cbn [Nat.mul Nat.sub Nat.add nth]. rewrite EP. lra.
    + specialize (I2 ltac:(lia)). replace (2 * S (S n) - 1)%nat with (S (S (2 * S n - 1))) by lia. cbn [nth] in *. rewrite EP. lra.
Qed.
Lemma simpson_nonneg h x y : 0 < h -> (1 <= length x)%nat -> length y = length x -> even_steps h x -> (forall i, 0 <= nth i y 0) -> 0 <= simpson x y.
Proof.
  intros Hh L1 Ly Hs Hy. unfold simpson. rewrite Ly. destruct (Nat.even (length x)) eqn:E.
  - destruct (Nat.eqb_spec (length x) 2) as [E2|N2].
    + assert (E0 : nth 1 x 0 - nth 0 x 0 == h) by (apply Hs; lia). rewrite E0. pose proof (Hy 0%nat). pose proof (Hy 1%nat).
      pose proof (hmul h _ Hh H). pose proof (hmul h _ Hh H0). assert (EQ : 1 / 2 == 1 # 2) by reflexivity. rewrite EQ. lra.
    + apply Nat.even_spec in E as [k Ek]. assert (2 <= k)%nat by lia.
      destruct (pieces_even h (k - 1) Hh x y) as [_ P]; [lia|assumption..|]. specialize (P ltac:(lia)).
      rewrite (last_even h); [|lra|..].
      * replace (2 * (k - 1) - 1)%nat with (length x - 3)%nat in P by lia.
        pose proof (hmul h _ Hh (Hy (length x - 1)%nat)). pose proof (hmul h _ Hh (Hy (length x - 2)%nat)). pose proof (hmul h _ Hh (Hy (length x - 3)%nat)). lra.
      * replace (length x - 2)%nat with (S (length x - 3)) by lia. apply Hs. lia.
      * replace (length x - 1)%nat with (S (length x - 2)) by lia. apply Hs. lia.
  - destruct (pieces_even h 0 Hh x y) as [P _]; auto.
Qed.
