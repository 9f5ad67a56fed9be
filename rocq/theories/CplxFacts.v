(** Facts on complex numbers, finite sums and roots of unity. *)
From Coq Require Import Reals Ring Lra Lia ZArith.
From Verif Require Import CplxModel.
Local Open Scope R_scope.

Declare Scope C_scope.
Delimit Scope C_scope with C.
Bind Scope C_scope with C.
Infix "+" := Cadd : C_scope.
Infix "*" := Cmul : C_scope.
Infix "-" := Csub : C_scope.
Notation "- x" := (Copp x) : C_scope.

Lemma C_ext (a b : C) : fst a = fst b -> snd a = snd b -> a = b.
Proof. destruct a, b. cbn. intros -> ->. reflexivity. Qed.
Ltac cx := apply C_ext; unfold Csub, Cmul, Cadd, Copp, Cconj, RtoC, C0, C1, cis, Cabs2; cbn [fst snd].
Lemma C_ring : ring_theory C0 C1 Cadd Cmul Csub Copp eq.
Proof. split; intros; try reflexivity; cx; ring. Qed.
Add Ring C_ring_inst : C_ring.

Lemma RtoC_mul a b : RtoC (a * b) = (RtoC a * RtoC b)%C. Proof. cx; ring. Qed.
Lemma RtoC_add a b : RtoC (a + b) = (RtoC a + RtoC b)%C. Proof. cx; ring. Qed.
Lemma RtoC_1 : RtoC 1 = C1. Proof. reflexivity. Qed.
Lemma RtoC_0 : RtoC 0 = C0. Proof. reflexivity. Qed.
Lemma cis_add a b : cis (a + b) = (cis a * cis b)%C.
Proof. cx; [rewrite cos_plus|rewrite sin_plus]; ring. Qed.
Lemma cis_0 : cis 0 = C1. Proof. cx; [apply cos_0|apply sin_0]. Qed.
Lemma cis_opp a : cis (- a) = Cconj (cis a). Proof. cx; [apply cos_neg|apply sin_neg]. Qed.
Lemma cis_minus a b : cis (a - b) = (cis a * Cconj (cis b))%C. Proof. unfold Rminus. rewrite cis_add, cis_opp. reflexivity. Qed.
Lemma Cconj_mul a b : Cconj (a * b)%C = (Cconj a * Cconj b)%C. Proof. cx; ring. Qed.
Lemma Cconj_add a b : Cconj (a + b)%C = (Cconj a + Cconj b)%C. Proof. cx; ring. Qed.
Lemma Cconj_conj a : Cconj (Cconj a) = a. Proof. cx; ring. Qed.
Lemma Cconj_cis a : Cconj (cis a) = cis (- a). Proof. symmetry. apply cis_opp. Qed.
Lemma Cconj_RtoC a : Cconj (RtoC a) = RtoC a. Proof. cx; ring. Qed.
Lemma Cconj_C0 : Cconj C0 = C0. Proof. cx; ring. Qed.
Lemma Cabs2_conj a : Cabs2 (Cconj a) = Cabs2 a. Proof. unfold Cabs2, Cconj. cbn. ring. Qed.
Lemma Cabs2_mul a b : Cabs2 (a * b)%C = Cabs2 a * Cabs2 b. Proof. unfold Cabs2, Cmul. cbn. ring. Qed.
Lemma Cabs2_cis a : Cabs2 (cis a) = 1.
Proof. unfold Cabs2, cis. cbn. pose proof (sin2_cos2 a) as H. unfold Rsqr in H. lra. Qed.
Lemma Cabs2_RtoC a : Cabs2 (RtoC a) = a * a. Proof. unfold Cabs2, RtoC. cbn. ring. Qed.
Lemma Cabs2_eq a : RtoC (Cabs2 a) = (a * Cconj a)%C. Proof. cx; ring. Qed.
Lemma Cabs2_nonneg a : 0 <= Cabs2 a. Proof. unfold Cabs2. nra. Qed.
Lemma Cabs2_0 a : Cabs2 a = 0 -> a = C0. Proof. unfold Cabs2. intro H. cx; nra. Qed.
Lemma RtoC_inj a b : RtoC a = RtoC b -> a = b. Proof. unfold RtoC. congruence. Qed.
Lemma Cmul_zero z s : (z * s)%C = C0 -> z <> C0 -> s = C0.
Proof.
  intros H N. apply Cabs2_0. assert (E : Cabs2 (z * s)%C = 0) by (rewrite H; unfold Cabs2, C0; cbn; ring).
  rewrite Cabs2_mul in E. apply Rmult_integral in E. destruct E as [E|E]; [|exact E]. exfalso. apply N, Cabs2_0, E.
Qed.

(** ** sums *)
Lemma csum_ext n f g : (forall j, (j < n)%nat -> f j = g j) -> csum n f = csum n g.
Proof. induction n as [|n IH]; intro H; [reflexivity|]. cbn. rewrite IH by (intros; apply H; lia). now rewrite H by lia. Qed.
Lemma csum_add n f g : csum n (fun j => (f j + g j)%C) = (csum n f + csum n g)%C.
Proof. induction n as [|n IH]; cbn [csum]; [ring|]. rewrite IH. ring. Qed.
Lemma csum_scale n c f : csum n (fun j => (c * f j)%C) = (c * csum n f)%C.
Proof. induction n as [|n IH]; cbn [csum]; [ring|]. rewrite IH. ring. Qed.
Lemma csum_scale_r n c f : csum n (fun j => (f j * c)%C) = (csum n f * c)%C.
Proof. induction n as [|n IH]; cbn [csum]; [ring|]. rewrite IH. ring. Qed.
Lemma csum_zero n : csum n (fun _ => C0) = C0.
Proof. induction n as [|n IH]; cbn [csum]; [reflexivity|]. rewrite IH. ring. Qed.
Lemma csum_swap n m f : csum n (fun i => csum m (fun j => f i j)) = csum m (fun j => csum n (fun i => f i j)).
Proof. induction n as [|n IH]; cbn [csum]; [now rewrite csum_zero|]. rewrite IH. now rewrite csum_add. Qed.
Lemma csum_conj n f : Cconj (csum n f) = csum n (fun j => Cconj (f j)).
Proof. induction n as [|n IH]; cbn [csum]; [apply Cconj_C0|]. now rewrite Cconj_add, IH. Qed.
Lemma csum_single n k f : (k < n)%nat -> (forall j, (j < n)%nat -> j <> k -> f j = C0) -> csum n f = f k.
Proof.
  induction n as [|n IH]; intros L H; [lia|]. cbn [csum]. destruct (Nat.eq_dec k n) as [->|N].
  - rewrite (csum_ext n f (fun _ => C0)) by (intros; apply H; lia). rewrite csum_zero. ring.
  - rewrite IH by (lia || (intros; apply H; lia)). rewrite (H n) by lia. ring.
Qed.
Lemma csum_const n c : csum n (fun _ => c) = (RtoC (INR n) * c)%C.
Proof. induction n as [|n IH]; cbn [csum]; [change (RtoC (INR 0)) with C0; ring|]. rewrite IH, S_INR, RtoC_add, RtoC_1. ring. Qed.
Lemma rsum_csum n f : RtoC (rsum n f) = csum n (fun j => RtoC (f j)).
Proof. induction n as [|n IH]; cbn [csum rsum]; [reflexivity|]. now rewrite RtoC_add, IH. Qed.
Lemma rsum_ext n f g : (forall j, (j < n)%nat -> f j = g j) -> rsum n f = rsum n g.
Proof. induction n as [|n IH]; intro H; [reflexivity|]. cbn. rewrite IH by (intros; apply H; lia). now rewrite H by lia. Qed.
Lemma rsum_scale n c f : rsum n (fun j => c * f j) = c * rsum n f.
Proof. induction n as [|n IH]; cbn [rsum]; [ring|]. rewrite IH. ring. Qed.
Lemma rsum_add n f g : rsum n (fun j => f j + g j) = rsum n f + rsum n g.
Proof. induction n as [|n IH]; cbn [rsum]; [ring|]. rewrite IH. ring. Qed.
Lemma rsum_zero n : rsum n (fun _ => 0) = 0.
Proof. induction n as [|n IH]; cbn [rsum]; [reflexivity|]. rewrite IH. ring. Qed.
Lemma rsum_swap n m f : rsum n (fun i => rsum m (fun j => f i j)) = rsum m (fun j => rsum n (fun i => f i j)).
Proof. induction n as [|n IH]; cbn [rsum]; [now rewrite rsum_zero|]. rewrite IH. now rewrite rsum_add. Qed.
Lemma rsum_const n c : rsum n (fun _ => c) = INR n * c.
Proof. induction n as [|n IH]; [cbn; ring|]. cbn [rsum]. rewrite IH, S_INR. ring. Qed.

(** ** roots of unity *)
Lemma cis_period k : cis (2 * PI * IZR k) = C1.
Proof.
  assert (H : forall n : nat, cis (2 * PI * INR n) = C1).
  { induction n as [|n IH]; [cbn [INR]; rewrite Rmult_0_r; apply cis_0|]. rewrite S_INR.
    replace (2 * PI * (INR n + 1)) with (2 * PI * INR n + 2 * PI) by ring. rewrite cis_add, IH. cx; rewrite ?cos_2PI, ?sin_2PI; ring. }
  destruct (Z_le_gt_dec 0 k) as [P|P].
  - rewrite <- (Z2Nat.id k P), <- INR_IZR_INZ. apply H.
  - replace k with (- (- k))%Z by ring. rewrite opp_IZR. rewrite <- (Z2Nat.id (- k)) by lia. rewrite <- INR_IZR_INZ.
    replace (2 * PI * - INR (Z.to_nat (- k))) with (- (2 * PI * INR (Z.to_nat (- k)))) by ring. rewrite cis_opp, H. cx; ring.
Qed.
Lemma cis_one x : cis x = C1 -> exists k : Z, x = 2 * PI * IZR k.
Proof.
  intro H. assert (H1 := f_equal fst H). cbn in H1. assert (H2 : cos x = 1 - 2 * sin (x / 2) * sin (x / 2)).
  { rewrite <- cos_2a_sin. f_equal. field. }
  assert (S : sin (x / 2) = 0) by nra. apply sin_eq_0_0 in S. destruct S as [k K]. exists k. lra.
Qed.
Lemma geometric x n : ((cis x - C1) * csum n (fun j => cis (INR j * x)))%C = (cis (INR n * x) - C1)%C.
Proof.
  induction n as [|n IH]; cbn [csum]; [cbn [INR]; rewrite Rmult_0_l, cis_0; ring|].
  replace ((cis x - C1) * (csum n (fun j => cis (INR j * x)) + cis (INR n * x)))%C
    with ((cis x - C1) * csum n (fun j => cis (INR j * x)) + (cis x - C1) * cis (INR n * x))%C by ring.
  rewrite IH, S_INR. replace ((INR n + 1) * x) with (x + INR n * x) by ring. rewrite cis_add. ring.
Qed.
Lemma roots n (z : Z) : (0 < n)%nat -> (- Z.of_nat n < z < Z.of_nat n)%Z ->
  csum n (fun j => cis (2 * PI * INR j * IZR z / INR n)) = if (z =? 0)%Z then RtoC (INR n) else C0.
Proof.
  intros P B. assert (N0 : INR n <> 0) by (apply not_0_INR; lia). destruct (Z.eqb_spec z 0) as [->|NZ].
  - rewrite (csum_ext n _ (fun _ => C1)); [rewrite csum_const; ring|]. intros j J.
    replace (2 * PI * INR j * 0 / INR n) with 0 by (field; exact N0). apply cis_0.
  - set (x := 2 * PI * IZR z / INR n). rewrite (csum_ext n _ (fun j => cis (INR j * x))) by (intros j J; f_equal; unfold x; field; exact N0).
    apply Cmul_zero with (cis x - C1)%C.
    + rewrite geometric. replace (INR n * x) with (2 * PI * IZR z) by (unfold x; field; exact N0). rewrite cis_period. ring.
    + intro H. assert (E : cis x = C1). { transitivity (cis x - C1 + C1)%C; [ring|]. rewrite H. ring. }
      destruct (cis_one x E) as [k K]. assert (PI0 := PI_RGT_0). unfold x in K.
      assert (Z1 : IZR z = IZR k * INR n). { apply Rmult_eq_reg_l with (2 * PI); [|lra]. transitivity (2 * PI * IZR z / INR n * INR n); [field; exact N0|]. rewrite K. ring. }
      rewrite INR_IZR_INZ, <- mult_IZR in Z1. apply eq_IZR in Z1. assert (k = 0 \/ k <= -1 \/ 1 <= k)%Z by lia. nia.
Qed.
