(** Linear operators along one dimension of an array. *)
From Coq Require Import Reals Lra Lia ZArith List Ring.
From Verif Require Import PyBase PyBaseFacts NumpyModel NdModel CplxModel CplxFacts.
Import ListNotations.
Local Open Scope R_scope.

(** entries of an array *)
Definition arrf := list Z -> C.
Definition kop (a n : nat) (K : Z -> Z -> C) (F : arrf) : arrf :=
  fun idx => csum n (fun j => (K (nth a idx 0%Z) (Z.of_nat j) * F (upd idx a (Z.of_nat j)))%C).
(** multiplication with a function of one index *)
Definition sop (a : nat) (g : Z -> C) (F : arrf) : arrf := fun idx => (g (nth a idx 0%Z) * F idx)%C.

Lemma upd_comm {A} (l : list A) a b x y : a <> b -> upd (upd l a x) b y = upd (upd l b y) a x.
Proof. revert a b. induction l as [|h l IH]; intros [|a] [|b] N; cbn; try reflexivity; try congruence. f_equal. apply IH. congruence. Qed.
Lemma upd_upd {A} (l : list A) a x y : upd (upd l a x) a y = upd l a y.
Proof. revert a. induction l as [|h l IH]; intros [|a]; cbn; try reflexivity. f_equal. apply IH. Qed.
Lemma nth_upd_ne {A} (l : list A) a b x d : a <> b -> nth b (upd l a x) d = nth b l d.
Proof. revert a b. induction l as [|h l IH]; intros [|a] [|b] N; cbn; try reflexivity; try congruence. apply IH. congruence. Qed.
Lemma nth_upd_eq {A} (l : list A) a x d : (a < length l)%nat -> nth a (upd l a x) d = x.
Proof. revert a. induction l as [|h l IH]; intros [|a] L; cbn in *; try lia; [reflexivity|]. apply IH. lia. Qed.
Lemma upd_same {A} (l : list A) a d : upd l a (nth a l d) = l.
Proof. revert a. induction l as [|h l IH]; intros [|a]; cbn; try reflexivity. now rewrite IH. Qed.
Lemma upd_len {A} (l : list A) a x : length (upd l a x) = length l.
Proof. revert a. induction l as [|h l IH]; intros [|a]; cbn; try reflexivity. now rewrite IH. Qed.
Lemma in_shape_len sh idx : in_shape sh idx = true -> length idx = length sh.
Proof. revert idx. induction sh as [|n sh IH]; intros [|i idx] H; try discriminate; [reflexivity|]. cbn in *. f_equal. apply IH. now apply andb_prop in H. Qed.
Lemma in_shape_nth sh idx a : in_shape sh idx = true -> (a < length sh)%nat -> (0 <= nth a idx 0 < nth a sh 0)%Z.
Proof.
  revert idx a. induction sh as [|n sh IH]; intros [|i idx] [|a] H L; try discriminate; cbn in *; try lia.
  apply IH; [|lia]. now apply andb_prop in H.
Qed.
Lemma in_shape_upd sh idx a j : in_shape sh idx = true -> (0 <= j < nth a sh 0)%Z -> in_shape sh (upd idx a j) = true.
Proof.
  revert idx a. induction sh as [|n sh IH]; intros [|i idx] [|a] H L; try discriminate; cbn in *; try lia; try reflexivity.
  - apply andb_prop in H. destruct H as [H ->]. lia.
  - apply andb_prop in H. destruct H as [H H']. rewrite H. cbn. apply IH; assumption.
Qed.

Lemma kop_ext a n K F G idx : (forall j, (j < n)%nat -> F (upd idx a (Z.of_nat j)) = G (upd idx a (Z.of_nat j))) -> kop a n K F idx = kop a n K G idx.
Proof. intro H. unfold kop. apply csum_ext. intros j J. now rewrite H. Qed.
Lemma kop_ext_shape sh a K F G idx : in_shape sh idx = true -> (forall i, in_shape sh i = true -> F i = G i) ->
  kop a (Z.to_nat (nth a sh 0%Z)) K F idx = kop a (Z.to_nat (nth a sh 0%Z)) K G idx.
Proof. intros I H. apply kop_ext. intros j J. apply H, in_shape_upd; [exact I|lia]. Qed.
Lemma kop_comm a b n m K L F idx : a <> b -> kop a n K (kop b m L F) idx = kop b m L (kop a n K F) idx.
Proof.
  intro N. unfold kop.
  rewrite (csum_ext n _ (fun j => csum m (fun l => (K (nth a idx 0%Z) (Z.of_nat j) * (L (nth b idx 0%Z) (Z.of_nat l) * F (upd (upd idx a (Z.of_nat j)) b (Z.of_nat l))))%C))).
  2:{ intros j J. rewrite <- csum_scale. apply csum_ext. intros l Hl. now rewrite nth_upd_ne by exact N. }
  rewrite csum_swap. apply csum_ext. intros l Hl. rewrite <- csum_scale. apply csum_ext. intros j J.
  rewrite nth_upd_ne by congruence. rewrite upd_comm by exact N. ring.
Qed.
Lemma kop_sop_comm a b n K g F idx : a <> b -> kop a n K (sop b g F) idx = sop b g (kop a n K F) idx.
Proof.
  intro N. unfold kop, sop. rewrite <- csum_scale. apply csum_ext. intros j J. rewrite nth_upd_ne by exact N. ring.
Qed.
Lemma kop_sop a n K g h F idx : (a < length idx)%nat -> sop a g (kop a n K (sop a h F)) idx = kop a n (fun i j => (g i * K i j * h j)%C) F idx.
Proof.
  intro L. unfold sop, kop. rewrite <- csum_scale. apply csum_ext. intros j J. rewrite nth_upd_eq by exact L. ring.
Qed.
Lemma kop_kop a n K L F idx : (a < length idx)%nat ->
  kop a n K (kop a n L F) idx = kop a n (fun i j => csum n (fun l => (K i (Z.of_nat l) * L (Z.of_nat l) j)%C)) F idx.
Proof.
  intro Le. unfold kop.
  rewrite (csum_ext n _ (fun j => csum n (fun l => (K (nth a idx 0%Z) (Z.of_nat j) * L (Z.of_nat j) (Z.of_nat l) * F (upd idx a (Z.of_nat l)))%C))).
  2:{ intros j J. rewrite <- csum_scale. apply csum_ext. intros l Hl. rewrite nth_upd_eq by exact Le. rewrite upd_upd. ring. }
  rewrite csum_swap. apply csum_ext. intros l Hl. now rewrite csum_scale_r.
Qed.
(** a kernel supported on one column *)
Lemma kop_pick a n K F idx i0 c : (i0 < n)%nat -> (forall j, (j < n)%nat -> K (nth a idx 0%Z) (Z.of_nat j) = if (j =? i0)%nat then c else C0) ->
  kop a n K F idx = (c * F (upd idx a (Z.of_nat i0)))%C.
Proof.
  intros L H. unfold kop. rewrite (csum_single n i0); [rewrite H, Nat.eqb_refl by exact L; reflexivity|exact L|].
  intros j J N. rewrite H by exact J. destruct (Nat.eqb_spec j i0); [contradiction|]. ring.
Qed.

(** ** the Fourier kernels of two uniform grids *)
Definition fker (k0 dk x0 dx : R) : Z -> Z -> C := fun m j => cis (- ((k0 + IZR m * dk) * (x0 + IZR j * dx))).
Definition bker (x0 dx k0 dk : R) : Z -> Z -> C := fun j m => cis ((k0 + IZR m * dk) * (x0 + IZR j * dx)).
Lemma bker_fker n k0 dk x0 y0 dx j j' : (0 < n)%nat -> dk * dx = 2 * PI / INR n -> (0 <= j < Z.of_nat n)%Z -> (0 <= j' < Z.of_nat n)%Z ->
  csum n (fun m => (bker y0 dx k0 dk j (Z.of_nat m) * fker k0 dk x0 dx (Z.of_nat m) j')%C) =
  (cis (k0 * (y0 - x0 + IZR (j - j') * dx)) * csum n (fun m => cis (IZR (Z.of_nat m) * (dk * (y0 - x0)) + 2 * PI * INR m * IZR (j - j') / INR n)))%C.
Proof.
  intros P D J J'. rewrite <- csum_scale. apply csum_ext. intros m M. unfold bker, fker. rewrite <- !cis_add. f_equal. rewrite <- INR_IZR_INZ, minus_IZR.
  replace (2 * PI * INR m * (IZR j - IZR j') / INR n) with (INR m * (2 * PI / INR n) * (IZR j - IZR j')) by (field; apply not_0_INR; lia). rewrite <- D. ring.
Qed.
(** the grid unchanged: the inverse *)
Lemma fourier_inverse n k0 dk x0 dx j j' : (0 < n)%nat -> dk * dx = 2 * PI / INR n -> (0 <= j < Z.of_nat n)%Z -> (0 <= j' < Z.of_nat n)%Z ->
  csum n (fun m => (bker x0 dx k0 dk j (Z.of_nat m) * fker k0 dk x0 dx (Z.of_nat m) j')%C) = if (j =? j')%Z then RtoC (INR n) else C0.
Proof.
  intros P D J J'. rewrite (bker_fker n) by assumption.
  rewrite (csum_ext n _ (fun m => cis (2 * PI * INR m * IZR (j - j') / INR n))).
  2:{ intros m M. f_equal. ring. }
  rewrite roots by lia. destruct (Z.eqb_spec j j') as [->|N].
  - rewrite Z.sub_diag. cbn [Z.eqb]. replace (k0 * (x0 - x0 + 0 * dx)) with 0 by ring. rewrite cis_0. ring.
  - destruct (Z.eqb_spec (j - j') 0); [lia|]. ring.
Qed.
(** and the other way round *)
Lemma fourier_inverse' n k0 dk x0 dx m m' : (0 < n)%nat -> dk * dx = 2 * PI / INR n -> (0 <= m < Z.of_nat n)%Z -> (0 <= m' < Z.of_nat n)%Z ->
  csum n (fun j => (fker k0 dk x0 dx m (Z.of_nat j) * bker x0 dx k0 dk (Z.of_nat j) m')%C) = if (m =? m')%Z then RtoC (INR n) else C0.
Proof.
  intros P D J J'.
  rewrite (csum_ext n _ (fun j => (cis (x0 * (IZR (m' - m) * dk)) * cis (2 * PI * INR j * IZR (m' - m) / INR n))%C)).
  2:{ intros j M. unfold bker, fker. rewrite <- !cis_add. f_equal. rewrite <- INR_IZR_INZ, minus_IZR.
      replace (2 * PI * INR j * (IZR m' - IZR m) / INR n) with (INR j * (2 * PI / INR n) * (IZR m' - IZR m)) by (field; apply not_0_INR; lia). rewrite <- D. ring. }
  rewrite csum_scale, roots by lia. destruct (Z.eqb_spec m m') as [->|N].
  - rewrite Z.sub_diag. cbn [Z.eqb]. replace (x0 * (0 * dk)) with 0 by ring. rewrite cis_0. ring.
  - destruct (Z.eqb_spec (m' - m) 0); [lia|]. ring.
Qed.
(** several axes, one kernel for each *)
Definition kops (K : nat -> Z -> Z -> C) (n : nat -> nat) (axes : list nat) (F : arrf) : arrf := fold_right (fun a F => kop a (n a) (K a) F) F axes.
Definition sops (g : nat -> Z -> C) (axes : list nat) (F : arrf) : arrf := fold_right (fun a F => sop a (g a) F) F axes.
Lemma kops_ext sh K axes : forall F G idx, in_shape sh idx = true -> (forall i, in_shape sh i = true -> F i = G i) ->
  kops K (fun a => Z.to_nat (nth a sh 0%Z)) axes F idx = kops K (fun a => Z.to_nat (nth a sh 0%Z)) axes G idx.
Proof.
  induction axes as [|a axes IH]; intros F G idx I H; [now apply H|]. cbn [kops fold_right]. apply (kop_ext_shape sh); [exact I|]. intros i Hi. now apply IH.
Qed.
Lemma kops_sop K n b g axes : ~ In b axes -> forall F idx, kops K n axes (sop b g F) idx = sop b g (kops K n axes F) idx.
Proof.
  induction axes as [|a axes IH]; intros N F idx; [reflexivity|]. cbn [kops fold_right] in *. fold (kops K n axes (sop b g F)) in *. fold (kops K n axes F) in *.
  rewrite <- kop_sop_comm by (intro E; apply N; now left). apply kop_ext. intros j J. apply IH. intro E. apply N. now right.
Qed.
Lemma sops_kop b n K g axes : ~ In b axes -> forall F idx, sops g axes (kop b n K F) idx = kop b n K (sops g axes F) idx.
Proof.
  induction axes as [|a axes IH]; intros N F idx; [reflexivity|]. cbn [sops fold_right] in *. fold (sops g axes (kop b n K F)) in *. fold (sops g axes F) in *.
  rewrite kop_sop_comm by (intro E; apply N; now left). unfold sop. rewrite IH; [reflexivity|]. intro E. apply N. now right.
Qed.
Lemma sops_swap g b h axes : forall F idx, sops g axes (sop b h F) idx = sop b h (sops g axes F) idx.
Proof.
  induction axes as [|a axes IH]; intros F idx; [reflexivity|]. cbn [sops fold_right] in *. fold (sops g axes (sop b h F)) in *. fold (sops g axes F) in *.
  unfold sop at 1. rewrite IH. unfold sop. ring.
Qed.
Lemma kops_kop K n b m L axes : ~ In b axes -> forall F idx, kops K n axes (kop b m L F) idx = kop b m L (kops K n axes F) idx.
Proof.
  induction axes as [|a axes IH]; intros N F idx; [reflexivity|]. cbn [kops fold_right] in *. fold (kops K n axes (kop b m L F)) in *. fold (kops K n axes F) in *.
  rewrite <- kop_comm by (intro E; apply N; now left). apply kop_ext. intros j J. apply IH. intro E. apply N. now right.
Qed.
(** phases before and after belong to the kernels *)
Lemma sops_kops g K n h axes : NoDup axes -> forall F idx, (forall a, In a axes -> (a < length idx)%nat) ->
  sops g axes (kops K n axes (sops h axes F)) idx = kops (fun a i j => (g a i * K a i j * h a j)%C) n axes F idx.
Proof.
  induction axes as [|a axes IH]; intros ND F idx L; [reflexivity|]. inversion ND as [|? ? N ND']; subst. 
  transitivity (sop a (g a) (sops g axes (kop a (n a) (K a) (kops K n axes (sop a (h a) (sops h axes F))))) idx); [reflexivity|].
  transitivity (kop a (n a) (fun i j => (g a i * K a i j * h a j)%C) (kops (fun a i j => (g a i * K a i j * h a j)%C) n axes F) idx); [|reflexivity].
  transitivity (sop a (g a) (kop a (n a) (K a) (sop a (h a) (sops g axes (kops K n axes (sops h axes F))))) idx).
  - unfold sop at 1 3. f_equal. rewrite sops_kop by exact N. apply kop_ext. intros j J.
    transitivity (sops g axes (sop a (h a) (kops K n axes (sops h axes F))) (upd idx a (Z.of_nat j))).
    + assert (E : forall axes i (F G : arrf), (forall i, F i = G i) -> sops g axes F i = sops g axes G i).
      { clear. induction axes as [|b axes IH]; intros i F G H; [apply H|]. cbn [sops fold_right]. unfold sop. f_equal. now apply IH. }
      apply E. intro i. now apply kops_sop.
    + apply sops_swap.
  - rewrite kop_sop by (apply L; now left). apply kop_ext. intros j J. apply IH; [exact ND'|]. intros b B. rewrite upd_len. apply L. now right.
Qed.
(** inverse kernels *)
Lemma kops_inverse sh K L axes : NoDup axes -> (forall a, In a axes -> (a < length sh)%nat) ->
  (forall a i j, In a axes -> (0 <= i < nth a sh 0)%Z -> (0 <= j < nth a sh 0)%Z ->
     csum (Z.to_nat (nth a sh 0%Z)) (fun m => (L a i (Z.of_nat m) * K a (Z.of_nat m) j)%C) = if (i =? j)%Z then C1 else C0) ->
  forall F idx, in_shape sh idx = true ->
  kops L (fun a => Z.to_nat (nth a sh 0%Z)) axes (kops K (fun a => Z.to_nat (nth a sh 0%Z)) axes F) idx = F idx.
Proof.
  set (n := fun a => Z.to_nat (nth a sh 0%Z)). induction axes as [|a axes IH]; intros ND R H F idx I; [reflexivity|]. inversion ND as [|? ? N ND']; subst.
  cbn [kops fold_right]. fold (kops L n axes (kop a (n a) (K a) (fold_right (fun a F => kop a (n a) (K a) F) F axes))). fold (kops K n axes F).
  transitivity (kop a (n a) (L a) (kop a (n a) (K a) F) idx).
  - apply (kop_ext_shape sh); [exact I|]. intros i Hi. rewrite kops_kop by exact N. apply (kop_ext_shape sh); [exact Hi|]. intros i' Hi'.
    apply IH; [exact ND'|intros b B; apply R; now right|intros b i0 j0 B; apply H; now right|exact Hi'].
  - assert (Ra : (a < length sh)%nat) by (apply R; now left). assert (B := in_shape_nth sh idx a I Ra). assert (Le := in_shape_len sh idx I).
    rewrite kop_kop by lia. rewrite (kop_pick a (n a) _ F idx (Z.to_nat (nth a idx 0%Z)) C1).
    + rewrite Z2Nat.id by lia. rewrite upd_same. ring.
    + unfold n. lia.
    + intros j J. unfold n in *. rewrite H by (try (now left); lia). destruct (Z.eqb_spec (nth a idx 0%Z) (Z.of_nat j)), (Nat.eqb_spec j (Z.to_nat (nth a idx 0%Z))); try reflexivity; lia.
Qed.
