(** Fourier interpolation needs the origins (C88). *)
From Coq Require Import Reals String Ascii List ZArith Lia Lra Bool.
From Verif Require Import PyBase PyBaseFacts NumpyModel NdModel NdFacts FieldModel CplxModel CplxFacts FftModel FftSpec FftAxes FftKernel FftFacts FftLaws FftMore FftShift FftDemo UnstagFacts KspaceModel KspaceSpec KspaceFrame KspaceFacts KspaceTotal KspaceMatchSpec KspaceMatch KspaceDemo KspaceMissing.
Import ListNotations.
Local Open Scope R_scope.

Definition lost1 (ey bz : C) : store := [field1 "x" "m" grid1 true None (fun _ => ey); field1 "x" "m" grid1 true None (fun _ => bz)].
Definition place0 (a : nat) : uni := dual None grid1.
Lemma lost1_lives data : lives_on (field1 "x" "m" grid1 true None data) 1 place0.
Proof.
  destruct (field1_ok "x" "m" grid1 true None data grid1_proper) as (A1 & A2 & A3). apply (whole_lives true _ 1 (fun _ => grid1)); [exact A1|reflexivity|exact A2|exact A3|].
  intros a L. assert (a = 0%nat) by lia. subst a. reflexivity.
Qed.
Lemma lost_origin ey bz : exists s', kspace line_spline (fun f _ => Ok f) None (omega_free 1) IFourier (comp true 1) names1 (lost1 ey bz) = (s', Err TypeError).
Proof.
  rewrite kspace_unfold by lia. cbv zeta. change (dget names1 (comp true 1)) with (Some 0%nat). cbv iota.
  set (f := field1 "x" "m" grid1 true None (fun _ => ey)). set (g := field1 "x" "m" grid1 true None (fun _ => bz)).
  assert (Hf : nth_error (lost1 ey bz) 0 = Some f) by reflexivity. assert (Hg : nth_error (lost1 ey bz) 1 = Some g) by reflexivity.
  destruct (field1_wf true None (fun _ => ey)) as [W A]. fold f in W, A. destruct (field1_wf true None (fun _ => bz)) as [Wg Ag]. fold g in Wg, Ag.
  assert (Own : forall s a h, nth_error s a = Some h -> wellformed h -> all_in true h -> ensure_at line_spline true a s = (s, Ok a)) by (intros s a h H1 H2 H3; unfold ensure_at, sbind, load, lift; rewrite H1, (proj2 (in_domain_wf h true H2) H3); reflexivity).
  unfold sbind at 1. rewrite (Own _ _ _ Hf W A). unfold sbind at 1, load at 1. rewrite Hf. do 4 (unfold sbind at 1, lift at 1). assert (L := lost1_lives (fun _ => ey)). fold f in L. assert (Lg := lost1_lives (fun _ => bz)). fold g in Lg.
  assert (P1 : forall a, (a < 1)%nat -> proper (place0 a)) by (intros a La; apply (lives_proper f 1 _ L a La)).
  assert (P0 : (0 < 1)%nat) by lia. rewrite (lives_grids f 1 place0 P0 L A). destruct (grids_data 1 place0 P1) as (D1 & D2 & D3). cbv zeta in D1, D2, D3. rewrite D1, D2, D3.
  unfold sbind at 1. rewrite (other_copied _ _ _ _ _ _ _ _ _ _ _ _ _ names1 "Bz" 1 g (lost1 ey bz)) by reflexivity.
  set (s1 := lost1 ey bz ++ [g]). change (length (lost1 ey bz)) with 2%nat. assert (H2 : nth_error s1 2 = Some g) by reflexivity.
  assert (Rs : rstate (rf_ats g) (all_dims g) = Ok (Some true)) by reflexivity. unfold sbind at 1, lift at 1. rewrite Rs. unfold sbind at 1, sret at 1.
  unfold checked. unfold sbind at 1, load at 1. rewrite H2. unfold sbind at 1, lift at 1. rewrite Rs. unfold sbind at 1, lift at 1. rewrite (lives_grids g 1 place0 P0 Lg Ag).
  unfold sbind at 1, lift at 1. rewrite D1. unfold sbind at 1, lift at 1. rewrite D2.
  destruct (list_eq_dec Z.eq_dec (a_shape (rf_data g)) (a_shape (rf_data f))) as [_|N]; [|destruct N; reflexivity]. cbn [negb]. rewrite (all_close_map _ _ _ (fun _ _ => eq_refl)). cbn [negb]. cbv zeta.
  cbn [seq map length map2]. change (zrange (Z.of_nat 1)) with [0%Z]. cbn [combine forallb fst snd]. assert (Lt : Rltb (Rabs (u_x0 (place0 0) - u_x0 (place0 0))) (2 * u_dx (place0 0)) = true).
  { apply Rltb_iff. rewrite Rminus_diag_eq, Rabs_R0 by reflexivity. destruct (P1 0%nat P0). lra. }
  rewrite Lt. cbn [andb negb]. unfold sbind at 1, sret at 1. unfold sbind at 1. rewrite (Own s1 2%nat g H2 Wg Ag). unfold sbind at 1. unfold sbind at 1, load at 1. rewrite H2. unfold sbind at 1, lift at 1. cbn [rf_tao g field1 move_origins]. eexists. reflexivity.
Qed.
