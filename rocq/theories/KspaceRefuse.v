(** What kspace_propagate refuses (C88). *)
From Coq Require Import Reals String Ascii List ZArith Lia Lra Bool.
From Verif Require Import PyBase PyBaseFacts NumpyModel NdModel NdFacts FieldModel CplxModel CplxFacts FftModel FftSpec FftAxes FftKernel FftFacts FftLaws FftMore FftShift KspaceModel KspaceSpec KspaceFrame KspaceFacts KspaceTotal KspaceProp KspaceMatchSpec.
Import ListNotations.
Local Open Scope R_scope.

Lemma all_axes_bool ats b l : (forall a, In a l -> exists s, nth_error ats a = Some (Some s)) ->
  exists r, all_axes (fun i => rmap (state_is b) (getidx ats i)) (map Z.of_nat l) = Ok r /\ (r = true <-> forall a, In a l -> nth_error ats a = Some (Some b)).
Proof.
  induction l as [|a l IH]; intro H.
  - exists true. split; [reflexivity|]. split; [intros _ a []|reflexivity].
  - destruct (H a (or_introl eq_refl)) as [s Es]. destruct IH as (r & Er & Ir); [intros; apply H; now right|]. cbn [map all_axes]. rewrite (getidx_nat _ _ _ Es). cbn [rmap bind state_is].
    replace (Bool.eqb b s) with (Bool.eqb s b) by (destruct s, b; reflexivity). destruct (Bool.eqb s b) eqn:Eb.
    + apply Bool.eqb_prop in Eb. subst s. exists r. split; [exact Er|]. rewrite Ir. split; [intros K c [<-|I]; auto|intros K c I; apply K; now right].
    + exists false. split; [reflexivity|]. split; [discriminate|]. intro K. specialize (K a (or_introl eq_refl)). rewrite Es in K. injection K as ->. rewrite Bool.eqb_reflx in Eb. discriminate Eb.
Qed.
Lemma mixed_state f : wellformed f -> (~ exists b, all_in b f) -> rstate (rf_ats f) (all_dims f) = Ok None.
Proof.
  intros (C & (U & G) & P & Hb) N. rewrite (all_dims_grid f U G). unfold rstate.
  assert (H : forall b, all_axes (fun i => rmap (state_is b) (getidx (rf_ats f) i)) (map Z.of_nat (seq 0 (ndim f))) = Ok false).
  { intro b. destruct (all_axes_bool (rf_ats f) b (seq 0 (ndim f))) as (r & E & I); [intros a I; apply in_seq in I; apply Hb; lia|]. destruct r; [|exact E]. destruct N. exists b. exact (proj1 I eq_refl). }
  now rewrite (H true), (H false).
Qed.
Lemma propagate_refused c spl p n a s f : linear_spline spl -> wellformed f -> nth_error s a = Some f -> refused p n f -> exists s', kspace_propagate c spl p n a s = (s', Err ValueError).
Proof.
  intros Sp Wf H [L|[L Cs]]; unfold kspace_propagate; [destruct (Z.ltb_spec n 0); [|lia]; eexists; reflexivity|]. destruct (Z.ltb_spec n 0); [lia|].
  destruct (Z.to_nat n) as [|m] eqn:En; [lia|]. assert (Hm : (2 <= n)%Z -> m <> 0%nat) by lia. clear En H0 L. unfold prop_run. unfold sbind at 1. unfold prop_start. unfold sbind at 1, load at 1. rewrite H. unfold sbind at 1, lift at 1.
  destruct Cs as [N|Cs]; [rewrite (mixed_state f Wf N); eexists; reflexivity|].
  assert (D : (exists b, all_in b f) \/ ~ exists b, all_in b f).
  { destruct Wf as (C & _ & P & Hb). destruct (all_axes_bool (rf_ats f) true (seq 0 (ndim f))) as (r & _ & I); [intros b I; apply in_seq in I; apply Hb; lia|].
    destruct (all_axes_bool (rf_ats f) false (seq 0 (ndim f))) as (r' & _ & I'); [intros b J; apply in_seq in J; apply Hb; lia|].
    destruct r; [left; exists true; exact (proj1 I eq_refl)|]. destruct r'; [left; exists false; exact (proj1 I' eq_refl)|]. right. intros [[|] K]; [apply I in K|apply I' in K]; discriminate K. }
  destruct D as [[st A]|N]; [|rewrite (mixed_state f Wf N); eexists; reflexivity]. rewrite (wf_state f st Wf A).
  assert (Wf' := Wf). destruct Wf' as (C & (U & G) & P & Hb). destruct (fft_full spl f st U Sp C P G A) as (F & EF & NF & CF & ShF & GF & AF & _).
  set (k := if st then f else F). assert (Ek : exists s1 a1, (if st then sret a else fft_at spl a) s = (s1, Ok a1) /\ nth_error s1 a1 = Some k).
  { destruct st; [exists s, a; split; [reflexivity|exact H]|]. exists (s ++ [F]), (length s). split; [unfold fft_at, sbind, load, lift, alloc; now rewrite H, EF|]. now rewrite nth_error_app2, Nat.sub_diag by lia. }
  destruct Ek as (s1 & a1 & E1 & H1). unfold sbind at 1. rewrite E1. unfold sbind at 1, load at 1. rewrite H1.
  assert (Dk : dims (a_shape (rf_data k)) = Z.of_nat (ndim f)) by (unfold k; destruct st; [|rewrite ShF]; now apply wf_dims).
  destruct Cs as [(v & Ev & Lv)|[(Ev & Rm)|(Ev & Mv & Z)]]; rewrite Ev; cbv iota.
  - rewrite Dk. destruct (Z.eqb_spec (Z.of_nat (length v)) (Z.of_nat (ndim f))); [lia|]. eexists. reflexivity.
  - unfold sbind at 1, sret at 1. rewrite Rm. cbn [truth]. eexists. reflexivity.
  - unfold sbind at 1, sret at 1. destruct (truth (p_remove p)); [eexists; reflexivity|]. unfold sbind at 1, sret at 1. rewrite Mv. cbn [truth]. unfold sret at 1. cbv beta iota.
    assert (Wd : forall m', m' <> 0%nat -> forall g s, g_window g <> None -> exists s', (match m' with O => sret [] | S _ => match g_window g, @None (list R) with Some _, None => lift (Err ValueError) | _, _ => prop_steps spl m' g end end) s = (s', @Err (list nat) ValueError)).
    { intros [|m'] N g u Hg; [congruence|]. destruct (g_window g); [|congruence]. eexists. reflexivity. }
    destruct (p_zeroth p).
    + assert (EZ : exists s2 y, shown spl (mkgen (negb st) (fun idx => cis (- (omega_free c (rf_axes k) idx * p_dt p))) (Some [(0%Z, 0)]) a1) a1 s1 = (s2, Ok y)).
      { unfold shown. cbn [g_fft]. destruct st; cbn [negb]; [do 2 eexists; reflexivity|]. unfold fft_at, sbind, load, lift, alloc. rewrite H1. unfold k.
        destruct (fft_full spl F true (VV f U) Sp CF) as (r & Er & _); [lia|now rewrite NF|exact AF|]. rewrite Er. do 2 eexists. reflexivity. }
      destruct EZ as (s2 & y & E2). unfold sbind at 1. unfold sbind at 1. cbn [g_cur]. rewrite E2. unfold sret at 1. cbv beta iota zeta. unfold sbind at 1.
      match goal with |- context [g_window ?g] => destruct (Wd m (Hm (Z eq_refl)) g s2 ltac:(discriminate)) as (s3 & E3) end. rewrite E3. eexists. reflexivity.
    + unfold sbind at 1, sret at 1. cbv beta iota zeta. unfold sbind at 1. cbn [g_window]. eexists. reflexivity.
Qed.
