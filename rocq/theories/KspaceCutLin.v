(** Reconstruction from parts of fields with linear interpolation (C83, C84). *)
From Coq Require Import Reals String Ascii List ZArith Lia Lra Bool.
From Verif Require Import PyBase PyBaseFacts NumpyModel NdModel NdFacts FieldModel CplxModel CplxFacts FftModel FftSpec FftDemo KspaceModel KspaceSpec KspaceFrame KspaceFacts KspaceTotal KspaceDemo KspaceCutSpec KspaceCut KspaceLinSpec KspaceLin KspaceMissing KspaceCutLinSpec.
Import ListNotations.
Local Open Scope R_scope.

Lemma parts_given spl lin ct omega el p nd W fields s s' a' M : linear_spline spl -> (p < 3)%nat -> (0 < nd)%nat -> all_there fields s -> kspace spl lin (Some ct) omega ILinear (comp el p) fields s = (s', Ok a') -> parts_moved spl lin ct el p nd W fields s M ->
  exists m f fm h s1 d b, dget fields (comp el p) = Some m /\ nth_error s m = Some f /\ ensure_domain spl f false = Ok fm /\ part_of spl ct fm f h /\ distinct d s1 /\ dget d (comp el p) = Some b /\ nth_error s1 b = Some h /\ given_moved spl lin el p nd W d s1 M /\
    kspace spl lin None omega ILinear (comp el p) d s1 = (s', Ok a').
Proof.
  intros Sp Hp Pn Th E PM. destruct (part_reduces spl lin ct omega ILinear el p fields s s' a' Hp Th E) as (m & f & fm & s1 & d & Hm & Hf & EF & Di & Get & E1).
  destruct (PM m f fm Hm Hf EF) as [P1 P2]. assert (Gm := Get (comp el p)). rewrite Hm in Gm. destruct (dget d (comp el p)) as [b|] eqn:Hb; [|contradiction]. destruct Gm as (g & h & G1 & G2 & G3). assert (g = f) by congruence. subst g. assert (Lh := P1 h G2).
  exists m, f, fm, h, s1, d, b. do 7 (split; [assumption|]). split; [|exact E1]. split; [exists b, h; auto|].
  intros key I. assert (Gk := Get key). destruct (dget d key) as [c|] eqn:Hc.
  - destruct (dget fields key) as [a|] eqn:Ha; [|contradiction]. destruct Gk as (g & hk & K1 & K2 & K3). destruct (P2 key a g hk I Ha K1 K2) as (V & L & Co & Mo). exists c, hk, V. auto.
  - exfalso. assert (Nh : ndim h = nd) by apply Lh. destruct (kspace_missing spl lin omega ILinear el p d s1 b h key Sp Hp (lives_wf h nd W Pn Lh) Hb G3) as (s2 & e & X); [rewrite Nh; now right|exact Hc|]. rewrite X in E1. discriminate E1.
Qed.
Lemma part_linear_formula spl lin ct omega el p nd W fields s s' a' M : linear_spline spl -> (p < 3)%nat -> (0 < nd)%nat -> all_there fields s -> kspace spl lin (Some ct) omega ILinear (comp el p) fields s = (s', Ok a') -> parts_moved spl lin ct el p nd W fields s M ->
  exists m f fm h F r, dget fields (comp el p) = Some m /\ nth_error s m = Some f /\ ensure_domain spl f false = Ok fm /\ part_of spl ct fm f h /\ ensure_domain spl h true = Ok F /\ nth_error s' a' = Some r /\
    rf_axes r = rf_axes F /\ rf_ats r = rf_ats F /\ rf_tao r = rf_tao F /\ a_shape (rf_data r) = a_shape (rf_data F) /\
    forall idx, let k := wave_vector (rf_axes F) idx in
      a_at (rf_data r) idx = Csub (a_at (rf_data F) idx) (Cmul (RtoC (factor el (omega (rf_axes F) idx) k)) (cross k (fun i => a_at (rf_data (M (comp (negb el) i))) idx) p)).
Proof.
  intros Sp Hp Pn Th E PM. destruct (parts_given spl lin ct omega el p nd W fields s s' a' M Sp Hp Pn Th E PM) as (m & f & fm & h & s1 & d & b & Hm & Hf & EF & Ph & Di & Hb & Hh & Gv & E1).
  destruct (linear_formula spl lin omega el p nd W d s1 M Sp Hp Pn Di Gv) as (s2 & a2 & b' & h' & F & r & X0 & X1 & X2 & X3 & X4 & X5). rewrite E1 in X0. injection X0 as <- <-. assert (b' = b) by congruence. subst b'. assert (h' = h) by congruence. subst h'.
  exists m, f, fm, h, F, r. auto 10.
Qed.
Lemma part_linear_wave spl lin ct omega (el : bool) p nd W fields s s' a' M (E B : nat -> C) idx sg : linear_spline spl -> (p < 3)%nat -> (0 < nd)%nat -> all_there fields s -> kspace spl lin (Some ct) omega ILinear (comp el p) fields s = (s', Ok a') -> parts_moved spl lin ct el p nd W fields s M ->
  exists m f fm h F r, dget fields (comp el p) = Some m /\ nth_error s m = Some f /\ ensure_domain spl f false = Ok fm /\ part_of spl ct fm f h /\ ensure_domain spl h true = Ok F /\ nth_error s' a' = Some r /\
  let k := wave_vector (rf_axes F) idx in let w := omega (rf_axes F) idx in
  w <> 0 -> dot3 k k <> 0 -> cdot k E = C0 -> (sg = 1 \/ sg = -1) -> (forall i, (i < 3)%nat -> B i = Cmul (RtoC (sg / w)) (cross k E i)) ->
  a_at (rf_data F) idx = (if el then E p else B p) -> (forall i, (i < 3)%nat -> In (comp (negb el) i) (tl (needed el p nd)) -> a_at (rf_data (M (comp (negb el) i))) idx = if el then B i else E i) ->
  a_at (rf_data r) idx = Cmul (RtoC (1 + sg)) (if el then E p else B p).
Proof.
  intros Sp Hp Pn Th K PM. destruct (parts_given spl lin ct omega el p nd W fields s s' a' M Sp Hp Pn Th K PM) as (m & f & fm & h & s1 & d & b & Hm & Hf & EF & Ph & Di & Hb & Hh & Gv & E1).
  destruct (linear_wave spl lin omega el p nd W d s1 M E B idx sg Sp Hp Pn Di Gv) as (s2 & a2 & b' & h' & F & r & X0 & X1 & X2 & X3 & X4 & X5). rewrite E1 in X0. injection X0 as <- <-. assert (b' = b) by congruence. subst b'. assert (h' = h) by congruence. subst h'.
  exists m, f, fm, h, F, r. auto 10.
Qed.
(** ** An example: four points each, of which the first two are used *)
Lemma wave4_moved ey bz : exists M, parts_moved line_spline to_grid1 first_two true 1 1 (fun _ => grid1) names1 (wave4 ey bz) M /\ exists s' a', kspace line_spline to_grid1 (Some first_two) (omega_free 1) ILinear (comp true 1) names1 (wave4 ey bz) = (s', Ok a').
Proof.
  set (pz := field1 "x" "m" grid1 false (Some 0) (fun _ => bz)). destruct (field1_wf false (Some 0) (fun _ => bz)) as [Wh _]. fold pz in Wh. destruct (ensure_wf line_spline _ true line_spline_ok Wh) as (H & EH & _).
  assert (Co : compatible ILinear 1 (fun _ => grid1) (fun _ => grid1)) by (intros a _; split; [reflexivity|]; split; [reflexivity|]; cbn; rewrite Rminus_diag_eq, Rabs_R0 by reflexivity; lra).
  assert (Mo : forall V, moved_spectrum line_spline to_grid1 1 (fun _ => grid1) V pz H) by (intro V; exists pz, pz; split; [apply in_domain_ensure; reflexivity|]; split; [reflexivity|]; split; [exact Wh|exact EH]).
  exists (fun _ => H). split.
  - intros m f fm Hm Hf _. split.
    + intros h (g & _ & [= <-]). apply off_lives, grid1_proper.
    + intros key a g h [<-|[]] [= <-] [= <-] (g0 & Eg & [= <-]). assert (Eg' : ensure_domain line_spline (field1 "x" "m" grid4 false (Some 0) (fun _ => bz)) false = Ok (field1 "x" "m" grid4 false (Some 0) (fun _ => bz))) by (apply in_domain_ensure; reflexivity). rewrite Eg' in Eg. injection Eg as <-.
      exists (fun _ => grid1). split; [apply off_lives, grid1_proper|]. split; [exact Co|]. exact (Mo _).
  - rewrite (kspace_split _ _ _ _ _ true 1 _ _ _ _ ltac:(lia) (wave4_cut line_spline ey bz)).
    destruct (linear_formula line_spline to_grid1 (omega_free 1) true 1 1 (fun _ => grid1) [("Ey"%string, 2%nat); ("Bz"%string, 3%nat)] (wave4 ey bz ++ wave1 false ey bz) (fun _ => H)) as (s2 & a2 & _ & _ & _ & _ & X & _); [exact line_spline_ok|lia|lia| | |exists s2, a2; exact X].
    + split.
      * intros k j c. cbn [dget]. destruct (String.eqb_spec "Ey" k) as [<-|], (String.eqb_spec "Ey" j) as [<-|]; try (destruct (String.eqb_spec "Bz" k) as [<-|]); try (destruct (String.eqb_spec "Bz" j) as [<-|]); intros; congruence.
      * intros k c. cbn [dget]. destruct (String.eqb "Ey" k); [|destruct (String.eqb "Bz" k); [|discriminate]]; intros [= <-]; cbn; lia.
    + split.
      * exists 2%nat. eexists. split; [reflexivity|]. split; [reflexivity|]. apply off_lives, grid1_proper.
      * intros key [<-|[]]. exists 3%nat, pz, (fun _ => grid1). split; [reflexivity|]. split; [reflexivity|]. split; [apply off_lives, grid1_proper|]. split; [exact Co|exact (Mo _)].
Qed.
