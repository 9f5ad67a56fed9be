(** Missing and superfluous fields in kspace with an extent (C86). *)
From Coq Require Import Reals String Ascii List ZArith Lia Lra Bool.
From Verif Require Import PyBase PyBaseFacts NumpyModel NdModel NdFacts FieldModel CplxModel CplxFacts FftModel FftSpec FftAxes FftKernel FftFacts FftLaws FftDemo KspaceModel KspaceSpec KspaceFrame KspaceFacts KspaceTotal KspaceDemo KspaceCutSpec KspaceCut KspaceEpochCut KspaceMissing.
Import ListNotations.
Local Open Scope R_scope.

Lemma cut_first spl lin ct omega ip el p fields s : (p < 3)%nat ->
  (exists s1 d, cut_fields spl (Some ct) (comp el p) fields s = (s1, Ok d)) \/
  exists s1 e, cut_fields spl (Some ct) (comp el p) fields s = (s1, Err e) /\ kspace spl lin (Some ct) omega ip (comp el p) fields s = (s1, Err e).
Proof.
  intro Hp. destruct (cut_fields spl (Some ct) (comp el p) fields s) as [s1 [d|e]] eqn:E; [left; now exists s1, d|right]. exists s1, e. split; [reflexivity|].
  destruct (axis_comp p Hp) as (ax & E1 & E2 & _). destruct el; [rewrite E1 in *|rewrite E2 in *]; cbn [kspace]; unfold sbind at 1; rewrite E; reflexivity.
Qed.
Lemma missing_cut spl lin ct omega ip el p fields s m f fm key : linear_spline spl -> (p < 3)%nat -> all_there fields s -> dget fields (comp el p) = Some m -> nth_error s m = Some f -> ensure_domain spl f false = Ok fm ->
  (forall h, part_of spl ct fm f h -> wellformed h /\ In key (needed el p (ndim h))) -> dget fields key = None ->
  exists s' e, kspace spl lin (Some ct) omega ip (comp el p) fields s = (s', Err e).
Proof.
  intros Sp Hp Th Hm Hf EF Wf M. destruct (cut_first spl lin ct omega ip el p fields s Hp) as [(s1 & d & E)|(s1 & e & _ & E)]; [|now exists s1, e].
  rewrite (kspace_split _ _ _ _ _ _ _ _ _ _ _ Hp E). destruct (cut_value _ _ _ _ _ _ _ Th E) as (m' & f' & fm' & Hm' & Hf' & EF' & _ & _ & Get).
  rewrite Hm in Hm'. injection Hm' as <-. rewrite Hf in Hf'. injection Hf' as <-. rewrite EF in EF'. injection EF' as <-.
  assert (G := Get (comp el p)). rewrite Hm in G. destruct (dget d (comp el p)) as [b|] eqn:Eb; [|contradiction]. destruct G as (f' & h & Hf' & P & Hh). rewrite Hf in Hf'. injection Hf' as <-.
  destruct (Wf h P) as [W I]. assert (G := Get key). rewrite M in G. destruct (dget d key) eqn:Ed; [contradiction|]. exact (kspace_missing spl lin omega ip el p d s1 b h key Sp Hp W Eb Hh I Ed).
Qed.
Lemma ensured spl b : linear_spline spl -> forall d s, (forall k a, In (k, a) d -> exists f, nth_error s a = Some f /\ wellformed f) -> exists s' d', dmap (ensure_at spl b) d s = (s', Ok d').
Proof.
  intros Sp d. induction d as [|[k a] d IH]; intros s H; [do 2 eexists; reflexivity|]. destruct (H k a (or_introl eq_refl)) as (f & Hf & W). destruct (ensure_at_ok spl b a f s Sp W Hf) as (s1 & a1 & E).
  destruct (ensure_rel spl b _ _ _ _ _ Hf E) as [G _]. destruct (IH s1) as (s2 & d2 & E2).
  { intros k' a' I. destruct (H k' a' (or_intror I)) as (g & Hg & Wg). exists g. split; [now apply G|exact Wg]. }
  exists s2. eexists. unfold dmap in *. cbn [sfor]. unfold sbind, sret in *. cbn [snd fst] in *. rewrite E, E2. reflexivity.
Qed.
Lemma dget_names d d' k : map fst d' = map fst d -> dget d k = None -> dget d' k = None.
Proof.
  revert d'. induction d as [|[j a] d IH]; intros [|[j' a'] d'] E H; try discriminate; [reflexivity|]. cbn in E. injection E as -> E. cbn [dget] in *. destruct (String.eqb _ _); [discriminate|]. now apply IH.
Qed.
(** the component itself is missing *)
Lemma missing_main_cut spl lin ct omega ip el p fields s : linear_spline spl -> (p < 3)%nat -> (forall k a, In (k, a) fields -> exists f, nth_error s a = Some f /\ wellformed f) -> dget fields (comp el p) = None ->
  exists s', kspace spl lin (Some ct) omega ip (comp el p) fields s = (s', Err KeyError).
Proof.
  intros Sp Hp H M. destruct (ensured spl false Sp fields s H) as (s1 & d & E). assert (M' := dget_names _ _ (comp el p) (dmap_names _ _ _ _ _ E) M).
  assert (C : cut_fields spl (Some ct) (comp el p) fields s = (s1, Err KeyError)). { cbn [cut_fields]. unfold sbind. rewrite E, M'. reflexivity. }
  destruct (cut_first spl lin ct omega ip el p fields s Hp) as [(s2 & d2 & E2)|(s2 & e & E2 & E3)]; rewrite C in E2; [discriminate|]. injection E2 as <- <-. now exists s1.
Qed.
(** ** A superfluous field with another number of dimensions *)
Definition square : rfield := let ax := mkra "x" "m" (grid_of grid4) (node_of grid4) in mkrf (mkarr [4%Z; 4%Z] (fun _ => C1)) [ax; ax] [Some false; Some false] [Some 0; Some 0].
(** slices made from a field of one dimension do not fit *)
Definition first_two_1d (fm f : rfield) : res rfield := if (length (rf_axes fm) =? length (rf_axes f))%nat then first_two fm f else Err IndexError.
Lemma spoilt : (exists s' a', kspace line_spline (fun f _ => Ok f) (Some first_two_1d) (omega_free 1) INone "Ey" names1 (wave4 C1 C1 ++ [square]) = (s', Ok a')) /\
  exists s', kspace line_spline (fun f _ => Ok f) (Some first_two_1d) (omega_free 1) INone "Ey" (names1 ++ [("Bx"%string, 2%nat)]) (wave4 C1 C1 ++ [square]) = (s', Err IndexError).
Proof.
  split; [|eexists; reflexivity].
  assert (E : cut_fields line_spline (Some first_two_1d) "Ey" names1 (wave4 C1 C1 ++ [square]) = ((wave4 C1 C1 ++ [square]) ++ wave1 false C1 C1, Ok [("Ey"%string, 3%nat); ("Bz"%string, 4%nat)])) by reflexivity.
  change (exists s' a', kspace line_spline (fun f _ => Ok f) (Some first_two_1d) (omega_free 1) INone (comp true 1) names1 (wave4 C1 C1 ++ [square]) = (s', Ok a')). rewrite (kspace_split _ _ _ _ _ true 1 _ _ _ _ ltac:(lia) E).
  destruct (wave1_given INone true 1 false C1 C1 (or_introl (conj eq_refl eq_refl))) as [(a & f & A1 & A2 & A3) B].
  apply (kspace_total line_spline (fun f _ => Ok f) (omega_free 1) INone true 1 1 (place1 false)); [exact line_spline_ok|discriminate|lia|lia| |].
  - split.
    + intros k j c. cbn [dget]. destruct (String.eqb_spec "Ey" k) as [<-|], (String.eqb_spec "Ey" j) as [<-|]; try (destruct (String.eqb_spec "Bz" k) as [<-|]); try (destruct (String.eqb_spec "Bz" j) as [<-|]); intros; congruence.
    + intros k c. cbn [dget]. destruct (String.eqb "Ey" k); [|destruct (String.eqb "Bz" k); [|discriminate]]; intros [= <-]; cbn; lia.
  - split.
    + exists 3%nat, f. cbn in A1. injection A1 as <-. split; [reflexivity|]. split; [exact A2|exact A3].
    + intros key I. destruct (B key I) as (b & g & V & B1 & B2 & B3). cbn in I. destruct I as [<-|[]]. exists 4%nat, g, V. cbn in B1. injection B1 as <-. split; [reflexivity|]. split; [exact B2|exact B3].
Qed.
