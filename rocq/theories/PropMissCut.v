(** Missing and superfluous fields in kspace with an extent: C86. *)
From Coq Require Import Reals String Ascii List ZArith Lia.
From Verif Require Import PyBase NumpyModel NdModel FieldModel CplxModel FftModel FftSpec FftDemo KspaceModel KspaceSpec KspaceFacts KspaceTotal KspaceDemo KspaceCutSpec KspaceCut KspaceMissing KspaceMissingCut.
Import ListNotations.
Local Open Scope R_scope.

(** whatever the interpolation and whatever indexing with the extent does, the call never succeeds
    if one of the fields needed is missing *)
Theorem C86_missing_extent : forall spl lin ct omega ip el p fields s m f fm key, linear_spline spl -> (p < 3)%nat -> all_there fields s -> dget fields (comp el p) = Some m -> nth_error s m = Some f -> ensure_domain spl f false = Ok fm ->
  (forall h, part_of spl ct fm f h -> wellformed h /\ In key (needed el p (ndim h))) -> dget fields key = None ->
  exists s' e, kspace spl lin (Some ct) omega ip (comp el p) fields s = (s', Err e).
Proof. exact missing_cut. Qed.
Print Assumptions C86_missing_extent.
(** Ey alone on four points, of which two are used *)
Example C86_missing_extent_case : all_there [("Ey"%string, 0%nat)] (wave4 C1 C1) /\ dget [("Ey"%string, 0%nat)] (comp true 1) = Some 0%nat /\ dget [("Ey"%string, 0%nat)] "Bz" = None /\
  exists f fm, nth_error (wave4 C1 C1) 0 = Some f /\ ensure_domain line_spline f false = Ok fm /\ (exists h, part_of line_spline first_two fm f h) /\
    forall h, part_of line_spline first_two fm f h -> wellformed h /\ In "Bz"%string (needed true 1 (ndim h)).
Proof.
  split; [intros k a [[= _ <-]|[]]; cbn; lia|]. split; [reflexivity|]. split; [reflexivity|]. do 2 eexists. split; [reflexivity|]. split; [reflexivity|]. split; [do 2 eexists; split; reflexivity|].
  intros h P. split; [exact (wave4_part _ _ _ _ P)|]. destruct P as (g & _ & [= <-]). right. now left.
Qed.
(** with an extent the missing component itself is a KeyError and not the ValueError of the
    documentation *)
Theorem C86_extent_main_refuted : forall spl lin ct omega ip el p fields s, linear_spline spl -> (p < 3)%nat -> (forall k a, In (k, a) fields -> exists f, nth_error s a = Some f /\ wellformed f) -> dget fields (comp el p) = None ->
  exists s', kspace spl lin (Some ct) omega ip (comp el p) fields s = (s', Err KeyError).
Proof. exact missing_main_cut. Qed.
Print Assumptions C86_extent_main_refuted.
Example C86_extent_main_case : (forall k a, In (k, a) names1 -> exists f, nth_error (wave1 false C1 C1) a = Some f /\ wellformed f) /\ dget names1 (comp true 0) = None.
Proof. split; [|reflexivity]. intros k a [[= <- <-]|[[= <- <-]|[]]]; (eexists; split; [reflexivity|apply field1_wf]). Qed.
(** with an extent every field of the dictionary is cut, so that one which is not needed can make a
    call fail which succeeds without it *)
Theorem C86_extent_reads_refuted : exists ct s fields k b, ~ In k (needed true 1 1) /\
  (exists s' a', kspace line_spline (fun f _ => Ok f) (Some ct) (omega_free 1) INone (comp true 1) fields s = (s', Ok a')) /\
  exists s', kspace line_spline (fun f _ => Ok f) (Some ct) (omega_free 1) INone (comp true 1) (fields ++ [(k, b)]) s = (s', Err IndexError).
Proof. exists first_two_1d, (wave4 C1 C1 ++ [square]), names1, "Bx"%string, 2%nat. split; [intros [E|[E|[]]]; discriminate|]. exact spoilt. Qed.
Print Assumptions C86_extent_reads_refuted.
