(** Missing fields in kspace, and parts of fields with linear interpolation: C83, C84, C86, C88. *)
From Coq Require Import Reals String Ascii List ZArith Lia Lra.
From Verif Require Import PyBase NumpyModel NdModel FieldModel CplxModel CplxFacts FftModel FftSpec FftDemo KspaceModel KspaceSpec KspaceFacts KspaceTotal KspaceDemo KspaceCutSpec KspaceCut KspaceLinSpec KspaceLin KspaceMissing KspaceUnknown KspaceCutLinSpec KspaceCutLin.
Import ListNotations.
Local Open Scope R_scope.

(** * C86 *)
(** nothing but the names which are needed matters: other entries of the dictionary, and their order,
    make no difference *)
Theorem C86_reads_only : forall spl lin omega ip el p fields fields' s a f, linear_spline spl -> (p < 3)%nat -> wellformed f -> dget fields (comp el p) = Some a -> nth_error s a = Some f ->
  (forall key, In key (needed el p (ndim f)) -> dget fields' key = dget fields key) ->
  kspace spl lin None omega ip (comp el p) fields' s = kspace spl lin None omega ip (comp el p) fields s.
Proof. exact kspace_reads. Qed.
Print Assumptions C86_reads_only.
(** for Ey in one dimension Bx, By, Ex and Ez may be anything *)
Example C86_reads_case : forall st ey bz a b, wellformed (field1 "x" "m" grid1 st (Some 0) (fun _ => ey)) /\ nth_error (wave1 st ey bz) 0 = Some (field1 "x" "m" grid1 st (Some 0) (fun _ => ey)) /\
  forall key, In key (needed true 1 1) -> dget ([("Bx", a); ("Bz", 1%nat); ("Ex", b); ("Ey", 0%nat)]%string) key = dget names1 key.
Proof. intros st ey bz a b. split; [apply field1_wf|]. split; [reflexivity|]. intros key [<-|[<-|[]]]; reflexivity. Qed.
(** whatever the interpolation, the call never succeeds if one of the fields needed is missing *)
Theorem C86_missing : forall spl lin omega ip el p fields s a f key, linear_spline spl -> (p < 3)%nat -> wellformed f -> dget fields (comp el p) = Some a -> nth_error s a = Some f ->
  In key (needed el p (ndim f)) -> dget fields key = None -> exists s' e, kspace spl lin None omega ip (comp el p) fields s = (s', Err e).
Proof. exact kspace_missing. Qed.
Print Assumptions C86_missing.
(** if none of the other field is there, it is always an AttributeError and not the ValueError of the
    documentation *)
Theorem C86_alone_refuted : forall spl lin omega ip el p fields s a f nd V, linear_spline spl -> (p < 3)%nat -> (0 < nd)%nat -> lives_on f nd V -> dget fields (comp el p) = Some a -> nth_error s a = Some f ->
  (forall i, (i < 3)%nat -> dget fields (comp (negb el) i) = None) -> tl (needed el p nd) <> [] -> exists s', kspace spl lin None omega ip (comp el p) fields s = (s', Err AttributeError).
Proof. exact kspace_alone. Qed.
Print Assumptions C86_alone_refuted.
Example C86_missing_case : forall st ey bz, let f := field1 "x" "m" grid1 st (Some 0) (fun _ => ey) in
  wellformed f /\ lives_on f 1 (place1 st) /\ dget [("Ey"%string, 0%nat)] (comp true 1) = Some 0%nat /\ nth_error (wave1 st ey bz) 0 = Some f /\ In "Bz"%string (needed true 1 (ndim f)) /\ dget [("Ey"%string, 0%nat)] "Bz" = None /\
  (forall i, (i < 3)%nat -> dget [("Ey"%string, 0%nat)] (comp false i) = None) /\ tl (needed true 1 1) <> [].
Proof.
  intros st ey bz f. split; [apply field1_wf|]. split; [apply wave1_lives|]. split; [reflexivity|]. split; [reflexivity|]. split; [right; now left|]. split; [reflexivity|]. split; [|discriminate].
  intros [|[|[|]]] L; reflexivity.
Qed.

(** * C88 *)
(** grids which are the same are refused, with TypeError, if Fourier interpolation is asked for and
    the origins are not known *)
Theorem C88_origin_refuted : exists f g s', lives_on f 1 place0 /\ lives_on g 1 place0 /\ kspace line_spline (fun f _ => Ok f) None (omega_free 1) IFourier (comp true 1) names1 [f; g] = (s', Err TypeError).
Proof. destruct (lost_origin C1 C1) as [s' E]. do 2 eexists. exists s'. split; [|split; [|exact E]]; apply lost1_lives. Qed.
Print Assumptions C88_origin_refuted.

(** * C83, C84: an extent together with linear interpolation *)
Theorem C83_extent_linear_partial : forall spl lin ct omega el p nd W fields s s' a' M, linear_spline spl -> (p < 3)%nat -> (0 < nd)%nat -> all_there fields s -> kspace spl lin (Some ct) omega ILinear (comp el p) fields s = (s', Ok a') -> parts_moved spl lin ct el p nd W fields s M ->
  exists m f fm h F r, dget fields (comp el p) = Some m /\ nth_error s m = Some f /\ ensure_domain spl f false = Ok fm /\ part_of spl ct fm f h /\ ensure_domain spl h true = Ok F /\ nth_error s' a' = Some r /\
    rf_axes r = rf_axes F /\ rf_ats r = rf_ats F /\ rf_tao r = rf_tao F /\ a_shape (rf_data r) = a_shape (rf_data F) /\
    forall idx, let k := wave_vector (rf_axes F) idx in
      a_at (rf_data r) idx = Csub (a_at (rf_data F) idx) (Cmul (RtoC (factor el (omega (rf_axes F) idx) k)) (cross k (fun i => a_at (rf_data (M (comp (negb el) i))) idx) p)).
Proof. exact part_linear_formula. Qed.
Print Assumptions C83_extent_linear_partial.
Theorem C84_extent_linear_partial : forall spl lin ct omega (el : bool) p nd W fields s s' a' M (E B : nat -> C) idx sg, linear_spline spl -> (p < 3)%nat -> (0 < nd)%nat -> all_there fields s -> kspace spl lin (Some ct) omega ILinear (comp el p) fields s = (s', Ok a') -> parts_moved spl lin ct el p nd W fields s M ->
  exists m f fm h F r, dget fields (comp el p) = Some m /\ nth_error s m = Some f /\ ensure_domain spl f false = Ok fm /\ part_of spl ct fm f h /\ ensure_domain spl h true = Ok F /\ nth_error s' a' = Some r /\
  let k := wave_vector (rf_axes F) idx in let w := omega (rf_axes F) idx in
  w <> 0 -> dot3 k k <> 0 -> cdot k E = C0 -> (sg = 1 \/ sg = -1) -> (forall i, (i < 3)%nat -> B i = Cmul (RtoC (sg / w)) (cross k E i)) ->
  a_at (rf_data F) idx = (if el then E p else B p) -> (forall i, (i < 3)%nat -> In (comp (negb el) i) (tl (needed el p nd)) -> a_at (rf_data (M (comp (negb el) i))) idx = if el then B i else E i) ->
  a_at (rf_data r) idx = Cmul (RtoC (1 + sg)) (if el then E p else B p).
Proof. exact part_linear_wave. Qed.
Print Assumptions C84_extent_linear_partial.
(** four points each, of which the first two are used *)
Example C84_extent_linear_case : linear_spline line_spline /\ all_there names1 (wave4 C1 C1) /\ exists M, parts_moved line_spline to_grid1 first_two true 1 1 (fun _ => grid1) names1 (wave4 C1 C1) M /\
  exists s' a', kspace line_spline to_grid1 (Some first_two) (omega_free 1) ILinear (comp true 1) names1 (wave4 C1 C1) = (s', Ok a').
Proof. split; [exact line_spline_ok|]. split; [apply wave4_there|apply wave4_moved]. Qed.
