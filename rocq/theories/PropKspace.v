(** Theorems about the reconstruction and the propagation of waves: C47, C48, C83-C86. *)
From Coq Require Import Reals String Ascii List ZArith Lia Lra.
From Verif Require Import PyBase NumpyModel NdModel FieldModel CplxModel CplxFacts FftModel FftSpec FftDemo KspaceModel KspaceSpec KspaceFacts KspaceWave KspaceProp KspaceTotal KspaceDemo KspaceEpoch KspaceCutSpec KspaceCut KspaceEpochCut KspaceLinSpec KspaceLin.
Import ListNotations.
Open Scope list_scope.
Local Open Scope R_scope.

(** * C47: propagation *)
(** in the frequency domain: the j-th result is every mode turned by - j w dt, with w = c |k|, and
    the origins moved by j steps; nothing that existed before is modified; all results are still
    there, unmodified, in the end *)
Theorem C47_steps_partial : forall c spl p n a s f, wellformed f -> all_in true f -> nth_error s a = Some f -> sensible p (ndim f) -> window_ok c p f ->
  exists s' ys, prop_run c spl p n a s = (s', Ok ys) /\ length ys = n /\ (forall b, (b < length s)%nat -> nth_error s' b = nth_error s b) /\
    forall j, (j < n)%nat -> exists y, nth_error ys j = Some y /\ nth_error s' y = Some (advanced c (p_dt p) (moves c p) (if p_zeroth p then j else S j) (start_of p f)) /\
      ((0 < j)%nat \/ p_zeroth p = false -> (length s <= y)%nat) /\ (j = 0%nat -> p_zeroth p = true -> removes p = None -> y = a).
Proof. exact propagate_freq. Qed.
Print Assumptions C47_steps_partial.
(** in space: the same with a Fourier transform before and one after; the results are in space *)
Theorem C47_space_partial : forall c spl p n a s f, linear_spline spl -> wellformed f -> all_in false f -> nth_error s a = Some f -> sensible p (ndim f) ->
  exists F s' ys, fft spl false false f (all_dims f) = Ok F /\ prop_run c spl p n a s = (s', Ok ys) /\ length ys = n /\ (forall b, (b < length s)%nat -> nth_error s' b = nth_error s b) /\
    forall j, (j < n)%nat -> exists y r, nth_error ys j = Some y /\ nth_error s' y = Some r /\ fft spl false false (advanced c (p_dt p) (moves c p) (if p_zeroth p then j else S j) (start_of p F)) (all_dims F) = Ok r /\
      all_in false r /\ (removes p = None -> energy r = energy f).
Proof. exact propagate_space. Qed.
Print Assumptions C47_space_partial.
(** n steps are one step which is n times as long *)
Theorem C47_group_partial : forall c spl p n a s f, wellformed f -> all_in true f -> nth_error s a = Some f -> sensible p (ndim f) -> window_ok c p f -> p_zeroth p = false ->
  exists s1 y1 s2 y2 r, prop_run c spl p (S n) a s = (s1, Ok y1) /\ prop_run c spl (with_dt p (INR (S n) * p_dt p)) 1 a s = (s2, Ok y2) /\
    nth_error s1 (last y1 0%nat) = Some r /\ nth_error s2 (last y2 0%nat) = Some r.
Proof. exact group_one. Qed.
Print Assumptions C47_group_partial.
(** n steps forward and n steps back cancel *)
Theorem C47_back_partial : forall c spl p n a s f, wellformed f -> all_in true f -> nth_error s a = Some f -> sensible p (ndim f) -> window_ok c p f -> p_zeroth p = false ->
  exists s1 y1 s2 y2, prop_run c spl p (S n) a s = (s1, Ok y1) /\ prop_run c spl (with_dt p (-1 * p_dt p)) (S n) (last y1 0%nat) s1 = (s2, Ok y2) /\
    nth_error s2 (last y2 0%nat) = Some (start_of p f).
Proof. exact group_back. Qed.
Print Assumptions C47_back_partial.
Theorem C47_energy_partial : forall c spl p n a s f, wellformed f -> all_in true f -> nth_error s a = Some f -> sensible p (ndim f) -> window_ok c p f ->
  exists s' ys, prop_run c spl p n a s = (s', Ok ys) /\ length ys = n /\ forall y r, In y ys -> nth_error s' y = Some r -> energy r = energy (start_of p f).
Proof. exact freq_energy. Qed.
Print Assumptions C47_energy_partial.
(** the window moves with c along the vector, linearly *)
Theorem C47_window_partial : forall c spl p n a s f v b x, wellformed f -> all_in true f -> nth_error s a = Some f -> (forall a, (a < ndim f)%nat -> exists x, nth_error (rf_tao f) a = Some (Some x)) -> p_vect p = Some v -> sensible p (ndim f) -> p_move p <> Some false ->
  p_zeroth p = true -> nth_error (rf_tao f) b = Some (Some x) ->
  exists s' ys, prop_run c spl p n a s = (s', Ok ys) /\ forall j, (j < n)%nat -> exists y r, nth_error ys j = Some y /\ nth_error s' y = Some r /\
    nth_error (rf_tao r) b = Some (Some (x + INR j * (c * p_dt p * (nth b v 0 / sqrt (fold_right Rplus 0 (map (fun z => z * z) v)))))).
Proof. exact window_origins. Qed.
Print Assumptions C47_window_partial.
Example C47_case : let f := field1 "x" "m" grid1 true (Some 0) (fun _ => C1) in let p := mkpa 2 (Some [3]) None None false in
  wellformed f /\ all_in true f /\ sensible p (ndim f) /\ window_ok 1 p f /\ p_zeroth p = false /\
  linear_spline line_spline /\ wellformed (field1 "x" "m" grid1 false None (fun _ => C1)) /\ all_in false (field1 "x" "m" grid1 false None (fun _ => C1)) /\ moves 1 p <> None /\ removes p = Some [3].
Proof.
  cbv zeta. split; [apply (field1_wf true)|]. split; [apply (field1_wf true)|]. split; [split; [reflexivity|]; exists 3; split; [now left|lra]|]. split; [right; intros a L; destruct a as [|a]; [exists 0; reflexivity|change (S a < 1)%nat in L; lia]|]. split; [reflexivity|].
  split; [exact line_spline_ok|]. split; [apply (field1_wf false)|]. split; [apply (field1_wf false)|]. split; [discriminate|reflexivity].
Qed.
(** the first of several results is the field of the caller itself, not a copy; with nsteps = 1 it
    is all one gets *)
Theorem C47_zeroth_refuted : forall c spl dt a s f, wellformed f -> all_in true f -> nth_error s a = Some f -> exists s', kspace_propagate c spl (mkpa dt None None None true) 1 a s = (s', Ok [a]) /\ nth_error s' a = Some f.
Proof. exact zeroth_own. Qed.
Print Assumptions C47_zeroth_refuted.
(** a vector which is an array of floats is normalised in place *)
Theorem C47_vector_refuted : vect_after true [3; 4] = [3 / 5; 4 / 5] /\ vect_after true [3; 4] <> [3; 4].
Proof. exact vector_changed. Qed.
Print Assumptions C47_vector_refuted.
(** a field in the frequency domain which does not remember its origins cannot have a window *)
Theorem C47_no_origins_refuted : exists s', prop_run 1 line_spline (mkpa 1 (Some [1]) None None false) 1 0 [field1 "kx" "1/m" grid1 true None (fun _ => C1)] = (s', Err TypeError).
Proof. exact no_origins. Qed.
Print Assumptions C47_no_origins_refuted.

(** * C48: kspace leaves the fields alone *)
(** whether it returns or raises: the only object which may be changed is the main field, and only
    if it is in the frequency domain and no extent is given *)
Theorem C48_unchanged_partial : forall spl lin cut omega ip el p fields s s' r, (p < 3)%nat -> all_wellformed fields s -> kspace spl lin cut omega ip (comp el p) fields s = (s', r) ->
  unchanged_except (fun a => cut = None /\ dget fields (comp el p) = Some a /\ exists f, nth_error s a = Some f /\ all_in true f) s s'.
Proof. exact kspace_keeps. Qed.
Print Assumptions C48_unchanged_partial.
(** kspace_epoch_like: the same, but nothing is changed if the fields are aligned to the main field *)
Theorem C48_epoch_partial : forall c spl lin cut omega dt al el p fields s s' r, (p < 3)%nat -> all_wellformed fields s -> kspace_epoch_like c spl lin cut omega dt al (comp el p) fields s = (s', r) ->
  unchanged_except (fun a => cut = None /\ al <> (if el then "E" else "B")%char /\ dget fields (comp el p) = Some a /\ exists f, nth_error s a = Some f /\ all_in true f) s s'.
Proof. exact epoch_keeps. Qed.
Print Assumptions C48_epoch_partial.
Example C48_case : all_wellformed names1 (wave1 false C1 C0) /\ dget names1 (comp true 1) = Some 0%nat /\ exists f, nth_error (wave1 false C1 C0) 0 = Some f /\ all_in false f /\
  exists s' a', kspace line_spline (fun f _ => Ok f) None (omega_free 1) INone (comp true 1) names1 (wave1 false C1 C0) = (s', Ok a').
Proof.
  split; [apply wave1_wf|]. split; [reflexivity|]. eexists. split; [reflexivity|]. split; [apply (field1_wf false)|].
  apply (kspace_total _ _ _ INone true 1 1 (place1 false)); [exact line_spline_ok|discriminate|lia|lia|apply wave1_distinct|apply wave1_given; now left].
Qed.
Theorem C48_own_object_refuted : exists s' r, distinct names1 (wave1 true C0 C1) /\ all_wellformed names1 (wave1 true C0 C1) /\ dget names1 "Ey" = Some 0%nat /\
  kspace line_spline (fun f _ => Ok f) None (omega_free 1) INone "Ey" names1 (wave1 true C0 C1) = (s', Ok 0%nat) /\ nth_error s' 0 = Some r /\ nth_error (wave1 true C0 C1) 0 <> Some r.
Proof. exact own_object. Qed.
Print Assumptions C48_own_object_refuted.

(** * C83: what kspace computes *)
Theorem C83_formula_partial : forall spl lin omega ip el p fields s s' a', linear_spline spl -> ip <> ILinear -> (p < 3)%nat -> distinct fields s -> all_wellformed fields s ->
  kspace spl lin None omega ip (comp el p) fields s = (s', Ok a') ->
  exists a f F r, dget fields (comp el p) = Some a /\ nth_error s a = Some f /\ ensure_domain spl f true = Ok F /\ nth_error s' a' = Some r /\
    rf_axes r = rf_axes F /\ rf_ats r = rf_ats F /\ rf_tao r = rf_tao F /\ a_shape (rf_data r) = a_shape (rf_data F) /\
    (forall idx, let k := wave_vector (rf_axes F) idx in
       a_at (rf_data r) idx = Csub (spectrum spl s fields (comp el p) idx) (Cmul (RtoC (factor el (omega (rf_axes F) idx) k)) (cross k (fun i => spectrum spl s fields (comp (negb el) i) idx) p))) /\
    forall key, In key (needed el p (ndim f)) -> exists b, dget fields key = Some b.
Proof. exact formula. Qed.
Print Assumptions C83_formula_partial.
Theorem C83_succeeds_partial : forall spl lin omega ip el p nd W fields s, linear_spline spl -> ip <> ILinear -> (p < 3)%nat -> (0 < nd)%nat -> distinct fields s -> given ip el p nd W fields s ->
  exists s' a', kspace spl lin None omega ip (comp el p) fields s = (s', Ok a').
Proof. exact kspace_total. Qed.
Print Assumptions C83_succeeds_partial.
Example C83_case : linear_spline line_spline /\ INone <> ILinear /\ distinct names1 (wave1 false C1 C1) /\ all_wellformed names1 (wave1 false C1 C1) /\ given INone false 2 1 (place1 false) names1 (wave1 false C1 C1) /\ given IFourier true 1 1 (place1 true) names1 (wave1 true C1 C1).
Proof. split; [exact line_spline_ok|]. split; [discriminate|]. split; [apply wave1_distinct|]. split; [apply wave1_wf|]. split; apply wave1_given; [now right|now left]. Qed.
(** fields with one axis in space and one in the frequency domain *)
Example C83_mixed_case : forall ip, distinct names1 mixed2 /\ given ip true 1 2 place2 names1 mixed2 /\ ~ exists b, all_in b (field2 false true).
Proof. intro ip. split; [exact mixed_distinct|]. split; [apply mixed_given|apply mixed_lives]. Qed.
(** with an extent: the same formula for the spectra of the parts which the extent leaves of the
    fields in space, all cut by the slices made from the reconstructed component; different names may
    then stand for the same object *)
Theorem C83_extent_partial : forall spl lin ct omega ip el p fields s s' a', linear_spline spl -> ip <> ILinear -> (p < 3)%nat -> all_there fields s ->
  kspace spl lin (Some ct) omega ip (comp el p) fields s = (s', Ok a') ->
  exists m f fm, dget fields (comp el p) = Some m /\ nth_error s m = Some f /\ ensure_domain spl f false = Ok fm /\
    ((forall k a g h, dget fields k = Some a -> nth_error s a = Some g -> part_of spl ct fm g h -> wellformed h) ->
     exists h F r, part_of spl ct fm f h /\ ensure_domain spl h true = Ok F /\ nth_error s' a' = Some r /\
       rf_axes r = rf_axes F /\ rf_ats r = rf_ats F /\ rf_tao r = rf_tao F /\ a_shape (rf_data r) = a_shape (rf_data F) /\
       (forall idx, let k := wave_vector (rf_axes F) idx in
          a_at (rf_data r) idx = Csub (part_spectrum spl ct fm s fields (comp el p) idx)
             (Cmul (RtoC (factor el (omega (rf_axes F) idx) k)) (cross k (fun i => part_spectrum spl ct fm s fields (comp (negb el) i) idx) p))) /\
       forall key, In key (needed el p (ndim h)) -> exists b, dget fields key = Some b).
Proof. exact part_formula. Qed.
Print Assumptions C83_extent_partial.
Example C83_extent_case : linear_spline line_spline /\ INone <> ILinear /\ all_there names1 (wave4 C1 C1) /\
  (exists s' a', kspace line_spline (fun f _ => Ok f) (Some first_two) (omega_free 1) INone (comp true 1) names1 (wave4 C1 C1) = (s', Ok a')) /\
  forall fm f h, part_of line_spline first_two fm f h -> wellformed h.
Proof. split; [exact line_spline_ok|]. split; [discriminate|]. split; [apply wave4_there|]. split; [apply wave4_run|apply wave4_part]. Qed.
(** whatever the interpolation, a successful call with an extent is the call without one for new
    objects, which are the parts of the fields *)
Theorem C83_parts : forall spl lin ct omega ip el p fields s s' a', (p < 3)%nat -> all_there fields s -> kspace spl lin (Some ct) omega ip (comp el p) fields s = (s', Ok a') ->
  exists m f fm s1 d, dget fields (comp el p) = Some m /\ nth_error s m = Some f /\ ensure_domain spl f false = Ok fm /\ distinct d s1 /\
    (forall k, match dget fields k, dget d k with
               | None, None => True
               | Some a, Some b => exists g h, nth_error s a = Some g /\ part_of spl ct fm g h /\ nth_error s1 b = Some h
               | _, _ => False end) /\
    kspace spl lin None omega ip (comp el p) d s1 = (s', Ok a').
Proof. exact part_reduces. Qed.
Print Assumptions C83_parts.
(** with linear interpolation: the call succeeds, and the formula holds with the spectra of the
    fields moved in space by the distance of the grids *)
Theorem C83_linear_partial : forall spl lin omega el p nd W fields s M, linear_spline spl -> (p < 3)%nat -> (0 < nd)%nat -> distinct fields s -> given_moved spl lin el p nd W fields s M ->
  exists s' a' a f F r, kspace spl lin None omega ILinear (comp el p) fields s = (s', Ok a') /\ dget fields (comp el p) = Some a /\ nth_error s a = Some f /\ ensure_domain spl f true = Ok F /\ nth_error s' a' = Some r /\
    rf_axes r = rf_axes F /\ rf_ats r = rf_ats F /\ rf_tao r = rf_tao F /\ a_shape (rf_data r) = a_shape (rf_data F) /\
    forall idx, let k := wave_vector (rf_axes F) idx in
      a_at (rf_data r) idx = Csub (a_at (rf_data F) idx) (Cmul (RtoC (factor el (omega (rf_axes F) idx) k)) (cross k (fun i => a_at (rf_data (M (comp (negb el) i))) idx) p)).
Proof. exact linear_formula. Qed.
Print Assumptions C83_linear_partial.
Example C83_linear_case : linear_spline line_spline /\ exists M, given_moved line_spline to_grid1 true 1 1 (fun _ => grid1) names1 (wave_off C1 C1) M /\ distinct names1 (wave_off C1 C1).
Proof. split; [exact line_spline_ok|apply off_given]. Qed.
(** the factor 1/2 of the documented formula is missing *)
Theorem C83_half_refuted : exists s s' r F, kspace line_spline (fun f _ => Ok f) None (omega_free 1) INone "Ey" names1 s = (s', Ok 0%nat) /\ nth_error s' 0 = Some r /\ nth_error s 0 = Some F /\ ensure_domain line_spline F true = Ok F /\
  a_at (rf_data r) [0%Z] <> Cmul (RtoC (/ 2)) (Csub (a_at (rf_data F) [0%Z]) (Cmul (RtoC (factor true (omega_free 1 (rf_axes F) [0%Z]) (wave_vector (rf_axes F) [0%Z]))) (cross (wave_vector (rf_axes F) [0%Z]) (fun i => spectrum line_spline s names1 (comp false i) [0%Z]) 1))).
Proof. exact not_half. Qed.
Print Assumptions C83_half_refuted.

(** * C84: waves going forward are doubled, waves going backward are removed *)
(** Full statement: every call.  Missing: one object under several names. An extent together with linear interpolation is in C84_extent_linear_partial (PropMiss). *)
Theorem C84_waves_partial : forall spl lin omega ip el p fields s s' a' (E B : nat -> C) idx sg, linear_spline spl -> ip <> ILinear -> (p < 3)%nat -> distinct fields s -> all_wellformed fields s ->
  kspace spl lin None omega ip (comp el p) fields s = (s', Ok a') ->
  exists a f F r, dget fields (comp el p) = Some a /\ nth_error s a = Some f /\ ensure_domain spl f true = Ok F /\ nth_error s' a' = Some r /\
  let k := wave_vector (rf_axes F) idx in let w := omega (rf_axes F) idx in
  w <> 0 -> dot3 k k <> 0 -> cdot k E = C0 -> (sg = 1 \/ sg = -1) -> (forall i, (i < 3)%nat -> B i = Cmul (RtoC (sg / w)) (cross k E i)) ->
  (forall el' i, (i < 3)%nat -> dget fields (comp el' i) <> None -> spectrum spl s fields (comp el' i) idx = if el' then E i else B i) ->
  a_at (rf_data r) idx = Cmul (RtoC (1 + sg)) (if el then E p else B p).
Proof. exact wave_result. Qed.
Print Assumptions C84_waves_partial.
(** with an extent, for the spectra of the parts *)
Theorem C84_extent_partial : forall spl lin ct omega ip (el : bool) p fields s s' a' (E B : nat -> C) idx sg, linear_spline spl -> ip <> ILinear -> (p < 3)%nat -> all_there fields s ->
  kspace spl lin (Some ct) omega ip (comp el p) fields s = (s', Ok a') ->
  exists m f fm, dget fields (comp el p) = Some m /\ nth_error s m = Some f /\ ensure_domain spl f false = Ok fm /\
    ((forall k a g h, dget fields k = Some a -> nth_error s a = Some g -> part_of spl ct fm g h -> wellformed h) ->
     exists h F r, part_of spl ct fm f h /\ ensure_domain spl h true = Ok F /\ nth_error s' a' = Some r /\
       let k := wave_vector (rf_axes F) idx in let w := omega (rf_axes F) idx in
       w <> 0 -> dot3 k k <> 0 -> cdot k E = C0 -> (sg = 1 \/ sg = -1) -> (forall i, (i < 3)%nat -> B i = Cmul (RtoC (sg / w)) (cross k E i)) ->
       (forall el' i, (i < 3)%nat -> dget fields (comp el' i) <> None -> part_spectrum spl ct fm s fields (comp el' i) idx = if el' then E i else B i) ->
       a_at (rf_data r) idx = Cmul (RtoC (1 + sg)) (if el then E p else B p)).
Proof. exact part_wave. Qed.
Print Assumptions C84_extent_partial.
(** with linear interpolation, for the spectra of the moved fields *)
Theorem C84_linear_partial : forall spl lin omega (el : bool) p nd W fields s M (E B : nat -> C) idx sg, linear_spline spl -> (p < 3)%nat -> (0 < nd)%nat -> distinct fields s -> given_moved spl lin el p nd W fields s M ->
  exists s' a' a f F r, kspace spl lin None omega ILinear (comp el p) fields s = (s', Ok a') /\ dget fields (comp el p) = Some a /\ nth_error s a = Some f /\ ensure_domain spl f true = Ok F /\ nth_error s' a' = Some r /\
  let k := wave_vector (rf_axes F) idx in let w := omega (rf_axes F) idx in
  w <> 0 -> dot3 k k <> 0 -> cdot k E = C0 -> (sg = 1 \/ sg = -1) -> (forall i, (i < 3)%nat -> B i = Cmul (RtoC (sg / w)) (cross k E i)) ->
  a_at (rf_data F) idx = (if el then E p else B p) -> (forall i, (i < 3)%nat -> In (comp (negb el) i) (tl (needed el p nd)) -> a_at (rf_data (M (comp (negb el) i))) idx = if el then B i else E i) ->
  a_at (rf_data r) idx = Cmul (RtoC (1 + sg)) (if el then E p else B p).
Proof. exact linear_wave. Qed.
Print Assumptions C84_linear_partial.
(** a wave along the axis, forward and backward *)
Example C84_case : forall ey bz, exists s' r, distinct names1 (wave1 true ey bz) /\ all_wellformed names1 (wave1 true ey bz) /\
  kspace line_spline (fun f _ => Ok f) None (omega_free 1) INone "Ey" names1 (wave1 true ey bz) = (s', Ok 0%nat) /\ nth_error s' 0 = Some r /\ a_at (rf_data r) [0%Z] = Cadd ey bz.
Proof. intros ey bz. destruct (ey_run ey bz) as (s' & r & E & H & V). exists s', r. repeat (split; [first [apply wave1_distinct|apply wave1_wf|assumption]|]). exact V. Qed.

(** * C85: kspace_epoch_like *)
(** the field to which the others are aligned, or the others, are divided by the response; the
    combination is that of kspace with the frequency of free waves *)
Theorem C85_formula_partial : forall c spl lin omega dt al el p fields s s' a', linear_spline spl -> (p < 3)%nat -> NoDup (map fst fields) -> distinct fields s -> all_wellformed fields s ->
  kspace_epoch_like c spl lin None omega dt al (comp el p) fields s = (s', Ok a') ->
  exists a f F r, dget fields (comp el p) = Some a /\ nth_error s a = Some f /\ ensure_domain spl f true = Ok F /\ nth_error s' a' = Some r /\
    rf_axes r = rf_axes F /\ rf_ats r = rf_ats F /\ rf_tao r = rf_tao F /\ a_shape (rf_data r) = a_shape (rf_data F) /\
    forall idx, let k := wave_vector (rf_axes F) idx in let resp := Rabs (cos (dt * omega (rf_axes F) idx / 2)) in resp <> 0 ->
      a_at (rf_data r) idx = (if Ascii.eqb al (if el then "E" else "B")%char
        then Csub (Cmul (RtoC (/ resp)) (spectrum spl s fields (comp el p) idx)) (Cmul (RtoC (factor el (frequency c (rf_axes F) idx) k)) (cross k (fun i => spectrum spl s fields (comp (negb el) i) idx) p))
        else Csub (spectrum spl s fields (comp el p) idx) (Cmul (RtoC (/ resp * factor el (frequency c (rf_axes F) idx) k)) (cross k (fun i => spectrum spl s fields (comp (negb el) i) idx) p))).
Proof. exact epoch_formula. Qed.
Print Assumptions C85_formula_partial.
Example C85_formula_case : forall ey bz, NoDup (map fst names1) /\ distinct names1 (wave1 true ey bz) /\ all_wellformed names1 (wave1 true ey bz) /\ exists s' a', kspace_epoch_like 1 line_spline (fun f _ => Ok f) None (omega_free 1) 0 "B"%char (comp true 1) names1 (wave1 true ey bz) = (s', Ok a').
Proof. exact epoch_runs. Qed.
(** with an extent: the same for the parts which the extent leaves of the fields *)
Theorem C85_extent_partial : forall c spl lin ct omega dt al el p fields s s' a', linear_spline spl -> (p < 3)%nat -> NoDup (map fst fields) -> all_there fields s ->
  kspace_epoch_like c spl lin (Some ct) omega dt al (comp el p) fields s = (s', Ok a') ->
  exists m f fm, dget fields (comp el p) = Some m /\ nth_error s m = Some f /\ ensure_domain spl f false = Ok fm /\
    ((forall k a g h, dget fields k = Some a -> nth_error s a = Some g -> part_of spl ct fm g h -> wellformed h) ->
     exists h F r, part_of spl ct fm f h /\ ensure_domain spl h true = Ok F /\ nth_error s' a' = Some r /\
       rf_axes r = rf_axes F /\ rf_ats r = rf_ats F /\ rf_tao r = rf_tao F /\ a_shape (rf_data r) = a_shape (rf_data F) /\
       forall idx, let k := wave_vector (rf_axes F) idx in let resp := Rabs (cos (dt * omega (rf_axes F) idx / 2)) in
         let spectrum key := part_spectrum spl ct fm s fields key idx in resp <> 0 ->
         a_at (rf_data r) idx = (if Ascii.eqb al (if el then "E" else "B")%char
           then Csub (Cmul (RtoC (/ resp)) (spectrum (comp el p))) (Cmul (RtoC (factor el (frequency c (rf_axes F) idx) k)) (cross k (fun i => spectrum (comp (negb el) i)) p))
           else Csub (spectrum (comp el p)) (Cmul (RtoC (/ resp * factor el (frequency c (rf_axes F) idx) k)) (cross k (fun i => spectrum (comp (negb el) i)) p)))).
Proof. exact epoch_part. Qed.
Print Assumptions C85_extent_partial.
Example C85_extent_case : NoDup (map fst names1) /\ all_there names1 (wave4 C1 C1) /\
  (exists s' a', kspace_epoch_like 1 line_spline (fun f _ => Ok f) (Some first_two) (omega_free 1) 0 "B"%char (comp true 1) names1 (wave4 C1 C1) = (s', Ok a')) /\
  forall fm f h, part_of line_spline first_two fm f h -> wellformed h.
Proof. split; [apply (wave1_names C1 C1 true)|]. split; [apply wave4_there|]. split; [exact epoch4_runs|apply wave4_part]. Qed.
(** when all fields are there, on grids which fit, it succeeds *)
Theorem C85_total : forall c spl lin omega dt al el p nd W fields s, linear_spline spl -> (p < 3)%nat -> (0 < nd)%nat -> NoDup (map fst fields) -> distinct fields s -> all_wellformed fields s -> given IFourier el p nd W fields s ->
  exists s' a', kspace_epoch_like c spl lin None omega dt al (comp el p) fields s = (s', Ok a').
Proof. exact epoch_total. Qed.
Print Assumptions C85_total.
Example C85_total_case : forall st, NoDup (map fst names1) /\ distinct names1 (wave1 st C1 C1) /\ all_wellformed names1 (wave1 st C1 C1) /\ given IFourier true 1 1 (place1 st) names1 (wave1 st C1 C1).
Proof. exact (wave1_names C1 C1). Qed.
(** step and dispersion relation matter only through the response |cos (w dt / 2)| of the averaging *)
Theorem C85_response_partial : forall c spl lin cut om om' dt dt' align_to component fields s, (forall axes idx, Rabs (cos (dt * om axes idx / 2)) = Rabs (cos (dt' * om' axes idx / 2))) ->
  kspace_epoch_like c spl lin cut om dt align_to component fields s = kspace_epoch_like c spl lin cut om' dt' align_to component fields s.
Proof. exact epoch_cos. Qed.
Print Assumptions C85_response_partial.
Example C85_case : (forall (axes : list raxis) (idx : list Z), Rabs (cos (3 * omega_free 1 axes idx / 2)) = Rabs (cos ((-3) * omega_free 1 axes idx / 2))) /\ lin_response 0 5 = 1.
Proof. split; [intros; replace (-3 * omega_free 1 axes idx / 2) with (- (3 * omega_free 1 axes idx / 2)) by field; now rewrite cos_neg|]. rewrite lin_response_cos. replace (0 * 5 / 2) with 0 by field. rewrite cos_0. apply Rabs_R1. Qed.
(** the reconstruction itself does not use the dispersion relation which is given: without a step
    all of them give the same *)
Theorem C85_dispersion_refuted : forall c spl lin cut om om' align_to component fields s, kspace_epoch_like c spl lin cut om 0 align_to component fields s = kspace_epoch_like c spl lin cut om' 0 align_to component fields s.
Proof. exact epoch_no_step. Qed.
Print Assumptions C85_dispersion_refuted.

(** * C86: which fields are read *)
Theorem C86_needed : forall el p nd, (p < 3)%nat -> (1 <= nd <= 3)%nat -> forall k, In k (fields_read (comp el p) (Z.of_nat nd)) <-> In k (needed el p nd).
Proof. exact reads_needed. Qed.
Print Assumptions C86_needed.
Theorem C86_main_partial : forall spl lin omega ip el p fields s, (p < 3)%nat -> dget fields (comp el p) = None -> kspace spl lin None omega ip (comp el p) fields s = (s, Err ValueError).
Proof. exact missing_main. Qed.
Print Assumptions C86_main_partial.
Example C86_case : fields_read (comp true 0) 2 = ["Ex"; "Bz"]%string /\ needed true 0 2 = ["Ex"; "Bz"]%string /\ dget names1 (comp false 0) = None.
Proof. repeat split. Qed.
(** another field which is missing is reported as an AttributeError of None *)
Theorem C86_other_refuted : exists s', kspace line_spline (fun f _ => Ok f) None (omega_free 1) INone "Ey" [("Ey"%string, 0%nat)] (wave1 true C1 C0) = (s', Err AttributeError).
Proof. exact missing_other. Qed.
Print Assumptions C86_other_refuted.
