(** C117: kspace_epoch_like_old. *)
From Coq Require Import Reals String Ascii List ZArith Lia.
From Verif Require Import PyBase NdModel CplxModel FftModel FftSpec FftDemo KspaceModel KspaceSpec KspaceFacts KspaceDemo KspaceCutSpec KspaceCut EpochOldModel EpochOldSpec EpochOldFacts EpochOldDemo.
Import ListNotations.
Local Open Scope R_scope.

(** when the component is of the kind to which the others are aligned, it is kspace with linear
    interpolation *)
Theorem C117_aligned : forall spl lin cut omega el p fields s, (p < 3)%nat ->
  kspace_epoch_like_old spl lin cut omega (letter el) (comp el p) fields s = let (s', r) := kspace spl lin cut omega ILinear (comp el p) fields s in (s', (fields, r)).
Proof. exact old_aligned. Qed.
Print Assumptions C117_aligned.
Example C117_aligned_case : (1 < 3)%nat /\ letter true = "E"%char /\ comp true 1 = "Ey"%string.
Proof. split; [lia|]. split; reflexivity. Qed.
(** otherwise the component is first moved by half a cell of its grid, except along its own
    direction; the result is the combination of kspace with the moved field *)
Theorem C117_formula_partial : forall spl lin omega al el p fields s s' d' a', linear_spline spl -> (p < 3)%nat -> al <> letter el -> distinct fields s -> all_wellformed fields s ->
  (forall a f U g, dget fields (comp el p) = Some a -> nth_error s a = Some f -> on_grid f (seq 0 (ndim f)) U -> lin f (half_cell el p (ndim f) U) = Ok g -> wellformed g) ->
  kspace_epoch_like_old spl lin None omega al (comp el p) fields s = (s', (d', Ok a')) ->
  exists a f U g G r b, dget fields (comp el p) = Some a /\ nth_error s a = Some f /\ on_grid f (seq 0 (ndim f)) U /\ lin f (half_cell el p (ndim f) U) = Ok g /\ ensure_domain spl g true = Ok G /\ nth_error s' a' = Some r /\
    rf_axes r = rf_axes G /\ rf_ats r = rf_ats G /\ rf_tao r = rf_tao G /\ a_shape (rf_data r) = a_shape (rf_data G) /\
    (forall idx, let k := wave_vector (rf_axes G) idx in
       a_at (rf_data r) idx = Csub (a_at (rf_data G) idx) (Cmul (RtoC (factor el (omega (rf_axes G) idx) k)) (cross k (fun i => spectrum spl s fields (comp (negb el) i) idx) p))) /\
    dget d' (comp el p) = Some b /\ (length s <= b)%nat /\ (in_domain g true = Ok false -> nth_error s' b = Some g).
Proof. exact old_value. Qed.
Print Assumptions C117_formula_partial.
Example C117_formula_case : linear_spline line_spline /\ "B"%char <> letter true /\ distinct names1 (wave1 false C1 C1) /\ all_wellformed names1 (wave1 false C1 C1) /\
  (forall a f U g, dget names1 (comp true 1) = Some a -> nth_error (wave1 false C1 C1) a = Some f -> on_grid f (seq 0 (ndim f)) U -> real_shift f (half_cell true 1 (ndim f) U) = Ok g -> wellformed g) /\
  (exists s' d' a', kspace_epoch_like_old line_spline real_shift None (omega_free 1) "B"%char (comp true 1) names1 (wave1 false C1 C1) = (s', (d', Ok a'))) /\
  half_cell false 2 3 (fun _ => grid1) = [(0%Z, - (3 / 2)); (1%Z, - (3 / 2)); (2%Z, 0)].
Proof. split; [exact line_spline_ok|]. split; [discriminate|]. split; [apply wave1_distinct|]. split; [apply wave1_wf|]. split; [exact wave1_shift|]. split; [exact old_runs|reflexivity]. Qed.
(** with the linear shift of fields of real numbers: the call succeeds, and leaves the caller with a
    dictionary in which the name stands for the moved field *)
Theorem C117_total : forall spl omega al el p nd W fields s a f, linear_spline spl -> (p < 3)%nat -> (0 < nd)%nat -> al <> letter el -> distinct fields s ->
  dget fields (comp el p) = Some a -> nth_error s a = Some f -> lives_on f nd W -> all_in false f ->
  (forall key, In key (tl (needed el p nd)) -> exists a f V, dget fields key = Some a /\ nth_error s a = Some f /\ lives_on f nd V /\ compatible IFourier nd (fun a => moved_by (half_step el p a W) (W a)) V /\ origins_known f) ->
  exists s' a' b g, kspace_epoch_like_old spl real_shift None omega al (comp el p) fields s = (s', (dset fields (comp el p) b, Ok a')) /\ (length s <= b < length s')%nat /\
    nth_error s' b = Some g /\ lives_on g nd (fun a => moved_by (half_step el p a W) (W a)) /\ all_in false g.
Proof. exact old_total. Qed.
Print Assumptions C117_total.
Example C117_total_case : lives_on (field1 "x" "m" grid1 false (Some 0) (fun _ => C1)) 1 (place1 false) /\ all_in false (field1 "x" "m" grid1 false (Some 0) (fun _ => C1)) /\ tl (needed true 1 1) = ["Bz"%string].
Proof. split; [apply wave1_lives|]. split; [apply field1_wf|reflexivity]. Qed.
(** with an extent it is the call without one for new objects, the parts of the fields *)
Theorem C117_parts : forall spl lin ct omega al el p fields s s' d' r, (p < 3)%nat -> all_there fields s -> kspace_epoch_like_old spl lin (Some ct) omega al (comp el p) fields s = (s', (d', Ok r)) ->
  exists m f fm s1 d d2, dget fields (comp el p) = Some m /\ nth_error s m = Some f /\ ensure_domain spl f false = Ok fm /\ distinct d s1 /\
    (forall k, match dget fields k, dget d k with
               | None, None => True
               | Some a, Some b => exists g h, nth_error s a = Some g /\ part_of spl ct fm g h /\ nth_error s1 b = Some h
               | _, _ => False end) /\
    kspace_epoch_like_old spl lin None omega al (comp el p) d s1 = (s', (d2, Ok r)).
Proof. exact old_parts. Qed.
Print Assumptions C117_parts.
Example C117_parts_case : exists s' d' r, all_there names1 (wave4 C1 C1) /\ kspace_epoch_like_old line_spline real_shift (Some first_two) (omega_free 1) "B"%char (comp true 1) names1 (wave4 C1 C1) = (s', (d', Ok r)).
Proof. exact old_part_runs. Qed.
(** whatever the outcome: no Field object is changed, except that an aligned call without extent
    writes to the component when it already is in the frequency domain *)
Theorem C117_objects_partial : forall spl lin cut omega al el p fields s s' d' r, (p < 3)%nat -> kspace_epoch_like_old spl lin cut omega al (comp el p) fields s = (s', (d', r)) ->
  unchanged_except (fun a => cut = None /\ al = letter el /\ dget fields (comp el p) = Some a /\ exists f, nth_error s a = Some f /\ in_domain f true = Ok true) s s'.
Proof. exact old_keeps. Qed.
Print Assumptions C117_objects_partial.
(** whatever the outcome: the dictionary is changed only by a call without extent which does not
    align, and only at the name of the component *)
Theorem C117_names_partial : forall spl lin cut omega al el p fields s s' d' r, (p < 3)%nat -> kspace_epoch_like_old spl lin cut omega al (comp el p) fields s = (s', (d', r)) ->
  (cut <> None \/ al = letter el -> d' = fields) /\ forall key, key <> comp el p -> dget d' key = dget fields key.
Proof. exact old_names. Qed.
Print Assumptions C117_names_partial.
Example C117_names_case : exists s' d' r, kspace_epoch_like_old line_spline real_shift (Some first_two) (omega_free 1) "B"%char (comp true 1) names1 (wave4 C1 C1) = (s', (d', r)).
Proof. destruct old_part_runs as (s' & d' & r & _ & E). exists s', d', (Ok r). exact E. Qed.
(** the dictionary is not left as it was: called twice, the field wanders off by half a cell each time *)
Theorem C117_names_refuted : exists s s1 s2 d1 d2 r1 r2, distinct names1 s /\ all_wellformed names1 s /\
  kspace_epoch_like_old line_spline real_shift None (omega_free 1) "B"%char (comp true 1) names1 s = (s1, (d1, Ok r1)) /\
  kspace_epoch_like_old line_spline real_shift None (omega_free 1) "B"%char (comp true 1) d1 s1 = (s2, (d2, Ok r2)) /\
  starts_at names1 s (comp true 1) 1 /\ starts_at d1 s1 (comp true 1) (1 + 3 / 2) /\ starts_at d2 s2 (comp true 1) (1 + 3).
Proof. exact wanders. Qed.
Print Assumptions C117_names_refuted.
