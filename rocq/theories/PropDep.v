(** Property theorems about particle deposition: C25-C31, C43, C68, C69. *)
From Coq Require Import Lia Lqa Permutation.
From Verif Require Import PyBase PyBaseFacts NumpyModel NumpyFacts QSum DepSpec DepModel DepPadModel DepPadSpec DepPadFacts DepFacts
  DepHistFacts DepSumFacts DepLinFacts HistddModel HistddFacts.

(** Concrete oracles for the examples: double precision spacing of numbers in [1,2),
    proportional elsewhere, and the x86-64 result of an overflowing conversion. *)
Definition demo_spacing (x : Q) : Q := x * (1 # 4503599627370496).
Definition x86 : Q -> Z := fun _ => int_min.
Definition cells (r : res (arr * list Q)) (n : nat) : list Q :=
  match r with
  | Ok (h, _) => map (fun i => Qred (a_at h [Z.of_nat i])) (seq 0 n)
  | Err _ => []
  end.

Example demo_range_ok : good_range demo_spacing (0, 4) 4.
Proof. split; [reflexivity|]. split; [discriminate|]. split; reflexivity. Qed.

(** ** C25 *)
Theorem C25_histogram_memory_safe :
  forall ub spacing data r n ws sh,
    (n <= 2 ^ 31 - 1)%Z -> (forall l, ws = Some l -> length l = length data) ->
    histogram ub spacing data r n ws sh <> Err MemFault.
Proof.
  intros ub spacing data r n ws sh N L.
  exact (histogram_no_fault ub spacing data r n ws sh N (Nat.eq_le_incl _ _ (eq_sym (weights_ok ws _ L)))).
Qed.
Print Assumptions C25_histogram_memory_safe.

Theorem C25_histogram2d_memory_safe_partial :
  forall ub spacing datax datay ws rx ry nx ny sh,
    (nx <= 2 ^ 31 - 1)%Z -> (ny <= 2 ^ 31 - 1)%Z -> (forall l, ws = Some l -> length l = length datax) ->
    (forall v, In v datay -> cell_pos (widen spacing ry) ny v < inject_Z (2 ^ 31 - 1)) ->
    histogram2d ub spacing datax datay ws rx ry nx ny sh <> Err MemFault.
Proof.
  intros ub spacing datax datay ws rx ry nx ny sh N N' L F.
  exact (histogram2d_no_fault ub spacing datax datay ws rx ry nx ny sh N N'
           (Nat.eq_le_incl _ _ (eq_sym (weights_ok ws _ L)))
           (fun o _ => second_safe_fits ub o _ ny datay F)).
Qed.
Print Assumptions C25_histogram2d_memory_safe_partial.

Theorem C25_histogram3d_memory_safe_partial :
  forall ub spacing datax datay dataz ws rx ry rz nx ny nz sh,
    (nx <= 2 ^ 31 - 1)%Z -> (ny <= 2 ^ 31 - 1)%Z -> (nz <= 2 ^ 31 - 1)%Z ->
    (forall l, ws = Some l -> length l = length datax) ->
    (forall v, In v datay -> cell_pos (widen spacing ry) ny v < inject_Z (2 ^ 31 - 1)) ->
    (forall v, In v dataz -> cell_pos (widen spacing rz) nz v < inject_Z (2 ^ 31 - 1)) ->
    histogram3d ub spacing datax datay dataz ws rx ry rz nx ny nz sh <> Err MemFault.
Proof.
  intros ub spacing datax datay dataz ws rx ry rz nx ny nz sh N N' N'' L F F'.
  exact (histogram3d_no_fault ub spacing datax datay dataz ws rx ry rz nx ny nz sh N N' N''
           (Nat.eq_le_incl _ _ (eq_sym (weights_ok ws _ L)))
           (fun o _ => second_safe_fits ub o _ ny datay F) (fun o _ => second_safe_fits ub o _ nz dataz F')).
Qed.
Print Assumptions C25_histogram3d_memory_safe_partial.

(** A conversion which never turns a large positive float into a negative integer would
    make the two and three dimensional loops safe for all positions. *)
Theorem C25_saturating_conversion_safe_partial :
  forall ub spacing datax datay ws rx ry nx ny sh,
    (forall q, 0 <= q -> (0 <= ub q)%Z) ->
    (nx <= 2 ^ 31 - 1)%Z -> (ny <= 2 ^ 31 - 1)%Z -> (forall l, ws = Some l -> length l = length datax) ->
    histogram2d ub spacing datax datay ws rx ry nx ny sh <> Err MemFault.
Proof.
  intros ub spacing datax datay ws rx ry nx ny sh U N N' L.
  exact (histogram2d_no_fault ub spacing datax datay ws rx ry nx ny sh N N'
           (Nat.eq_le_incl _ _ (eq_sym (weights_ok ws _ L)))
           (fun o _ => second_safe_saturating ub o _ ny datay U)).
Qed.
Print Assumptions C25_saturating_conversion_safe_partial.

Theorem C25_far_particle_2d_refuted :
  histogram2d x86 demo_spacing [1; 1] [1; 3000000000] None (0, 4) (0, 4) 4 4 (ShInt 1) = Err MemFault.
Proof. vm_compute. reflexivity. Qed.
Print Assumptions C25_far_particle_2d_refuted.

Theorem C25_far_particle_3d_refuted :
  histogram3d x86 demo_spacing [1] [1] [3000000000] None (0, 4) (0, 4) (0, 4) 4 4 4 (ShInt 1) = Err MemFault
  /\ histogram3d x86 demo_spacing [1] [3000000000] [1] None (0, 4) (0, 4) (0, 4) 4 4 4 (ShInt 2) = Err MemFault.
Proof. vm_compute. split; reflexivity. Qed.
Print Assumptions C25_far_particle_3d_refuted.

Theorem C25_short_weights_refuted :
  exists data w, (length w < length data)%nat /\
    histogram x86 demo_spacing data (0, 4) 4 (Some w) (ShInt 2) = Err MemFault.
Proof. exists [1; 2], [1]. split; [cbn; lia|]. vm_compute. reflexivity. Qed.
Print Assumptions C25_short_weights_refuted.

Example C25_nonvacuous :
  (forall v, In v [1; 3; -7; 100] -> cell_pos (widen demo_spacing (0, 4)) 4 v < inject_Z (2 ^ 31 - 1))
  /\ exists h ex ey, histogram2d x86 demo_spacing [1; 3; 2; 2] [1; 3; -7; 100] None (0, 4) (0, 4) 4 4 (ShInt 3) = Ok (h, ex, ey).
Proof.
  split.
  - intros v I. repeat (destruct I as [<-|I]; [reflexivity|]). destruct I.
  - destruct (ok_such (histogram2d x86 demo_spacing [1; 3; 2; 2] [1; 3; -7; 100] None (0, 4) (0, 4) 4 4 (ShInt 3))
      (fun _ => true)) as ([[h ex] ey] & E & _); [vm_compute; reflexivity|]. exists h, ex, ey. exact E.
Qed.

(** ** C26 *)
(** The array with the cells around the range, of which the histogram is the inner part, contains the
    weights of all particles which pass the range test, whatever the particles and the range. *)
Theorem C26_padded_1d : forall ub spacing data r n ws sh,
  histogram ub spacing data r n ws sh = rmap (fun '(P, s, e) => (crop s [n] P, e)) (padded1 ub spacing data r n ws sh) /\
  forall P s e, padded1 ub spacing data r n ws sh = Ok (P, s, e) ->
    exists o, order_of sh = Ok o /\ s = supp o /\ a_shape P = [n + 2 * s]%Z /\
      total (a_shape P) (a_at P) == qsum (passed (fun v => accept1 ub o n (scaled_in spacing r n v)) (combine data (weights_list ws (length data)))).
Proof. exact (fun ub spacing data r n ws sh => conj (padded1_hist ub spacing data r n ws sh) (padded1_total ub spacing data r n ws sh)). Qed.
Print Assumptions C26_padded_1d.
Theorem C26_padded_2d : forall ub spacing datax datay ws rx ry nx ny sh,
  histogram2d ub spacing datax datay ws rx ry nx ny sh = rmap (fun '(P, s, ex, ey) => (crop s [nx; ny] P, ex, ey)) (padded2 ub spacing datax datay ws rx ry nx ny sh) /\
  forall P s ex ey, padded2 ub spacing datax datay ws rx ry nx ny sh = Ok (P, s, ex, ey) ->
    exists o, order_of sh = Ok o /\ s = supp o /\ a_shape P = [nx + 2 * s; ny + 2 * s]%Z /\
      total (a_shape P) (a_at P) == qsum (passed (fun v => accept2 ub o nx ny (scaled_in spacing rx nx (fst v), scaled_in spacing ry ny (snd v))) (combine (combine datax datay) (weights_list ws (length datax)))).
Proof. exact (fun ub spacing dx dy ws rx ry nx ny sh => conj (padded2_hist ub spacing dx dy ws rx ry nx ny sh) (padded2_total ub spacing dx dy ws rx ry nx ny sh)). Qed.
Print Assumptions C26_padded_2d.
Theorem C26_padded_3d : forall ub spacing datax datay dataz ws rx ry rz nx ny nz sh,
  histogram3d ub spacing datax datay dataz ws rx ry rz nx ny nz sh = rmap (fun '(P, s, ex, ey, ez) => (crop s [nx; ny; nz] P, ex, ey, ez)) (padded3 ub spacing datax datay dataz ws rx ry rz nx ny nz sh) /\
  forall P s ex ey ez, padded3 ub spacing datax datay dataz ws rx ry rz nx ny nz sh = Ok (P, s, ex, ey, ez) ->
    exists o, order_of sh = Ok o /\ s = supp o /\ a_shape P = [nx + 2 * s; ny + 2 * s; nz + 2 * s]%Z /\
      total (a_shape P) (a_at P) == qsum (passed (fun v => accept3 ub o nx ny nz (scaled_in spacing rx nx (fst (fst v)), scaled_in spacing ry ny (snd (fst v)), scaled_in spacing rz nz (snd v))) (combine (combine (combine datax datay) dataz) (weights_list ws (length datax)))).
Proof. exact (fun ub spacing dx dy dz ws rx ry rz nx ny nz sh => conj (padded3_hist ub spacing dx dy dz ws rx ry rz nx ny nz sh) (padded3_total ub spacing dx dy dz ws rx ry rz nx ny nz sh)). Qed.
Print Assumptions C26_padded_3d.
(** Particles at both borders, one far away: the inner part has lost something, the padded array has not. *)
Example C26_padded_case : match padded1 x86 demo_spacing [0; 4; 100; 2] (0, 4) 4 (Some [1; 2; 8; 4]) (ShInt 3) with
  | Ok (P, s, _) => s = 3%Z /\ total (a_shape P) (a_at P) == 7 /\ passed (fun v => accept1 x86 Spline3 4 (scaled_in demo_spacing (0, 4) 4 v)) (combine [0; 4; 100; 2] [1; 2; 8; 4]) = [1; 2; 4] /\ ~ total [4%Z] (a_at (crop s [4%Z] P)) == 7
  | Err _ => False end.
Proof. vm_compute. repeat split; discriminate. Qed.
Theorem C26_weight_conserved_1d :
  forall ub spacing d data r n ws,
    (d <= 3)%nat -> good_range spacing r n ->
    (forall l, ws = Some l -> length l = length data) ->
    Forall (wholly_inside d r n) data ->
    exists h edges, histogram ub spacing data r n ws (ShInt (Z.of_nat d)) = Ok (h, edges)
      /\ total (a_shape h) (a_at h) == qsum (weights_list ws (length data)).
Proof. exact hist1_total. Qed.
Print Assumptions C26_weight_conserved_1d.

Theorem C26_weight_conserved_2d :
  forall ub spacing d datax datay rx ry nx ny ws,
    (d <= 3)%nat -> good_range spacing rx nx -> good_range spacing ry ny ->
    length datax = length datay -> (forall l, ws = Some l -> length l = length datax) ->
    Forall (wholly_inside d rx nx) datax -> Forall (wholly_inside d ry ny) datay ->
    exists h ex ey, histogram2d ub spacing datax datay ws rx ry nx ny (ShInt (Z.of_nat d)) = Ok (h, ex, ey)
      /\ total (a_shape h) (a_at h) == qsum (weights_list ws (length datax)).
Proof. exact hist2_total. Qed.
Print Assumptions C26_weight_conserved_2d.

Theorem C26_weight_conserved_3d :
  forall ub spacing d datax datay dataz rx ry rz nx ny nz ws,
    (d <= 3)%nat -> good_range spacing rx nx -> good_range spacing ry ny -> good_range spacing rz nz ->
    length datax = length datay -> length datax = length dataz ->
    (forall l, ws = Some l -> length l = length datax) ->
    Forall (wholly_inside d rx nx) datax -> Forall (wholly_inside d ry ny) datay ->
    Forall (wholly_inside d rz nz) dataz ->
    exists h ex ey ez,
      histogram3d ub spacing datax datay dataz ws rx ry rz nx ny nz (ShInt (Z.of_nat d)) = Ok (h, ex, ey, ez)
      /\ total (a_shape h) (a_at h) == qsum (weights_list ws (length datax)).
Proof. exact hist3_total. Qed.
Print Assumptions C26_weight_conserved_3d.

(** Every particle in the range, also close to its ends, is spread with the B-spline of
    the order; nothing is gained. *)
Theorem C26_shares_are_splines_1d :
  forall ub spacing d data r n ws,
    (d <= 3)%nat -> good_range spacing r n ->
    (forall l, ws = Some l -> length l = length data) ->
    Forall (within d r) data ->
    exists h edges, histogram ub spacing data r n ws (ShInt (Z.of_nat d)) = Ok (h, edges)
      /\ a_shape h = [n]
      /\ forall i, (0 <= i < n)%Z -> a_at h [i] ==
         qsum (map (fun vw => bspline d (cell_dist r n i (fst vw)) * snd vw)
                (combine data (weights_list ws (length data)))).
Proof. exact hist1_shares_in_range. Qed.
Print Assumptions C26_shares_are_splines_1d.

Theorem C26_shares_are_splines_2d :
  forall ub spacing d datax datay rx ry nx ny ws,
    (d <= 3)%nat -> good_range spacing rx nx -> good_range spacing ry ny ->
    length datax = length datay -> (forall l, ws = Some l -> length l = length datax) ->
    Forall (within d rx) datax -> Forall (within d ry) datay ->
    exists h ex ey, histogram2d ub spacing datax datay ws rx ry nx ny (ShInt (Z.of_nat d)) = Ok (h, ex, ey)
      /\ a_shape h = [nx; ny]
      /\ forall i j, (0 <= i < nx)%Z -> (0 <= j < ny)%Z -> a_at h [i; j] ==
         qsum (map (fun vw => bspline d (cell_dist rx nx i (fst (fst vw))) *
                              bspline d (cell_dist ry ny j (snd (fst vw))) * snd vw)
                (combine (combine datax datay) (weights_list ws (length datax)))).
Proof. exact hist2_shares_in_range. Qed.
Print Assumptions C26_shares_are_splines_2d.

Theorem C26_shares_are_splines_3d :
  forall ub spacing d datax datay dataz rx ry rz nx ny nz ws,
    (d <= 3)%nat -> good_range spacing rx nx -> good_range spacing ry ny -> good_range spacing rz nz ->
    length datax = length datay -> length datax = length dataz ->
    (forall l, ws = Some l -> length l = length datax) ->
    Forall (within d rx) datax -> Forall (within d ry) datay -> Forall (within d rz) dataz ->
    exists h ex ey ez,
      histogram3d ub spacing datax datay dataz ws rx ry rz nx ny nz (ShInt (Z.of_nat d)) = Ok (h, ex, ey, ez)
      /\ a_shape h = [nx; ny; nz]
      /\ forall i j k, (0 <= i < nx)%Z -> (0 <= j < ny)%Z -> (0 <= k < nz)%Z -> a_at h [i; j; k] ==
         qsum (map (fun vw => bspline d (cell_dist rx nx i (fst (fst (fst vw)))) *
                              bspline d (cell_dist ry ny j (snd (fst (fst vw)))) *
                              bspline d (cell_dist rz nz k (snd (fst vw))) * snd vw)
                (combine (combine (combine datax datay) dataz) (weights_list ws (length datax)))).
Proof. exact hist3_shares_in_range. Qed.
Print Assumptions C26_shares_are_splines_3d.

Example C26_nonvacuous :
  Forall (wholly_inside 3 (0, 4) 4) [3 # 2; 2; 9 # 4]
  /\ Forall (wholly_inside 0 (0, 4) 4) [1 # 100; 2; 399 # 100]
  /\ cells (histogram x86 demo_spacing [3 # 2; 2; 9 # 4] (0, 4) 4 (Some [1; 2; 4]) (ShInt 3)) 4
     = [7 # 32; 277 # 96; 343 # 96; 31 # 96].
Proof.
  split; [|split].
  - repeat (constructor; [split; [split; cbn; discriminate|discriminate]|]). constructor.
  - repeat (constructor; [split; [split; cbn; discriminate|split; reflexivity]|]). constructor.
  - vm_compute. reflexivity.
Qed.

(** ** C27 *)
Theorem C27_particle_local_nonneg_1d_partial :
  forall ub spacing d r n v w,
    (d <= 3)%nat -> good_range spacing r n ->
    tested_cell d n (cell_pos r n v) -> fits_int (cell_pos r n v) -> 0 <= w ->
    exists h e, histogram ub spacing [v] r n (Some [w]) (ShInt (Z.of_nat d)) = Ok (h, e)
      /\ forall i, (0 <= i < n)%Z -> 0 <= a_at h [i] /\ a_at h [i] <= w
           /\ (reach d < qabs (cell_dist r n i v) -> a_at h [i] == 0).
Proof. exact single1_local. Qed.
Print Assumptions C27_particle_local_nonneg_1d_partial.

Theorem C27_particle_local_nonneg_2d_partial :
  forall ub spacing d rx ry nx ny v v' w,
    (d <= 3)%nat -> good_range spacing rx nx -> good_range spacing ry ny ->
    tested_cell d nx (cell_pos rx nx v) -> fits_int (cell_pos rx nx v) ->
    tested_sign d ny (cell_pos ry ny v') -> fits_int (cell_pos ry ny v') -> 0 <= w ->
    exists h ex ey, histogram2d ub spacing [v] [v'] (Some [w]) rx ry nx ny (ShInt (Z.of_nat d)) = Ok (h, ex, ey)
      /\ forall i j, (0 <= i < nx)%Z -> (0 <= j < ny)%Z -> 0 <= a_at h [i; j] /\ a_at h [i; j] <= w
           /\ (reach d < qabs (cell_dist rx nx i v) \/ reach d < qabs (cell_dist ry ny j v') -> a_at h [i; j] == 0).
Proof. exact single2. Qed.
Print Assumptions C27_particle_local_nonneg_2d_partial.

Theorem C27_in_range_nonneg_1d_partial :
  forall ub spacing d data r n ws,
    (d <= 3)%nat -> good_range spacing r n ->
    (forall l, ws = Some l -> length l = length data) ->
    Forall (within d r) data -> Forall (fun w => 0 <= w) (weights_list ws (length data)) ->
    exists h edges, histogram ub spacing data r n ws (ShInt (Z.of_nat d)) = Ok (h, edges)
      /\ (forall i, (0 <= i < n)%Z -> 0 <= a_at h [i])
      /\ total (a_shape h) (a_at h) <= qsum (weights_list ws (length data)).
Proof. exact hist1_total_le. Qed.
Print Assumptions C27_in_range_nonneg_1d_partial.

(** Just below the range truncation toward zero selects the wrong reference cell: a
    particle of weight one gives a negative amount. *)
Theorem C27_negative_share_refuted :
  exists v w h e, 0 <= w /\ v < 0
    /\ histogram x86 demo_spacing [v] (0, 4) 4 (Some [w]) (ShInt 2) = Ok (h, e)
    /\ a_at h [0%Z] == - (1 # 4).
Proof.
  destruct (ok_such (histogram x86 demo_spacing [- (1 # 2)] (0, 4) 4 (Some [1]) (ShInt 2))
    (fun he => Qeq_bool (a_at (fst he) [0%Z]) (- (1 # 4)))) as ([h e] & E & P); [vm_compute; reflexivity|].
  exists (- (1 # 2)), 1, h, e. split; [discriminate|]. split; [reflexivity|].
  split; [exact E|]. apply Qeq_bool_eq. exact P.
Qed.
Print Assumptions C27_negative_share_refuted.

Example C27_nonvacuous :
  tested_cell 2 4 (cell_pos (0, 4) 4 (- (5))) /\ fits_int (cell_pos (0, 4) 4 (- (5)))
  /\ tested_cell 2 4 (cell_pos (0, 4) 4 (5 # 2)) /\ tested_sign 3 4 (cell_pos (0, 4) 4 (7 # 1)).
Proof.
  split; [split; [right; cbn; discriminate|exact I]|]. split; [split; [discriminate|reflexivity]|].
  split; [split; [left; cbn; discriminate|exact I]|].
  split; [left; cbn; discriminate|right; cbn; discriminate].
Qed.

(** ** C28 *)
Theorem C28_ngp_counts_partial :
  forall ub spacing data r n ws,
    good_range spacing r n -> (forall l, ws = Some l -> length l = length data) ->
    exists h edges, histogram ub spacing data r n ws (ShInt 0) = Ok (h, edges)
      /\ a_shape h = [n]
      /\ forall i, (0 <= i < n)%Z -> a_at h [i] ==
         qsum (map snd (filter (fun vw => (edge r n i <=?q fst vw) && (fst vw <?q edge r n (i + 1))
                                          && negb (fst vw ==?q fst r))
                (combine data (weights_list ws (length data))))).
Proof. exact hist1_counts. Qed.
Print Assumptions C28_ngp_counts_partial.

(** Particles exactly at the ends of the range are lost, so with the default range the
    extreme particles never show up. *)
Theorem C28_outer_edges_lost_refuted :
  cells (histogram x86 demo_spacing [0; 1 # 2; 3; 4] (0, 4) 4 None (ShInt 0)) 4 = [1; 0; 0; 1]
  /\ match histogramdd x86 demo_spacing (DVec [1; 2; 5]) RNone None (BInt 2) (Some (ShInt 0)) with
     | Ok (h, _) => Qeq_bool (total [2%Z] (a_at h)) 1
     | Err _ => false
     end = true.
Proof. vm_compute. split; reflexivity. Qed.
Print Assumptions C28_outer_edges_lost_refuted.

(** ** C29 *)
Theorem C29_additive_1d :
  forall ub spacing r n sh o ps qs, good_range spacing r n -> order_of sh = Ok o ->
    exists hp hq h e, hist1 ub spacing r n sh ps = Ok (hp, e) /\ hist1 ub spacing r n sh qs = Ok (hq, e)
      /\ hist1 ub spacing r n sh (ps ++ qs) = Ok (h, e) /\ arr_eq h (arr_add hp hq).
Proof. exact hist1_additive. Qed.
Print Assumptions C29_additive_1d.

Theorem C29_order_independent_1d :
  forall ub spacing r n sh o ps qs, good_range spacing r n -> order_of sh = Ok o -> Permutation ps qs ->
    exists hp hq e, hist1 ub spacing r n sh ps = Ok (hp, e) /\ hist1 ub spacing r n sh qs = Ok (hq, e)
      /\ arr_eq hp hq.
Proof. exact hist1_permutation. Qed.
Print Assumptions C29_order_independent_1d.

Theorem C29_scaling_1d :
  forall ub spacing r n sh o ps k, good_range spacing r n -> order_of sh = Ok o ->
    exists hp hq e, hist1 ub spacing r n sh ps = Ok (hp, e)
      /\ hist1 ub spacing r n sh (map (fun p => (fst p, k * snd p)) ps) = Ok (hq, e)
      /\ arr_eq hq (arr_scale k hp).
Proof. exact hist1_scaling. Qed.
Print Assumptions C29_scaling_1d.

Theorem C29_no_weights_is_weight_one :
  forall ub spacing data r n sh o, good_range spacing r n -> order_of sh = Ok o ->
    exists h h' e, histogram ub spacing data r n None sh = Ok (h, e)
      /\ histogram ub spacing data r n (Some (repeat 1 (length data))) sh = Ok (h', e) /\ arr_eq h h'.
Proof. exact no_weights_1. Qed.
Print Assumptions C29_no_weights_is_weight_one.

(** Full statement: all particles.  Missing: positions beyond a C int, where the histogram itself fails (C25). *)
Theorem C29_laws_2d_partial :
  forall ub spacing rx ry nx ny sh o, good_range spacing rx nx -> good_range spacing ry ny ->
    order_of sh = Ok o -> forall ps qs k,
    (forall p, In p (ps ++ qs) -> cell_pos ry ny (snd (fst p)) < inject_Z (2 ^ 31 - 1)) ->
    exists hp hq h hk hr,
      rmap (fun x => fst (fst x)) (hist2 ub spacing rx ry nx ny sh ps) = Ok hp
      /\ rmap (fun x => fst (fst x)) (hist2 ub spacing rx ry nx ny sh qs) = Ok hq
      /\ rmap (fun x => fst (fst x)) (hist2 ub spacing rx ry nx ny sh (ps ++ qs)) = Ok h
      /\ rmap (fun x => fst (fst x)) (hist2 ub spacing rx ry nx ny sh (map (fun p => (fst p, k * snd p)) ps)) = Ok hk
      /\ arr_eq h (arr_add hp hq) /\ arr_eq hk (arr_scale k hp)
      /\ (forall rs, Permutation (ps ++ qs) rs ->
            rmap (fun x => fst (fst x)) (hist2 ub spacing rx ry nx ny sh rs) = Ok (hr rs) /\ arr_eq h (hr rs)).
Proof. exact hist2_laws. Qed.
Print Assumptions C29_laws_2d_partial.

Theorem C29_laws_3d_partial :
  forall ub spacing rx ry rz nx ny nz sh o, good_range spacing rx nx -> good_range spacing ry ny ->
    good_range spacing rz nz -> order_of sh = Ok o -> forall ps qs k,
    (forall p, In p (ps ++ qs) -> cell_pos ry ny (snd (fst (fst p))) < inject_Z (2 ^ 31 - 1)
                                  /\ cell_pos rz nz (snd (fst p)) < inject_Z (2 ^ 31 - 1)) ->
    let H := fun l => rmap (fun x => fst (fst (fst x))) (hist3 ub spacing rx ry rz nx ny nz sh l) in
    exists hp hq h hk hr,
      H ps = Ok hp /\ H qs = Ok hq /\ H (ps ++ qs) = Ok h
      /\ H (map (fun p => (fst p, k * snd p)) ps) = Ok hk
      /\ arr_eq h (arr_add hp hq) /\ arr_eq hk (arr_scale k hp)
      /\ (forall rs, Permutation (ps ++ qs) rs -> H rs = Ok (hr rs) /\ arr_eq h (hr rs)).
Proof. exact hist3_laws. Qed.
Print Assumptions C29_laws_3d_partial.

Example C29_nonvacuous :
  order_of (ShName "triangle") = Ok Triangle
  /\ cells (hist1 x86 demo_spacing (0, 4) 4 (ShInt 1) [(1, 2); (3 # 4, 1)]) 4 = [7 # 4; 5 # 4; 0; 0].
Proof. vm_compute. split; reflexivity. Qed.

(** ** C30 *)
Theorem C30_transpose_partial :
  forall ub spacing d rx ry nx ny (ps : list (Q * Q * Q)),
    (d <= 3)%nat -> good_range spacing rx nx -> good_range spacing ry ny ->
    (forall p, In p ps -> not_below spacing d rx nx (fst (fst p)) /\ not_below spacing d ry ny (snd (fst p))) ->
    exists h h', rmap (fun x => fst (fst x)) (hist2 ub spacing rx ry nx ny (ShInt (Z.of_nat d)) ps) = Ok h
      /\ rmap (fun x => fst (fst x)) (hist2 ub spacing ry rx ny nx (ShInt (Z.of_nat d))
            (map (fun p => (snd (fst p), fst (fst p), snd p)) ps)) = Ok h'
      /\ a_shape h = [nx; ny] /\ a_shape h' = [ny; nx]
      /\ forall i j, (0 <= i < nx)%Z -> (0 <= j < ny)%Z -> a_at h [i; j] == a_at h' [j; i].
Proof. exact hist2_transpose. Qed.
Print Assumptions C30_transpose_partial.

(** A particle slightly below one of the ranges is kept or dropped depending on which
    coordinate that is. *)
Theorem C30_asymmetric_refuted :
  exists p h h',
    rmap (fun x => fst (fst x)) (hist2 x86 demo_spacing (0, 4) (0, 4) 4 4 (ShInt 1) [p]) = Ok h
    /\ rmap (fun x => fst (fst x)) (hist2 x86 demo_spacing (0, 4) (0, 4) 4 4 (ShInt 1)
          [(snd (fst p), fst (fst p), snd p)]) = Ok h'
    /\ ~ a_at h [0; 1]%Z == a_at h' [1; 0]%Z.
Proof.
  destruct (ok_such (rmap (fun x => fst (fst x)) (hist2 x86 demo_spacing (0, 4) (0, 4) 4 4 (ShInt 1) [(- (1 # 4), 3 # 2, 1)]))
    (fun h => Qeq_bool (a_at h [0; 1]%Z) (1 # 4))) as (h & E & P); [vm_compute; reflexivity|].
  destruct (ok_such (rmap (fun x => fst (fst x)) (hist2 x86 demo_spacing (0, 4) (0, 4) 4 4 (ShInt 1) [(3 # 2, - (1 # 4), 1)]))
    (fun h => Qeq_bool (a_at h [1; 0]%Z) 0)) as (h' & E' & P'); [vm_compute; reflexivity|].
  exists (- (1 # 4), 3 # 2, 1), h, h'. split; [exact E|]. split; [exact E'|].
  apply Qeq_bool_eq in P, P'. rewrite P, P'. discriminate.
Qed.
Print Assumptions C30_asymmetric_refuted.

Example C30_nonvacuous : not_below demo_spacing 2 (0, 4) 4 (7 # 3) /\ not_below demo_spacing 0 (0, 4) 4 (- (1)).
Proof. split; (split; [exact demo_range_ok|]); split; try (right; discriminate); try (left; reflexivity); reflexivity. Qed.

(** ** C31 *)
Theorem C31_arguments_1d :
  forall ub spacing d reqs n ws sh, d <> [] -> (reqs = [] \/ length reqs = 1%nat) ->
    exists r, resolves_range (req_at reqs 0) d r
    /\ histogramdd ub spacing (DVec d) (range_arg reqs) ws (BInt n) (Some sh)
       = rmap (fun he => (fst he, [snd he])) (histogram ub spacing d r n ws sh)
    /\ histogramdd ub spacing (DSeq [d]) (range_arg reqs) ws (BSeq [n]) (Some sh)
       = rmap (fun he => (fst he, [snd he])) (histogram ub spacing d r n ws sh).
Proof. exact histdd_1d. Qed.
Print Assumptions C31_arguments_1d.

Theorem C31_arguments_2d :
  forall ub spacing dx dy reqs nx ny ws sh, dx <> [] -> dy <> [] ->
    (reqs = [] \/ length reqs = 2%nat) ->
    exists rx ry, resolves_range (req_at reqs 0) dx rx /\ resolves_range (req_at reqs 1) dy ry
    /\ histogramdd ub spacing (DSeq [dx; dy]) (range_arg reqs) ws (BSeq [nx; ny]) (Some sh)
       = rmap (fun he => (fst (fst he), [snd (fst he); snd he]))
           (histogram2d ub spacing dx dy ws rx ry nx ny sh)
    /\ histogramdd ub spacing (DSeq [dx; dy]) (range_arg reqs) ws (BInt nx) (Some sh)
       = rmap (fun he => (fst (fst he), [snd (fst he); snd he]))
           (histogram2d ub spacing dx dy ws rx ry nx nx sh).
Proof. exact histdd_2d. Qed.
Print Assumptions C31_arguments_2d.

Theorem C31_arguments_3d :
  forall ub spacing dx dy dz reqs nx ny nz ws sh, dx <> [] -> dy <> [] -> dz <> [] ->
    (reqs = [] \/ length reqs = 3%nat) ->
    exists rx ry rz, resolves_range (req_at reqs 0) dx rx /\ resolves_range (req_at reqs 1) dy ry
       /\ resolves_range (req_at reqs 2) dz rz
    /\ histogramdd ub spacing (DSeq [dx; dy; dz]) (range_arg reqs) ws (BSeq [nx; ny; nz]) (Some sh)
       = rmap (fun he => (fst (fst (fst he)), [snd (fst (fst he)); snd (fst he); snd he]))
           (histogram3d ub spacing dx dy dz ws rx ry rz nx ny nz sh)
    /\ histogramdd ub spacing (DSeq [dx; dy; dz]) (range_arg reqs) ws (BInt nx) (Some sh)
       = rmap (fun he => (fst (fst (fst he)), [snd (fst (fst he)); snd (fst he); snd he]))
           (histogram3d ub spacing dx dy dz ws rx ry rz nx nx nx sh).
Proof. exact histdd_3d. Qed.
Print Assumptions C31_arguments_3d.

Theorem C31_shape_names :
  forall ub spacing data range bins ws name d,
    In (name, d) [("NGP", 0%Z); ("tophat", 1%Z); ("triangle", 2%Z); ("spline3", 3%Z)]%string ->
    histogram ub spacing data range bins ws (ShName name) = histogram ub spacing data range bins ws (ShInt d)
    /\ (forall datay ry ybins,
          histogram2d ub spacing data datay ws range ry bins ybins (ShName name)
          = histogram2d ub spacing data datay ws range ry bins ybins (ShInt d)
          /\ forall dataz rz zbins,
              histogram3d ub spacing data datay dataz ws range ry rz bins ybins zbins (ShName name)
              = histogram3d ub spacing data datay dataz ws range ry rz bins ybins zbins (ShInt d)).
Proof. exact shape_names. Qed.
Print Assumptions C31_shape_names.

Theorem C31_returned_edges :
  forall ub spacing d data r n ws, (d <= 3)%nat -> good_range spacing r n ->
    (forall l, ws = Some l -> length l = length data) ->
    exists h e, histogram ub spacing data r n ws (ShInt (Z.of_nat d)) = Ok (h, e)
     /\ a_shape h = [n] /\ length e = Z.to_nat (n + 1)
     /\ forall i, (0 <= i <= n)%Z -> nth (Z.to_nat i) e 0 == edge r n i.
Proof. exact hist1_edges. Qed.
Print Assumptions C31_returned_edges.

Theorem C31_matrix_columns_partial :
  forall ub spacing nc rows r ws b sh, (3 < length rows)%nat ->
    histogramdd ub spacing (DMat nc rows) r ws b sh
    = histogramdd ub spacing (DSeq (map (column rows) (seq 0 nc))) r ws b sh.
Proof. exact histdd_matrix. Qed.
Print Assumptions C31_matrix_columns_partial.

(** In one dimension the range can be given as a flat pair, ... *)
Theorem C31_flat_range_partial :
  forall ub spacing d a b n ws sh, d <> [] ->
    exists r, resolves_range (Some (Some a, b)) d r
    /\ histogramdd ub spacing (DVec d) (RPair (Some a) b) ws (BInt n) (Some sh)
       = rmap (fun he => (fst he, [snd he])) (histogram ub spacing d r n ws sh)
    /\ histogramdd ub spacing (DSeq [d]) (RPair (Some a) b) ws (BSeq [n]) (Some sh)
       = rmap (fun he => (fst he, [snd he])) (histogram ub spacing d r n ws sh).
Proof. exact histdd_flat. Qed.
Print Assumptions C31_flat_range_partial.
(** ... if it has a lower bound.  Otherwise it counts as no range at all: *)
Theorem C31_flat_open :
  forall ub spacing d b n ws sh, histogramdd ub spacing (DVec d) (RPair None b) ws n sh = histogramdd ub spacing (DVec d) RNone ws n sh.
Proof. exact histdd_flat_open. Qed.
Print Assumptions C31_flat_open.
(** Without data there is no bound to take: both have to be given, and the data as a tuple with
    the empty array. *)
Theorem C31_no_data :
  forall ub spacing lo hi n ws sh, lo = None \/ hi = None ->
    histogramdd ub spacing (DSeq [[]]) (RSeq [Some (lo, hi)]) ws n sh = Err ValueError
    /\ histogramdd ub spacing (DSeq [[]]) RNone ws n sh = Err ValueError.
Proof. exact histdd_nothing. Qed.
Print Assumptions C31_no_data.
Theorem C31_empty_partial :
  forall ub spacing a b n ws sh, histogramdd ub spacing (DSeq [[]]) (RSeq [Some (Some a, Some b)]) ws (BInt n) (Some sh)
    = rmap (fun he => (fst he, [snd he])) (histogram ub spacing [] (a, b) n ws sh).
Proof. exact histdd_empty. Qed.
Print Assumptions C31_empty_partial.
Theorem C31_empty_refuted :
  forall ub spacing r n ws sh, histogramdd ub spacing (DVec []) r ws n sh = Err IndexError.
Proof. exact histdd_empty_refused. Qed.
Print Assumptions C31_empty_refuted.
(** A flat range whose lower bound is None loses its upper bound as well. *)
Theorem C31_open_lower_bound_refuted :
  exists e, rmap snd (histogramdd x86 demo_spacing (DVec [0; 10]) (RPair None (Some 5)) None (BInt 2) (Some (ShInt 0)))
    = Ok [e] /\ last e 0 == 10.
Proof.
  destruct (ok_such (rmap snd (histogramdd x86 demo_spacing (DVec [0; 10]) (RPair None (Some 5)) None (BInt 2) (Some (ShInt 0))))
    (fun es => match es with [e] => Qeq_bool (last e 0) 10 | _ => false end)) as (es & E & P); [vm_compute; reflexivity|].
  destruct es as [|e [|? ?]]; try discriminate. exists e. split; [exact E|]. apply Qeq_bool_eq. exact P.
Qed.
Print Assumptions C31_open_lower_bound_refuted.

(** Three particles in one dimension given as a 3 x 1 array are read as one particle in
    three dimensions. *)
Theorem C31_few_particles_misread_refuted :
  exists a, rmap fst (histogramdd x86 demo_spacing (DMat 1 [[1]; [2]; [3]]) RNone None (BInt 2) (Some (ShInt 0)))
    = Ok a /\ a_shape a = [2; 2; 2]%Z.
Proof.
  destruct (ok_such (rmap fst (histogramdd x86 demo_spacing (DMat 1 [[1]; [2]; [3]]) RNone None (BInt 2) (Some (ShInt 0))))
    (fun a => if list_eq_dec Z.eq_dec (a_shape a) [2; 2; 2]%Z then true else false)) as (a & E & P); [vm_compute; reflexivity|].
  exists a. split; [exact E|]. destruct (list_eq_dec Z.eq_dec (a_shape a) [2; 2; 2]%Z); [assumption|discriminate].
Qed.
Print Assumptions C31_few_particles_misread_refuted.

Example C31_nonvacuous :
  resolves_range (req_at [Some (None, Some 7)] 0) [3; 1; 4] (1, 7)
  /\ rmap snd (histogramdd x86 demo_spacing (DVec [3; 1; 4]) (range_arg [Some (None, Some 7)]) None (BInt 2) None)
     = rmap (fun e => [e]) (np_linspace 1 7 3).
Proof.
  split; [|vm_compute; reflexivity].
  split; [|reflexivity]. split; [right; left; reflexivity|].
  intros x I. repeat (destruct I as [<-|I]; [discriminate|]). destruct I.
Qed.

(** ** C43 *)
Theorem C43_density_integral_1d_partial :
  forall ub spacing d data w ranges n shp,
    (d <= 3)%nat -> shp = Some (ShInt (Z.of_nat d)) -> data <> [] -> length w = length data -> length ranges = 3%nat ->
    (forall r, resolves_range (both (nth 0 ranges None)) data r ->
       good_range spacing r n /\ Forall (wholly_inside d r n) data) ->
    exists r h e, resolves_range (both (nth 0 ranges None)) data r
      /\ create_hist ub spacing [data] w ranges (BSeq [n]) shp = Ok (h, [e])
      /\ a_shape h = [n]
      /\ total [n] (a_at h) * cell_width r n == qsum w.
Proof. exact density_1d. Qed.
Print Assumptions C43_density_integral_1d_partial.

Theorem C43_density_integral_2d_partial :
  forall ub spacing d dx dy w ranges nx ny shp,
    (d <= 3)%nat -> shp = Some (ShInt (Z.of_nat d)) -> dx <> [] -> length dx = length dy ->
    length w = length dx -> length ranges = 3%nat ->
    (forall r, resolves_range (both (nth 0 ranges None)) dx r ->
       good_range spacing r nx /\ Forall (wholly_inside d r nx) dx) ->
    (forall r, resolves_range (both (nth 1 ranges None)) dy r ->
       good_range spacing r ny /\ Forall (wholly_inside d r ny) dy) ->
    exists rx ry h ex ey, resolves_range (both (nth 0 ranges None)) dx rx
      /\ resolves_range (both (nth 1 ranges None)) dy ry
      /\ create_hist ub spacing [dx; dy] w ranges (BSeq [nx; ny]) shp = Ok (h, [ex; ey])
      /\ a_shape h = [nx; ny]
      /\ total [nx; ny] (a_at h) * (cell_width rx nx * cell_width ry ny) == qsum w.
Proof. exact density_2d. Qed.
Print Assumptions C43_density_integral_2d_partial.

Theorem C43_density_integral_3d_partial :
  forall ub spacing d dx dy dz w ranges nx ny nz shp,
    (d <= 3)%nat -> shp = Some (ShInt (Z.of_nat d)) -> dx <> [] -> length dx = length dy -> length dx = length dz ->
    length w = length dx -> length ranges = 3%nat ->
    (forall r, resolves_range (both (nth 0 ranges None)) dx r ->
       good_range spacing r nx /\ Forall (wholly_inside d r nx) dx) ->
    (forall r, resolves_range (both (nth 1 ranges None)) dy r ->
       good_range spacing r ny /\ Forall (wholly_inside d r ny) dy) ->
    (forall r, resolves_range (both (nth 2 ranges None)) dz r ->
       good_range spacing r nz /\ Forall (wholly_inside d r nz) dz) ->
    exists rx ry rz h ex ey ez, resolves_range (both (nth 0 ranges None)) dx rx
      /\ resolves_range (both (nth 1 ranges None)) dy ry
      /\ resolves_range (both (nth 2 ranges None)) dz rz
      /\ create_hist ub spacing [dx; dy; dz] w ranges (BSeq [nx; ny; nz]) shp = Ok (h, [ex; ey; ez])
      /\ a_shape h = [nx; ny; nz]
      /\ total [nx; ny; nz] (a_at h) * (cell_width rx nx * cell_width ry ny * cell_width rz nz) == qsum w.
Proof. exact density_3d. Qed.
Print Assumptions C43_density_integral_3d_partial.

(** With the default range the shapes of the outermost particles stick out. *)
Theorem C43_default_range_refuted :
  exists data w h e, create_hist x86 demo_spacing [data] w [None; None; None] (BSeq [2%Z]) None = Ok (h, [e])
    /\ total [2%Z] (a_at h) * ((last e 0 - nth 0 e 0) / 2) < qsum w.
Proof.
  destruct (ok_such (create_hist x86 demo_spacing [[1; 2; 3]] [1; 1; 1] [None; None; None] (BSeq [2%Z]) None)
    (fun he => match snd he with
               | [e] => Qltb (total [2%Z] (a_at (fst he)) * ((last e 0 - nth 0 e 0) / 2)) (qsum [1; 1; 1])
               | _ => false end)) as ([h es] & E & P); [vm_compute; reflexivity|].
  cbn [fst snd] in P. destruct es as [|e [|? ?]]; try discriminate.
  exists [1; 2; 3], [1; 1; 1], h, e. split; [exact E|].
  destruct (Qltb_spec (total [2%Z] (a_at h) * ((last e 0 - nth 0 e 0) / 2)) (qsum [1; 1; 1])); [assumption|discriminate].
Qed.
Print Assumptions C43_default_range_refuted.

Example C43_nonvacuous :
  forall r, resolves_range (both (nth 0 [Some (0, 4); None; None] None)) [3 # 2; 2] r ->
       good_range demo_spacing r 4 /\ Forall (wholly_inside 2 r 4) [3 # 2; 2].
Proof.
  intros [a b] [A B]. cbn in A, B. subst. split; [exact demo_range_ok|].
  repeat (constructor; [split; [split; cbn; discriminate|discriminate]|]). constructor.
Qed.

(** ** C68 *)
Theorem C68_equal_values_widened_partial :
  forall ub spacing data v n ws sh, 0 < spacing v -> spacing (v + spacing v) <= 2 * spacing v ->
    histogram ub spacing data (v, v) n ws sh
    = histogram ub spacing data (v - spacing v, v + spacing v) n ws sh.
Proof. exact hist_degenerate. Qed.
Print Assumptions C68_equal_values_widened_partial.

(** numpy's spacing is negative for negative numbers, so nothing is widened there. *)
Theorem C68_equal_negative_values_refuted :
  forall ub spacing data v n ws sh, spacing v <= 0 -> (0 <= n)%Z ->
    histogram ub spacing data (v, v) n ws sh = Err ZeroDivisionError.
Proof. exact hist_degenerate_neg. Qed.
Print Assumptions C68_equal_negative_values_refuted.

Example C68_nonvacuous :
  0 < demo_spacing (3 # 2) /\ demo_spacing ((3 # 2) + demo_spacing (3 # 2)) <= 2 * demo_spacing (3 # 2)
  /\ demo_spacing (- (3 # 2)) <= 0
  /\ cells (histogram x86 demo_spacing [3 # 2; 3 # 2] (3 # 2, 3 # 2) 2 None (ShInt 0)) 2 = [0; 2].
Proof. split; [reflexivity|]. split; [discriminate|]. split; [discriminate|]. vm_compute. reflexivity. Qed.

(** ** C69 *)
Theorem C69_empty_3d_partial :
  forall ub spacing w r0 r1 r2 n m k sh, (3 <= n)%Z -> (0 <= m)%Z -> (0 <= k)%Z ->
    exists h e0 e1 e2,
    create_hist ub spacing [[]; []; []] w [r0; r1; r2] (BSeq [n; m; k]) sh = Ok (h, [e0; e1; e2])
    /\ a_shape h = [n; m; k] /\ (forall idx, a_at h idx = 0)
    /\ length e0 = Z.to_nat (n + 1) /\ length e1 = Z.to_nat (m + 1) /\ length e2 = Z.to_nat (k + 1).
Proof. exact empty_hist_3d. Qed.
Print Assumptions C69_empty_3d_partial.

Theorem C69_empty_1d_refuted :
  forall ub spacing w ranges n sh, length ranges = 3%nat -> (2 <= n)%Z ->
    create_hist ub spacing [[]] w ranges (BSeq [n]) sh = Err IndexError.
Proof. exact empty_hist_1d. Qed.
Print Assumptions C69_empty_1d_refuted.

Theorem C69_empty_2d_refuted :
  forall ub spacing w ranges n m sh, length ranges = 3%nat -> (3 <= n)%Z -> (0 <= m)%Z ->
    create_hist ub spacing [[]; []] w ranges (BSeq [n; m]) sh = Err IndexError.
Proof. exact empty_hist_2d. Qed.
Print Assumptions C69_empty_2d_refuted.

Theorem C69_empty_int_bins_refuted :
  create_hist x86 demo_spacing [[]] [] [Some (0, 1); None; None] (BInt 10) None = Err TypeError.
Proof. vm_compute. reflexivity. Qed.
Print Assumptions C69_empty_int_bins_refuted.
