(** Facts about the interpolation to other grids: positions in pixels and the values of map_coordinates. *)
From Coq Require Import Reals String Lra Lia ZArith List Bool.
From Verif Require Import PyBase PyBaseFacts NumpyModel NumpyFacts NdModel NdFacts CplxModel CplxFacts FieldModel FftModel FftSpec FftAxes FftFacts UnstagModel RealModel MapModel MapSpec.
Import ListNotations.
Local Open Scope R_scope.

Lemma node_first u : (1 <= u_n u)%nat -> hd 0 (node_of u) = u_x0 u - u_dx u / 2.
Proof. intro L. unfold node_of, point. cbn. lra. Qed.
Lemma node_last u : last (node_of u) 0 = u_x0 u + (INR (u_n u) - / 2) * u_dx u.
Proof. unfold node_of. rewrite last_seq. unfold point. cbn [Nat.add]. rewrite <- INR_IZR_INZ. lra. Qed.
Lemma vti_uniform nonlin ax u x : axis_is ax u -> rvti nonlin ax x = pixel u x.
Proof.
  intros (Eg & En & Hn & Hd). unfold rvti. rewrite (islinear_grid ax u En) by (rewrite Eg; apply grid_length). rewrite En, Eg, grid_length, node_first, node_last by lia.
  unfold pixel. assert (0 < INR (u_n u)) by (apply (lt_INR 0); lia). field. split; [lra|].
  replace (2 * u_x0 u + (2 * INR (u_n u) - 1) * u_dx u - (2 * u_x0 u - u_dx u)) with (2 * (INR (u_n u) * u_dx u)) by ring.
  intro K. assert (0 < INR (u_n u) * u_dx u) by (apply Rmult_lt_0_compat; lra). lra.
Qed.
Lemma nth_error_map2 {A B D} (op : A -> B -> D) : forall l m k, nth_error (map2 op l m) k = match nth_error l k, nth_error m k with Some x, Some y => Some (op x y) | _, _ => None end.
Proof. induction l as [|x l IH]; intros [|y m] [|k]; cbn; try reflexivity; [destruct (nth_error l k); reflexivity|apply IH]. Qed.
Lemma coords_at axes idx x : at_point axes idx x -> coords axes idx = x.
Proof.
  intros (Lx & Li & H). apply nth_error_ext. intro k. unfold coords. rewrite nth_error_map2. destruct (nth_error axes k) as [ax|] eqn:Ea.
  - destruct (H _ _ Ea) as (i & Ei & Pi & Eg). rewrite Ei. destruct (nth_error x k) as [y|] eqn:Ex.
    + f_equal. now apply nth_error_nth.
    + apply nth_error_None in Ex. assert (k < length axes)%nat by (apply nth_error_Some; congruence). lia.
  - symmetry. apply nth_error_None. apply nth_error_None in Ea. lia.
Qed.
Lemma coords_point axes idx : in_shape (axes_shape axes) idx = true -> at_point axes idx (coords axes idx).
Proof.
  intro I. assert (L : length idx = length axes) by (rewrite (in_shape_length _ _ I); apply map_length).
  split; [unfold coords; rewrite map2_length; lia|]. split; [exact L|]. intros a ax Ea. assert (a < length axes)%nat by (apply nth_error_Some; congruence).
  destruct (nth_error idx a) as [i|] eqn:Ei; [|apply nth_error_None in Ei; lia]. apply in_shape_spec in I.
  destruct (Forall2_nth_error_r _ _ _ _ _ I Ei) as (n & En & Hn). unfold axes_shape in En. rewrite nth_error_map, Ea in En. injection En as <-.
  exists i. split; [reflexivity|]. split; [lia|]. unfold coords. rewrite nth_error_map2, Ea, Ei. apply nth_error_nth'. lia.
Qed.

Section Field.
  Variables (f : sfield) (nd : nat) (U : nat -> uni).
  Hypothesis Uf : uniform_field f nd U.
  Lemma uf_axes : length (rf_axes (sf_field f)) = nd.
  Proof. destruct Uf as (C & E & _). rewrite (c_axes _ C). exact E. Qed.
  Lemma uf_axis a ax : nth_error (rf_axes (sf_field f)) a = Some ax -> axis_is ax (U a).
  Proof.
    intro E. assert (a < nd)%nat by (rewrite <- uf_axes; apply nth_error_Some; congruence). destruct Uf as (C & _ & _ & G).
    destruct (G a) as (ax' & Ea & I & _); [apply in_seq; lia|]. congruence.
  Qed.
  Lemma uf_shape a : (a < nd)%nat -> nth_error (a_shape (rf_data (sf_field f))) a = Some (Z.of_nat (u_n (U a))) /\ proper (U a).
  Proof. intro L. destruct Uf as (_ & _ & _ & G). destruct (G a) as (ax & _ & (_ & _ & P) & E); [apply in_seq; lia|]. now split. Qed.
  Lemma uf_dims : dims (a_shape (rf_data (sf_field f))) = Z.of_nat nd.
  Proof.
    unfold dims. destruct Uf as (_ & E & _ & _). unfold ndim in E. rewrite E. destruct (Z.eqb_spec (zprod (a_shape (rf_data (sf_field f)))) 0) as [K|]; [|reflexivity].
    exfalso. apply Z.eqb_eq in K. apply zprod_zero in K. apply In_nth_error in K. destruct K as [a K]. assert (a < nd)%nat by (rewrite <- E; apply nth_error_Some; congruence).
    destruct (uf_shape a H) as [S P]. rewrite S in K. injection K as K. destruct P. lia.
  Qed.
  Lemma uf_pixels nonlin (fs : list coord_fun) x : (nd <= length fs)%nat ->
    map2 (fun ax t => rvti nonlin ax (t x)) (rf_axes (sf_field f)) fs = map (fun a => pixel (U a) (nth a fs (fun _ => 0) x)) (seq 0 nd).
  Proof.
    intro L. apply nth_error_ext. intro k. rewrite nth_error_map2, nth_error_map. destruct (nth_error (rf_axes (sf_field f)) k) as [ax|] eqn:Ea.
    - assert (k < nd)%nat by (rewrite <- uf_axes; apply nth_error_Some; congruence). rewrite nth_error_seq_lt by lia. cbn. rewrite (nth_error_nth' fs (fun _ => 0)) by lia.
      now rewrite (vti_uniform nonlin ax (U k)) by (now apply uf_axis).
    - apply nth_error_None in Ea. rewrite uf_axes in Ea. destruct (nth_error (seq 0 nd) k) as [y|] eqn:E; [|reflexivity]. assert (k < nd)%nat by (rewrite <- (seq_length nd 0); apply nth_error_Some; congruence). lia.
  Qed.
  Lemma all_axes_states b l : (forall a, In a l -> (a < nd)%nat) ->
    exists r, all_axes (fun i => rmap (state_is b) (getidx (rf_ats (sf_field f)) i)) (map Z.of_nat l) = Ok r /\ (r = true <-> forall a, In a l -> nth_error (rf_ats (sf_field f)) a = Some (Some b)).
  Proof.
    assert (La : length (rf_ats (sf_field f)) = nd) by (destruct Uf as (C & E & _); rewrite (c_ats _ C); exact E).
    induction l as [|a l IH]; intro H.
    - exists true. split; [reflexivity|]. split; [intros _ a []|reflexivity].
    - destruct IH as (r & Er & Ir); [intros; apply H; now right|]. destruct (nth_error (rf_ats (sf_field f)) a) as [s|] eqn:Es; [|apply nth_error_None in Es; specialize (H a (or_introl eq_refl)); lia].
      cbn [map all_axes]. rewrite (getidx_nat _ _ _ Es). cbn [rmap bind]. destruct (state_is b s) eqn:Eb.
      + exists r. split; [exact Er|]. rewrite Ir. assert (s = Some b) by (destruct s as [c|]; [cbn in Eb; apply Bool.eqb_prop in Eb; now subst|discriminate Eb]). subst s.
        split; [intros K c [<-|I]; auto|intros K c I; apply K; now right].
      + exists false. split; [reflexivity|]. split; [discriminate|]. intro K. specialize (K a (or_introl eq_refl)). rewrite Es in K. injection K as ->. cbn in Eb. now rewrite Bool.eqb_reflx in Eb.
  Qed.
  Lemma uf_state : exists st, rstate (rf_ats (sf_field f)) (all_dims (sf_field f)) = Ok st /\ new_domain f (match st with Some b => b | None => false end).
  Proof.
    unfold all_dims, rstate, zrange. rewrite uf_dims, Nat2Z.id. destruct (all_axes_states true (seq 0 nd)) as (r & Er & Ir); [intros a I; apply in_seq in I; lia|].
    destruct (all_axes_states false (seq 0 nd)) as (r' & Er' & _); [intros a I; apply in_seq in I; lia|]. rewrite Er. cbn [bind].
    assert (La : length (rf_ats (sf_field f)) = nd) by (destruct Uf as (C & E & _); rewrite (c_ats _ C); exact E).
    assert (K : r = true <-> Forall (fun s => s = Some true) (rf_ats (sf_field f))).
    { rewrite Ir, Forall_forall. split.
      - intros H s I. apply In_nth_error in I. destruct I as [a E]. assert (a < nd)%nat by (rewrite <- La; apply nth_error_Some; congruence). rewrite H in E by (apply in_seq; lia). congruence.
      - intros H a I. apply in_seq in I. destruct (nth_error (rf_ats (sf_field f)) a) as [s|] eqn:E; [|apply nth_error_None in E; lia]. f_equal. apply H. now apply nth_error_In with a. }
    destruct r.
    - exists (Some true). split; [reflexivity|]. exact K.
    - rewrite Er'. cbn [bind]. exists (if r' then Some false else None). split; [reflexivity|]. unfold new_domain. rewrite <- K. destruct r'; reflexivity.
  Qed.
End Field.

(** * the values *)
Lemma interpolate_ok interp a sh px npx : length (a_shape a) = npx -> (0 < npx)%nat -> (0 < length sh)%nat -> interpolate interp a sh px npx = Ok (mkarr sh (fun idx => interp a (px idx))).
Proof. intros E P Q. unfold interpolate. rewrite E. destruct npx as [|n]; [lia|]. destruct (length sh) as [|m]; [lia|]. cbn [Nat.eqb negb andb guard bind]. rewrite Nat.eqb_refl. reflexivity. Qed.
Lemma map_matrix_ok interp unwrap f mode sh px : same_shapes unwrap -> accepted f mode -> (0 < length sh)%nat -> (0 < ndim (sf_field f))%nat ->
  exists m, map_matrix interp unwrap f mode sh px (ndim (sf_field f)) = Ok m /\ a_shape m = sh /\ forall idx, a_at m idx = value_at interp unwrap f mode (px idx).
Proof.
  intros Su Ac Ls Ln. unfold map_matrix, value_at. set (d := rf_data (sf_field f)). destruct (sf_real f) eqn:Er.
  - rewrite interpolate_ok by (try lia; reflexivity). eexists. split; [reflexivity|]. split; reflexivity.
  - destruct Ac as [K|K]; [congruence|]. destruct mode; [| | |congruence].
    + rewrite !interpolate_ok by (try lia; reflexivity). eexists. split; [reflexivity|]. split; reflexivity.
    + destruct unwrap as [u|]; rewrite !interpolate_ok by (try lia; try reflexivity; try (rewrite (Su u eq_refl); reflexivity)); eexists; (split; [reflexivity|]); split; reflexivity.
    + rewrite !interpolate_ok by (try lia; reflexivity). eexists. split; [reflexivity|]. split; reflexivity.
Qed.
Lemma dims_new (axes : list raxis) : Forall (fun ax => ra_grid ax <> []) axes -> dims (axes_shape axes) = Z.of_nat (length axes).
Proof.
  intro F. unfold dims. destruct (Z.eqb_spec (zprod (axes_shape axes)) 0) as [K|]; [|unfold axes_shape; now rewrite map_length].
  apply Z.eqb_eq in K. apply zprod_zero in K. unfold axes_shape in K. apply in_map_iff in K. destruct K as (ax & E & I). rewrite Forall_forall in F. specialize (F _ I). destruct (ra_grid ax); [now elim F|cbn in E; lia].
Qed.
Lemma map_coordinates_ok interp unwrap nonlin f nd U axes T mode preserve jac jdet w : uniform_field f nd U -> same_shapes unwrap -> accepted f mode ->
  axes <> [] -> Forall (fun ax => ra_grid ax <> []) axes -> (nd <= length (functions T (length axes)))%nat ->
  (preserve = true -> length axes = nd /\ map_factor axes T jac jdet = Ok w) ->
  exists g b, map_coordinates interp unwrap nonlin f axes T mode preserve jac jdet = Ok g /\ sf_real g = sf_real f /\ rf_axes (sf_field g) = axes /\ spans axes (a_shape (rf_data (sf_field g))) /\
    rf_ats (sf_field g) = repeat (Some b) (length axes) /\ new_domain f b /\ rf_tao (sf_field g) = repeat None (length axes) /\
    forall idx, a_at (rf_data (sf_field g)) idx =
      Cmul (value_at interp unwrap f mode (map (fun a => pixel (U a) (nth a (functions T (length axes)) (fun _ => 0) (coords axes idx))) (seq 0 nd))) (RtoC (if preserve then w idx else 1)).
Proof.
  intros Uf Su Ac Na Ga Lf Pr. unfold map_coordinates. rewrite (uf_dims f nd U Uf). fold (functions T (length axes)).
  assert (G0 : guard (negb preserve || (Z.of_nat (length axes) =? Z.of_nat nd)%Z) ValueError = Ok tt).
  { destruct preserve; [|reflexivity]. destruct (Pr eq_refl) as [-> _]. now rewrite Z.eqb_refl. }
  rewrite G0. cbn [bind]. assert (Pn : ndim (sf_field f) = nd /\ (0 < nd)%nat) by (destruct Uf as (_ & ? & ? & _); now split). destruct Pn as [En Pn].
  rewrite (uf_axes f nd U Uf). replace (Nat.min nd (length (functions T (length axes)))) with (ndim (sf_field f)) by lia.
  set (px := fun idx : list Z => map2 _ _ _).
  destruct (map_matrix_ok interp unwrap f mode (axes_shape axes) px Su Ac) as (m & Em & Sm & Am); [unfold axes_shape; rewrite map_length; destruct axes; [now elim Na|cbn; lia]|lia|].
  rewrite Em. cbn [bind].
  assert (Q : exists m', (if preserve then let! w0 := map_factor axes T jac jdet in Ok (mkarr (axes_shape axes) (fun idx => Cmul (a_at m idx) (RtoC (w0 idx)))) else Ok m) = Ok m' /\
                a_shape m' = axes_shape axes /\ forall idx, a_at m' idx = Cmul (a_at m idx) (RtoC (if preserve then w idx else 1))).
  { destruct preserve.
    - destruct (Pr eq_refl) as [_ ->]. cbn [bind]. eexists. split; [reflexivity|]. split; reflexivity.
    - exists m. split; [reflexivity|]. split; [exact Sm|]. intro idx. unfold Cmul, RtoC. cbn. destruct (a_at m idx) as [x y]. cbn. f_equal; ring. }
  destruct Q as (m' & -> & Sm' & Am'). cbn [bind]. destruct (uf_state f nd U Uf) as (st & -> & Dm). cbn [bind]. rewrite (dims_new axes Ga), Nat2Z.id.
  eexists. exists (match st with Some b => b | None => false end). split; [reflexivity|]. cbn [sf_real sf_field rf_axes rf_data rf_ats rf_tao].
  split; [reflexivity|]. split; [reflexivity|]. split; [exact Sm'|]. split; [reflexivity|]. split; [exact Dm|]. split; [reflexivity|].
  intro idx. rewrite Am', Am. unfold px. now rewrite (uf_pixels f nd U Uf) by exact Lf.
Qed.
