(** The statements about map_coordinates: values, grid points, scaled grids, refused calls. *)
From Coq Require Import Reals String Lra Lia ZArith List Bool.
From Verif Require Import PyBase PyBaseFacts NumpyModel NumpyFacts NdModel NdFacts CplxModel CplxFacts FieldModel FieldGridFacts FftModel FftSpec FftAxes FftFacts FftShift UnstagModel RealModel RealFacts MapModel MapSpec MapFacts MapLaws.
Import ListNotations.
Local Open Scope R_scope.

Lemma functions_len (axes : list raxis) T nd : (match T with Some T => (nd <= length T)%nat | None => length axes = nd end) -> (nd <= length (functions T (length axes)))%nat.
Proof. destruct T; cbn; [easy|]. intros <-. now rewrite map_length, seq_length. Qed.
Lemma map_values interp unwrap nonlin f nd U axes T mode preserve jac jdet : uniform_field f nd U -> same_shapes unwrap -> accepted f mode -> new_axes_ok axes ->
  (match T with Some T => (nd <= length T)%nat | None => length axes = nd end) ->
  (preserve = true -> length axes = nd /\ (T <> None -> jdet <> None)) ->
  exists g, map_coordinates interp unwrap nonlin f axes T mode preserve jac jdet = Ok g /\ labelled f g axes /\
    forall idx x, at_point axes idx x -> a_at (rf_data (sf_field g)) idx =
      Cmul (value_at interp unwrap f mode (map (fun a => pixel (U a) (nth a (functions T (length axes)) (fun _ => 0) x)) (seq 0 nd))) (RtoC (if preserve then weight T jdet x else 1)).
Proof.
  intros Uf Su Ac [Na Ga] Lf Pr.
  destruct (map_coordinates_ok interp unwrap nonlin f nd U axes T mode preserve jac jdet (fun idx => weight T jdet (coords axes idx)) Uf Su Ac Na Ga (functions_len _ _ _ Lf)) as (g & b & E & Er & Ea & Es & Et & Db & Eo & H).
  - intro P. destruct (Pr P) as [L K]. split; [exact L|]. destruct T as [T|]; [|reflexivity]. cbn. destruct jdet; [reflexivity|]. now elim K.
  - exists g. split; [exact E|]. split; [repeat split; try assumption; now exists b|]. intros idx x A. rewrite H. now rewrite (coords_at _ _ _ A).
Qed.
Lemma map_points interp unwrap nonlin f nd U axes T mode preserve jac jdet : uniform_field f nd U -> through_points interp -> whole_turns unwrap -> real_data f -> accepted f mode -> new_axes_ok axes ->
  (match T with Some T => (nd <= length T)%nat | None => length axes = nd end) ->
  (preserve = true -> length axes = nd /\ (T <> None -> jdet <> None)) ->
  exists g, map_coordinates interp unwrap nonlin f axes T mode preserve jac jdet = Ok g /\ labelled f g axes /\
    forall idx x j, at_point axes idx x -> in_shape (a_shape (rf_data (sf_field f))) j = true ->
      (forall a, (a < nd)%nat -> nth a (functions T (length axes)) (fun _ => 0) x = point (U a) (nth a j 0%Z)) ->
      a_at (rf_data (sf_field g)) idx = Cmul (a_at (rf_data (sf_field f)) j) (RtoC (if preserve then weight T jdet x else 1)).
Proof.
  intros Uf Tp Wt Rd Ac Na Lf Pr. destruct (map_values interp unwrap nonlin f nd U axes T mode preserve jac jdet Uf (whole_same _ Wt) Ac Na Lf Pr) as (g & E & Lb & H).
  exists g. split; [exact E|]. split; [exact Lb|]. intros idx x j A I Hj. rewrite (H _ _ A). f_equal.
  assert (Lj : length j = nd) by (rewrite (in_shape_length _ _ I); exact (proj1 (proj2 Uf))).
  replace (map (fun a => pixel (U a) (nth a (functions T (length axes)) (fun _ => 0) x)) (seq 0 nd)) with (map IZR j); [now apply value_at_point|].
  apply nth_error_ext. intro k. rewrite !nth_error_map. destruct (Nat.lt_ge_cases k nd) as [L|L].
  - rewrite nth_error_seq_lt by exact L. rewrite (nth_error_nth' j 0%Z) by lia. cbn. rewrite Hj by exact L. rewrite pixel_point; [reflexivity|]. destruct (uf_shape f nd U Uf k L) as (_ & _ & P). lra.
  - replace (nth_error j k) with (@None Z) by (symmetry; apply nth_error_None; lia). replace (nth_error (seq 0 nd) k) with (@None nat) by (symmetry; apply nth_error_None; rewrite seq_length; lia). reflexivity.
Qed.
Lemma map_outside interp unwrap nonlin f nd U axes T mode preserve jac jdet : uniform_field f nd U -> zero_outside interp -> same_shapes unwrap -> accepted f mode -> new_axes_ok axes ->
  (match T with Some T => (nd <= length T)%nat | None => length axes = nd end) ->
  (preserve = true -> length axes = nd /\ (T <> None -> jdet <> None)) ->
  exists g, map_coordinates interp unwrap nonlin f axes T mode preserve jac jdet = Ok g /\
    forall idx x a, at_point axes idx x -> (a < nd)%nat ->
      (let y := nth a (functions T (length axes)) (fun _ => 0) x in y < u_x0 (U a) \/ point (U a) (Z.of_nat (u_n (U a)) - 1) < y) -> a_at (rf_data (sf_field g)) idx = C0.
Proof.
  intros Uf Zo Su Ac Na Lf Pr. destruct (map_values interp unwrap nonlin f nd U axes T mode preserve jac jdet Uf Su Ac Na Lf Pr) as (g & E & Lb & H).
  exists g. split; [exact E|]. intros idx x a A L O. rewrite (H _ _ A). rewrite value_at_outside; [unfold Cmul, C0, RtoC; cbn; f_equal; ring|exact Zo|].
  destruct (uf_shape f nd U Uf a L) as (Es & Hn & Hd). exists a, (pixel (U a) (nth a (functions T (length axes)) (fun _ => 0) x)), (Z.of_nat (u_n (U a))).
  split; [rewrite nth_error_map, nth_error_seq_lt by exact L; reflexivity|]. split; [exact Es|]. unfold pixel.
  set (y := nth a (functions T (length axes)) (fun _ => 0) x) in *. cbv zeta in O. destruct O as [O|O]; [left|right].
  - apply Rmult_lt_reg_r with (u_dx (U a)); [exact Hd|]. unfold Rdiv. rewrite Rmult_assoc, Rinv_l by lra. lra.
  - apply Rmult_lt_reg_r with (u_dx (U a)); [exact Hd|]. unfold Rdiv. rewrite Rmult_assoc, Rinv_l by lra. unfold point in O. lra.
Qed.
Lemma own_shape f nd U : uniform_field f nd U -> axes_shape (rf_axes (sf_field f)) = a_shape (rf_data (sf_field f)).
Proof.
  intro Uf. apply nth_error_ext. intro k. unfold axes_shape. rewrite nth_error_map. destruct (nth_error (rf_axes (sf_field f)) k) as [ax|] eqn:E.
  - assert (L : (k < nd)%nat) by (rewrite <- (uf_axes f nd U Uf); apply nth_error_Some; congruence). destruct (uf_shape f nd U Uf k L) as [-> _]. destruct (uf_axis f nd U Uf k ax E) as (Eg & _). cbn. now rewrite Eg, grid_length.
  - apply nth_error_None in E. rewrite (uf_axes f nd U Uf) in E. cbn. symmetry. apply nth_error_None. destruct Uf as (_ & En & _). unfold ndim in En. lia.
Qed.
Lemma point_of axes V idx x a : grids axes V -> at_point axes idx x -> (a < length axes)%nat -> nth a x 0 = point (V a) (nth a idx 0%Z).
Proof.
  intros G (Lx & Li & H) L. destruct (nth_error axes a) as [ax|] eqn:E; [|apply nth_error_None in E; lia]. destruct (H a ax E) as (i & Ei & P & Eg). destruct (G a ax E) as [Gr _].
  rewrite (nth_error_nth _ _ _ Ei). rewrite (nth_error_nth' x 0) in Eg by lia. assert (Z.to_nat i < length (ra_grid ax))%nat by (apply nth_error_Some; congruence). rewrite Gr in Eg, H0. rewrite grid_length in H0.
  rewrite (nth_error_nth' _ 0) in Eg by (rewrite grid_length; exact H0). rewrite grid_at in Eg by exact H0. injection Eg as <-. now rewrite Z2Nat.id.
Qed.
Lemma own_axes interp unwrap nonlin f nd U mode preserve jac jdet : uniform_field f nd U -> through_points interp -> whole_turns unwrap -> real_data f -> accepted f mode ->
  exists g, map_coordinates interp unwrap nonlin f (rf_axes (sf_field f)) None mode preserve jac jdet = Ok g /\ labelled f g (rf_axes (sf_field f)) /\
    a_shape (rf_data (sf_field g)) = a_shape (rf_data (sf_field f)) /\
    forall idx, in_shape (a_shape (rf_data (sf_field f))) idx = true -> a_at (rf_data (sf_field g)) idx = a_at (rf_data (sf_field f)) idx.
Proof.
  intros Uf Tp Wt Rd Ac. assert (Gr : grids (rf_axes (sf_field f)) U) by (intros a ax E; destruct (uf_axis f nd U Uf a ax E) as (? & _ & ?); now split).
  assert (Na : new_axes_ok (rf_axes (sf_field f))).
  { split; [intro K; pose proof (uf_axes f nd U Uf) as L; rewrite K in L; destruct Uf as (_ & _ & P & _); cbn in L; lia|]. apply Forall_forall. intros ax I K. apply In_nth_error in I. destruct I as [a E].
    destruct (Gr a ax E) as (Eg & P & _). rewrite K in Eg. apply (f_equal (@length R)) in Eg. rewrite grid_length in Eg. cbn in Eg. lia. }
  destruct (map_points interp unwrap nonlin f nd U (rf_axes (sf_field f)) None mode preserve jac jdet Uf Tp Wt Rd Ac Na (uf_axes f nd U Uf)) as (g & E & Lb & H).
  - intros _. split; [exact (uf_axes f nd U Uf)|]. intro K. now elim K.
  - exists g. split; [exact E|]. split; [exact Lb|]. split; [destruct Lb as (_ & _ & Sp & _); rewrite <- (own_shape f nd U Uf); exact Sp|]. intros idx I.
    rewrite <- (own_shape f nd U Uf) in I. assert (A := coords_point _ _ I). rewrite (own_shape f nd U Uf) in I.
    rewrite (H idx _ idx A I).
    + destruct preserve; cbn; unfold Cmul, RtoC; cbn; destruct (a_at (rf_data (sf_field f)) idx); cbn; f_equal; ring.
    + intros a L. unfold functions. rewrite (uf_axes f nd U Uf). rewrite (nth_indep _ _ ((fun a x => nth a x 0) 0%nat)) by (rewrite map_length, seq_length; exact L).
      rewrite (map_nth (fun (a : nat) (x : list R) => nth a x 0)). rewrite seq_nth by exact L. cbn [Nat.add]. apply (point_of (rf_axes (sf_field f))); [exact Gr|exact A|rewrite (uf_axes f nd U Uf); exact L].
Qed.

(** * scaled grids *)
Lemma grid_ordered u : proper u -> ordered (grid_of u).
Proof.
  intros [_ Hd]. left. intros i j H. rewrite grid_length in H. rewrite !grid_at by lia. unfold point. apply Rplus_lt_compat_l. apply Rmult_lt_compat_r; [exact Hd|]. apply IZR_lt. lia.
Qed.
Lemma grids_wide axes V : grids axes V -> Forall (fun ax => (2 <= length (ra_grid ax))%nat /\ ordered (ra_grid ax)) axes.
Proof. intro G. apply Forall_forall. intros ax I. apply In_nth_error in I. destruct I as [a E]. destruct (G a ax E) as [-> P]. split; [rewrite grid_length; exact (proj1 P)|now apply grid_ordered]. Qed.
(** the diagonal matrix *)
Definition diag_row (n a : nat) (s : R) : list R := map (fun b => if Nat.eqb a b then s else 0) (seq 0 n).
Definition diag (n : nat) (s : nat -> R) : list (list R) := map (fun a => diag_row n a (s a)) (seq 0 n).
Lemma det_diag : forall n s, det n (diag n s) = fold_right Rmult 1 (map s (seq 0 n)).
Proof.
  induction n as [|n IH]; intro s; [reflexivity|]. unfold diag. rewrite <- cons_seq. cbn [map fold_right]. rewrite <- seq_shift, !map_map.
  cbn [det]. rewrite <- cons_seq at 1. cbn [map hd tl fold_right Nat.even].
  assert (Z : forall l, (forall j, In j l -> (0 < j)%nat) -> fold_right Rplus 0 (map (fun j => (if Nat.even j then 1 else -1) * nth j (diag_row (S n) 0 (s 0%nat)) 0 * det n (map (drop_nth j) (map (fun x => diag_row (S n) (S x) (s (S x))) (seq 0 n)))) l) = 0).
  { induction l as [|j l IHl]; intro H; [reflexivity|]. cbn [map fold_right]. rewrite IHl by (intros; apply H; now right). specialize (H j (or_introl eq_refl)).
    assert (K : nth j (diag_row (S n) 0 (s 0%nat)) 0 = 0).
    { unfold diag_row. destruct (Nat.lt_ge_cases j (S n)) as [L|L]; [|apply nth_overflow; rewrite map_length, seq_length; lia].
      rewrite (nth_indep _ _ ((fun b => if Nat.eqb 0 b then s 0%nat else 0) 0%nat)) by (rewrite map_length, seq_length; exact L). rewrite (map_nth (fun b => if Nat.eqb 0 b then s 0%nat else 0)). rewrite seq_nth by exact L. destruct j; [lia|reflexivity]. }
    rewrite K. ring. }
  rewrite Z by (intros j I; apply in_seq in I; lia).
  replace (nth 0 (diag_row (S n) 0 (s 0%nat)) 0) with (s 0%nat) by reflexivity.
  replace (map (drop_nth 0) (map (fun x => diag_row (S n) (S x) (s (S x))) (seq 0 n))) with (diag n (fun a => s (S a))).
  - rewrite IH. ring.
  - unfold diag. rewrite map_map. apply map_ext. intro a. unfold drop_nth, diag_row. rewrite <- cons_seq, <- seq_shift. cbn [map firstn skipn app]. now rewrite map_map.
Qed.
Lemma dot_diag a s : forall n k x, length x = n -> dot (map (fun b => if Nat.eqb a b then s else 0) (seq k n)) x = if (k <=? a)%nat then s * nth (a - k) x 0 else 0.
Proof.
  unfold dot. induction n as [|n IH]; intros k [|y x] L; try discriminate.
  - cbn. destruct (Nat.leb_spec k a); [|reflexivity]. destruct (a - k)%nat; ring.
  - cbn [seq map map2 fold_right]. rewrite IH by (cbn in L; lia). destruct (Nat.eqb_spec a k) as [->|N].
    + rewrite Nat.leb_refl, Nat.sub_diag. destruct (Nat.leb_spec (S k) k); [lia|]. cbn. ring.
    + destruct (Nat.leb_spec (S k) a), (Nat.leb_spec k a); try lia; [|ring]. replace (a - k)%nat with (S (a - S k)) by lia. cbn. ring.
Qed.
Lemma scaled_map interp unwrap nonlin f nd U V axes mode (s t : nat -> R) : uniform_field f nd U -> through_points interp -> whole_turns unwrap -> real_data f -> accepted f mode ->
  length axes = nd -> grids axes V -> (forall a, (a < nd)%nat -> u_n (V a) = u_n (U a) /\ t a + s a * u_x0 (V a) = u_x0 (U a) /\ s a * u_dx (V a) = u_dx (U a)) ->
  exists g, map_coordinates interp unwrap nonlin f axes (Some (map (fun a x => t a + s a * nth a x 0) (seq 0 nd))) mode true None None = Ok g /\ labelled f g axes /\
    a_shape (rf_data (sf_field g)) = a_shape (rf_data (sf_field f)) /\ integral fst g V = integral fst f U /\ integral snd g V = integral snd f U /\
    forall idx, in_shape (a_shape (rf_data (sf_field f))) idx = true -> a_at (rf_data (sf_field g)) idx = Cmul (a_at (rf_data (sf_field f)) idx) (RtoC (fold_right Rmult 1 (map s (seq 0 nd)))).
Proof.
  intros Uf Tp Wt Rd Ac La Gr Hv. set (T := map (fun a x => t a + s a * nth a x 0) (seq 0 nd)).
  assert (Pn : (0 < nd)%nat) by (destruct Uf as (_ & _ & ? & _); assumption).
  assert (Na : axes <> []) by (intros ->; cbn in La; lia).
  assert (Ga : Forall (fun ax => ra_grid ax <> []) axes).
  { eapply Forall_impl; [|exact (grids_wide _ _ Gr)]. cbn. intros ax [L _] K. rewrite K in L. cbn in L. lia. }
  assert (Af : affine_map (length axes) T (diag nd s) (map t (seq 0 nd))).
  { rewrite La. split; [unfold T; now rewrite map_length, seq_length|]. split; [unfold diag; now rewrite map_length, seq_length|]. split; [now rewrite map_length, seq_length|].
    intros a t' row c0 Et Er Ec. unfold T in Et. unfold diag in Er. rewrite nth_error_map in Et, Er, Ec. destruct (nth_error (seq 0 nd) a) as [b|] eqn:Eb; [|discriminate].
    assert (L : (a < nd)%nat) by (rewrite <- (seq_length nd 0); apply nth_error_Some; congruence). rewrite nth_error_seq_lt in Eb by exact L. injection Eb as <-. cbn in *. injection Et as <-. injection Er as <-. injection Ec as <-.
    split; [unfold diag_row; now rewrite map_length, seq_length|]. intros x Lx. unfold diag_row. rewrite dot_diag by exact Lx. cbn [Nat.leb]. now rewrite Nat.sub_0_r. }
  destruct (factor_affine axes T _ _ Na (grids_wide _ _ Gr) Af) as (w & Ew & Hw). rewrite La, det_diag in Hw.
  assert (Sp : forall a, In a (seq 0 nd) -> 0 < s a).
  { intros a I. apply in_seq in I. destruct (Hv a ltac:(lia)) as (_ & _ & E). destruct (uf_shape f nd U Uf a ltac:(lia)) as (_ & _ & Hd).
    destruct (nth_error axes a) as [ax|] eqn:Ea; [|apply nth_error_None in Ea; lia]. destruct (Gr a ax Ea) as (_ & _ & Hdv).
    destruct (Rlt_le_dec 0 (s a)) as [L|L]; [exact L|]. assert (s a * u_dx (V a) <= 0 * u_dx (V a)) by (apply Rmult_le_compat_r; lra). lra. }
  rewrite (Rabs_right (fold_right Rmult 1 (map s (seq 0 nd)))) in Hw by (left; now apply fold_pos).
  destruct (map_coordinates_ok interp unwrap nonlin f nd U axes (Some T) mode true None None w Uf (whole_same _ Wt) Ac Na Ga) as (g & b & E & Er & Ea & Es & Et & Db & Eo & H).
  { cbn. unfold T. now rewrite map_length, seq_length. } { intros _. now split. }
  assert (Sh : axes_shape axes = a_shape (rf_data (sf_field f))).
  { apply nth_error_ext. intro k. unfold axes_shape. rewrite nth_error_map. destruct (nth_error axes k) as [ax|] eqn:Ek.
    - assert (L : (k < nd)%nat) by (rewrite <- La; apply nth_error_Some; congruence). destruct (uf_shape f nd U Uf k L) as [-> _]. destruct (Gr k ax Ek) as (Eg & _). destruct (Hv k L) as (En & _). cbn. rewrite Eg, grid_length. now rewrite En.
    - apply nth_error_None in Ek. cbn. symmetry. apply nth_error_None. destruct Uf as (_ & En & _). unfold ndim in En. lia. }
  assert (Pt : forall idx, in_shape (a_shape (rf_data (sf_field f))) idx = true -> a_at (rf_data (sf_field g)) idx = Cmul (a_at (rf_data (sf_field f)) idx) (RtoC (fold_right Rmult 1 (map s (seq 0 nd))))).
  { intros idx I. assert (I' := I). rewrite <- Sh in I'. rewrite H, (Hw idx I'). f_equal. assert (A := coords_point _ _ I').
    assert (Li : length idx = nd) by (rewrite (in_shape_length _ _ I); exact (proj1 (proj2 Uf))).
    rewrite <- (value_at_point interp unwrap f mode idx Tp Wt Rd I). f_equal. apply nth_error_ext. intro k. rewrite !nth_error_map. destruct (Nat.lt_ge_cases k nd) as [L|L].
    - rewrite nth_error_seq_lt by exact L. rewrite (nth_error_nth' idx 0%Z) by lia. cbn [option_map]. f_equal.
      assert (K : nth k (functions (Some T) (length axes)) (fun _ => 0) (coords axes idx) = t k + s k * nth k (coords axes idx) 0).
      { cbn [functions]. unfold T, coord_fun. rewrite (nth_indep _ _ ((fun a x => t a + s a * nth a x 0) 0%nat)) by (rewrite map_length, seq_length; exact L). rewrite (map_nth (fun a x => t a + s a * nth a x 0)). now rewrite seq_nth by exact L. }
      cbn [Nat.add]. rewrite K. rewrite (point_of axes V idx _ k Gr A) by lia. destruct (Hv k L) as (_ & E0 & E1). destruct (uf_shape f nd U Uf k L) as (_ & _ & P). unfold pixel, point.
      assert (s k <> 0 /\ u_dx (V k) <> 0) by (split; intro Z; rewrite Z in E1; lra). rewrite <- E0, <- E1. field. tauto.
    - replace (nth_error idx k) with (@None Z) by (symmetry; apply nth_error_None; lia). replace (nth_error (seq 0 nd) k) with (@None nat) by (symmetry; apply nth_error_None; rewrite seq_length; lia). reflexivity. }
  assert (Sg : a_shape (rf_data (sf_field g)) = a_shape (rf_data (sf_field f))) by (rewrite <- Sh; exact Es).
  assert (In : forall h, (h = fst \/ h = snd) -> integral h g V = integral h f U).
  { intros h Hh. unfold integral. rewrite Sg. assert (Ls : length (a_shape (rf_data (sf_field f))) = nd) by exact (proj1 (proj2 Uf)). rewrite Ls.
    rewrite (total_ext _ _ (fun idx => fold_right Rmult 1 (map s (seq 0 nd)) * h (a_at (rf_data (sf_field f)) idx))).
    2: { intros idx I. rewrite (Pt idx I). destruct Hh as [-> | ->]; unfold Cmul, RtoC; cbn; ring. }
    rewrite total_scale. unfold volume.
    replace (fold_right Rmult 1 (map (fun a => u_dx (U a)) (seq 0 nd))) with (fold_right Rmult 1 (map s (seq 0 nd)) * fold_right Rmult 1 (map (fun a => u_dx (V a)) (seq 0 nd))); [ring|].
    rewrite fold_Rmult. f_equal. apply map_ext_in. intros a I. apply in_seq in I. now destruct (Hv a ltac:(lia)) as (_ & _ & E1). }
  exists g. split; [exact E|]. split; [repeat split; try assumption; now exists b|]. split; [exact Sg|]. split; [apply In; now left|]. split; [apply In; now right|]. exact Pt.
Qed.
(** two dimensions: any linear map *)
Lemma plane_map interp unwrap nonlin f U axes V mode a b c d t0 t1 : uniform_field f 2 U -> same_shapes unwrap -> accepted f mode -> length axes = 2%nat -> grids axes V ->
  exists g, map_coordinates interp unwrap nonlin f axes (Some [fun x => t0 + (a * nth 0 x 0 + b * nth 1 x 0); fun x => t1 + (c * nth 0 x 0 + d * nth 1 x 0)]) mode true None None = Ok g /\ labelled f g axes /\
    forall idx x y, in_shape (a_shape (rf_data (sf_field g))) idx = true -> at_point axes idx [x; y] -> a_at (rf_data (sf_field g)) idx =
      Cmul (value_at interp unwrap f mode [pixel (U 0%nat) (t0 + (a * x + b * y)); pixel (U 1%nat) (t1 + (c * x + d * y))]) (RtoC (Rabs (a * d - b * c))).
Proof.
  intros Uf Su Ac La Gr. set (T := [fun x => t0 + (a * nth 0 x 0 + b * nth 1 x 0); fun x => t1 + (c * nth 0 x 0 + d * nth 1 x 0)]).
  assert (Na : axes <> []) by (intros ->; discriminate La).
  assert (Ga : Forall (fun ax => ra_grid ax <> []) axes).
  { eapply Forall_impl; [|exact (grids_wide _ _ Gr)]. cbn. intros ax [L _] K. rewrite K in L. cbn in L. lia. }
  assert (Af : affine_map (length axes) T [[a; b]; [c; d]] [t0; t1]).
  { rewrite La. split; [reflexivity|]. split; [reflexivity|]. split; [reflexivity|]. intros k t' row c0 Et Er Ec.
    destruct k as [|[|k]]; cbn in Et, Er, Ec; [| |destruct k; discriminate]; injection Et as <-; injection Er as <-; injection Ec as <-; (split; [reflexivity|]); intros [|x [|y [|]]] Lx; try discriminate Lx; unfold dot; cbn; ring. }
  destruct (factor_affine axes T _ _ Na (grids_wide _ _ Gr) Af) as (w & Ew & Hw). rewrite La, det2 in Hw.
  destruct (map_coordinates_ok interp unwrap nonlin f 2 U axes (Some T) mode true None None w Uf Su Ac Na Ga) as (g & bb & E & Er & Ea & Es & Et & Db & Eo & H); [cbn; lia|intros _; now split|].
  exists g. split; [exact E|]. split; [repeat split; try assumption; now exists bb|]. intros idx x y I A. rewrite H. rewrite Es in I. rewrite (Hw idx I). rewrite (coords_at _ _ _ A). reflexivity.
Qed.

(** * refused calls *)
Lemma map_refused_dims interp unwrap nonlin f axes T mode jac jdet : Z.of_nat (length axes) <> dims (a_shape (rf_data (sf_field f))) ->
  map_coordinates interp unwrap nonlin f axes T mode true jac jdet = Err ValueError.
Proof. intro N. unfold map_coordinates. destruct (Z.eqb_spec (Z.of_nat (length axes)) (dims (a_shape (rf_data (sf_field f))))); [contradiction|reflexivity]. Qed.
Lemma interpolate_few interp a sh px npx : npx <> length (a_shape a) -> interpolate interp a sh px npx = Err RuntimeError.
Proof. intro N. unfold interpolate. destruct (guard _ _) as [[]|e] eqn:G; cbn [bind]; [|unfold guard in G; destruct (negb _ && negb _); congruence]. destruct (Nat.eqb_spec npx (length (a_shape a))); [contradiction|reflexivity]. Qed.
Lemma map_refused_few interp unwrap nonlin f nd U axes T mode preserve jac jdet : uniform_field f nd U -> accepted f mode -> (preserve = true -> length axes = nd) -> (length (functions T (length axes)) < nd)%nat ->
  map_coordinates interp unwrap nonlin f axes T mode preserve jac jdet = Err RuntimeError.
Proof.
  intros Uf Ac Pr L. unfold map_coordinates. fold (functions T (length axes)). rewrite (uf_dims f nd U Uf).
  assert (G0 : guard (negb preserve || (Z.of_nat (length axes) =? Z.of_nat nd)%Z) ValueError = Ok tt) by (destruct preserve; [rewrite (Pr eq_refl), Z.eqb_refl|]; reflexivity).
  rewrite G0. cbn [bind]. rewrite (uf_axes f nd U Uf). assert (N : Nat.min nd (length (functions T (length axes))) <> length (a_shape (rf_data (sf_field f)))) by (destruct Uf as (_ & En & _); unfold ndim in En; lia).
  unfold map_matrix. destruct (sf_real f) eqn:Er; [now rewrite interpolate_few|]. destruct Ac as [K|K]; [congruence|]. destruct mode; [..|congruence]; now rewrite interpolate_few.
Qed.
Lemma map_refused_mode interp unwrap nonlin f nd U axes T preserve jac jdet : uniform_field f nd U -> sf_real f = false -> (preserve = true -> length axes = nd) ->
  map_coordinates interp unwrap nonlin f axes T OtherMode preserve jac jdet = Err ValueError.
Proof.
  intros Uf Er Pr. unfold map_coordinates. rewrite (uf_dims f nd U Uf).
  assert (G0 : guard (negb preserve || (Z.of_nat (length axes) =? Z.of_nat nd)%Z) ValueError = Ok tt) by (destruct preserve; [rewrite (Pr eq_refl), Z.eqb_refl|]; reflexivity).
  rewrite G0. cbn [bind]. unfold map_matrix. now rewrite Er.
Qed.
(** the numerical Jacobian wants two points along every new axis *)
Lemma map_refused_thin interp unwrap nonlin f nd U axes T mode : uniform_field f nd U -> same_shapes unwrap -> accepted f mode -> new_axes_ok axes -> length axes = nd -> (nd <= length T)%nat ->
  (exists ax, In ax axes /\ length (ra_grid ax) = 1%nat) -> map_coordinates interp unwrap nonlin f axes (Some T) mode true None None = Err ValueError.
Proof.
  intros Uf Su Ac [Na Ga] La LT (ax & I & L1). unfold map_coordinates. rewrite (uf_dims f nd U Uf), La, Z.eqb_refl. cbn [negb orb guard bind]. rewrite (uf_axes f nd U Uf).
  assert (En : ndim (sf_field f) = nd) by exact (proj1 (proj2 Uf)). assert (Pn : (0 < nd)%nat) by (destruct Uf as (_ & _ & ? & _); assumption).
  replace (Nat.min nd (length T)) with (ndim (sf_field f)) by lia.
  match goal with |- context [map_matrix _ _ _ _ ?sh ?p _] => destruct (map_matrix_ok interp unwrap f mode sh p Su Ac) as (m & -> & _); [unfold axes_shape; rewrite map_length; lia|lia|] end.
  cbn [bind map_factor]. unfold approx_jacobian. replace (forallb (fun ax0 => (2 <=? length (ra_grid ax0))%nat) axes) with false; [reflexivity|]. symmetry. apply not_true_is_false. intro K. rewrite forallb_forall in K. specialize (K ax I). rewrite L1 in K. discriminate K.
Qed.
