(** Lemmas about the grids of dumps, openPMD records and chooseCode. *)
From Coq Require Import QArith Qfield Lqa String Ascii List ZArith Bool Lia.
From Verif Require Import PyBase PyBaseFacts NumpyModel NumpyFacts AxisModel AxisSpec AxisFacts NdModel NdFacts FieldModel FieldGridFacts ReaderModel ReaderSpec ReaderFacts.
Import ListNotations.
Local Open Scope Z_scope.


Lemma gridnode_ok g key a o s n : regular g key a o s n -> (1 <= n)%nat ->
  exists gn, gridnode g key a = Ok gn /\ np_linspace o (o + s * inject_Z (Z.of_nat n)) (Z.of_nat n + 1) = Ok gn /\ length gn = S n /\
    forall i, (i <= n)%nat -> (nth i gn 0 == o + inject_Z (Z.of_nat i) * s)%Q.
Proof.
  intros (E1 & E2 & E3) N. unfold gridnode. rewrite E1, E2, E3. cbn [bind]. destruct (np_linspace_total o (o + s * inject_Z (Z.of_nat n)) (Z.of_nat n + 1)) as [gn E]; [lia|].
  exists gn. split; [exact E|]. split; [exact E|]. apply np_linspace_ok in E as [L V]. split; [lia|]. intros i I. rewrite V by lia. replace (Z.of_nat n + 1 - 1) with (Z.of_nat n) by lia.
  assert (Hn : (~ inject_Z (Z.of_nat n) == 0)%Q) by (apply inject_Z_nz; lia). field. exact Hn.
Qed.
Lemma grid_ok g key a o s n : regular g key a o s n -> (1 <= n)%nat ->
  exists gr, grid g key a = Ok gr /\ length gr = n /\ forall i, (i < n)%nat -> (nth i gr 0 == o + (inject_Z (Z.of_nat i) + (1 # 2)) * s)%Q.
Proof.
  intros R N. destruct (gridnode_ok _ _ _ _ _ _ R N) as (gn & E & _ & L & V). unfold grid. rewrite E. cbn [bind]. destruct gn as [|x0 [|x1 gn]]; [cbn in L; lia..|].
  cbn [convolve_valid]. eexists. split; [reflexivity|]. split; [rewrite pair_means_length; lia|]. intros i I. rewrite nth_pair_means by lia. rewrite !V by lia. rewrite inject_Z_S. unfold qhalf. ring.
Qed.
Lemma try_first {A} (f : string -> res A) pre key post x : (forall k, In k pre -> f k = Err KeyError) -> f key = Ok x -> try_keys f (pre ++ key :: post) = Ok x.
Proof. intros H E. induction pre as [|k pre IH]; cbn; [now rewrite E|]. rewrite (H k (or_introl eq_refl)). apply IH. intros; apply H; now right. Qed.
Lemma sim_ok g key a o s n : regular g key a o s n -> (1 <= n)%nat -> first_key g a key ->
  simgridpoints g a = Ok (Z.of_nat n) /\ simextent g a = Ok (o, o + s * inject_Z (Z.of_nat n))%Q /\ exists h, simgridspacing g a = Ok h /\ (h == s)%Q.
Proof.
  intros (E1 & E2 & E3) N (pre & post & K & H).
  assert (P : simgridpoints g a = Ok (Z.of_nat n)) by (unfold simgridpoints; rewrite K; apply try_first; [intros k I; now apply H|exact E3]).
  assert (X : simextent g a = Ok (o, o + s * inject_Z (Z.of_nat n))%Q).
  { unfold simextent. rewrite K. apply try_first; [intros k I; destruct (H k I) as [-> _]; reflexivity|]. rewrite E1, E2, E3. reflexivity. }
  split; [exact P|]. split; [exact X|]. unfold simgridspacing. rewrite X, P. cbn [bind fst snd]. destruct (Z.eqb_spec (Z.of_nat n) 0); [lia|]. eexists. split; [reflexivity|].
  assert (Hn : (~ inject_Z (Z.of_nat n) == 0)%Q) by (apply inject_Z_nz; lia). field. exact Hn.
Qed.

Lemma nth_Forall2 (l m : list Q) : length l = length m -> (forall i, (i < length l)%nat -> (nth i l 0 == nth i m 0)%Q) -> Forall2 Qeq l m.
Proof.
  revert m; induction l as [|x l IH]; intros [|y m] L H; try discriminate; constructor.
  - apply (H 0%nat). cbn. lia.
  - apply IH; [now injection L|]. intros i I. apply (H (S i)). cbn. lia.
Qed.
(** an axis from uniform nodes *)
Lemma mk_axis_nodes_uniform spl nm un a b n gn : reproduces_lines spl -> (1 <= n)%nat -> ~ (a == b)%Q -> np_linspace a b (Z.of_nat n + 1) = Ok gn ->
  exists ax, mk_axis spl nm un (Some gn) None None None = Ok ax /\ axis_uniform a b n ax /\ ax_name ax = nm /\ ax_unit ax = un /\ ax_node ax = gn.
Proof.
  intros Sp N Nab Hgn. destruct (mk_axis_extent_uniform spl nm un a b n Sp N) as (ax & E & U & _). assert (E' := E). unfold mk_axis in E. cbn [check_monotone bind] in E. rewrite Hgn in E. cbn [bind] in E.
  destruct (grid_from_nodes spl gn) as [gr|e] eqn:Eg; [|discriminate]. cbn [bind] in E. destruct gn as [|g0 gn'] eqn:Egn; [discriminate|]. rewrite <- Egn in *.
  destruct (negb (a ==?q g0) || negb (b ==?q last gn g0)) eqn:Ex; [discriminate|]. cbn [bind] in E. destruct (Z.of_nat n =? Z.of_nat (length gr)) eqn:El; [|discriminate]. cbn [bind] in E. injection E as <-.
  apply orb_false_elim in Ex as [X1 X2]. apply negb_false_iff in X1, X2.
  assert (Mono : negb (monotonicity gn =? 0) = true).
  { destruct (uniform_proper a b n _ N Nab U) as [[C _] | [C _]]; [apply cells_up_sincr_node in C; now apply sincr_monotone|apply cells_down_sdecr_node in C; now apply sdecr_monotone]. }
  unfold mk_axis. cbn [check_monotone]. rewrite Mono. cbn [guard bind]. rewrite Eg. cbn [bind]. rewrite Egn. rewrite <- Egn. cbn [bind]. eexists. split; [reflexivity|]. split; [|repeat split; reflexivity].
  destruct U as (U1 & U2 & U3 & U4 & U5 & U6 & U7). cbn in *. apply Qeq_bool_iff in X1, X2. repeat split; cbn; try assumption.
  - apply Z.eqb_eq in El. congruence.
  - now symmetry.
  - now symmetry.
Qed.
Lemma axisobj_ok spl g key a id o s n ov : reproduces_lines spl -> axid a = Ok id -> regular g key a o s n -> (1 <= n)%nat -> ~ (s == 0)%Q -> ov (axis_name id) = None ->
  exists ax, getaxisobj spl g key a ov None = Ok (inl ax) /\ axis_uniform o (o + s * inject_Z (Z.of_nat n)) n ax /\ ax_name ax = axis_name id /\ ax_unit ax = "m"%string /\
    (exists gn, gridnode g key a = Ok gn /\ ax_node ax = gn) /\
    (exists gr, grid g key a = Ok gr /\ Forall2 Qeq (ax_grid ax) gr).
Proof.
  intros Sp Ea R N Ns Ov. destruct (gridnode_ok _ _ _ _ _ _ R N) as (gn & E & Lin & L & V). destruct (grid_ok _ _ _ _ _ _ R N) as (gr & Eg & Lg & Vg).
  assert (Hn : (~ inject_Z (Z.of_nat n) == 0)%Q) by (apply inject_Z_nz; lia).
  assert (Nab : ~ (o == o + s * inject_Z (Z.of_nat n))%Q) by (intro H; apply Ns; assert (s * inject_Z (Z.of_nat n) == 0)%Q by lra; apply Qmult_integral in H0 as [H0|H0]; [exact H0|contradiction]).
  destruct (mk_axis_nodes_uniform spl (axis_name id) "m" _ _ n gn Sp N Nab Lin) as (ax & Ax & U & A1 & A2 & A3).
  exists ax. unfold getaxisobj. rewrite Ea. cbn [bind]. rewrite Ov, E. cbn [bind]. rewrite Ax. split; [reflexivity|]. split; [exact U|]. split; [exact A1|]. split; [exact A2|]. split; [exists gn; now split|].
  exists gr. split; [exact Eg|]. destruct U as (_ & U2 & _ & _ & _ & _ & U7). apply nth_Forall2; [congruence|]. intros i I. rewrite U7, Vg by congruence. field. exact Hn.
Qed.
Lemma set_ok spl g key a k sh axes ov : reproduces_lines spl -> (exists id, axid a = Ok id /\ id mod 90 = Z.of_nat k) -> (k < length sh)%nat -> length axes = length sh ->
  (exists o s n, regular g key a o s n /\ (1 <= n)%nat /\ ~ (s == 0)%Q /\ nth_error sh k = Some (Z.of_nat n)) -> (forall nm, ov nm = None) ->
  exists ax, (let! ax := getaxisobj spl g key a ov None in set_axis sh a ax axes) = Ok (upd axes k ax) /\ full_axis g key a sh k ax.
Proof.
  intros Sp (id & Ea & Ek) L La (o & s & n & R & N & Ns & Es) Ov. destruct (axisobj_ok spl g key a id o s n ov Sp Ea R N Ns (Ov _)) as (ax & E & U & _).
  exists (inl ax). rewrite E. cbn [bind]. unfold set_axis. rewrite Ea. cbn [bind]. rewrite Ek, (getidx_nonneg _ _ _ Es). cbn [bind]. assert (Ul := U). destruct Ul as (_ & _ & U3 & _). unfold ax_len. rewrite U3, Z.eqb_refl.
  rewrite setidx_at by lia. split; [reflexivity|]. exists ax, o, s, n. split; [exact R|]. split; [exact Es|]. split; [reflexivity|exact U].
Qed.
Lemma zprod_pos sh : (forall k n, nth_error sh k = Some n -> 1 <= n) -> 1 <= zprod sh.
Proof. induction sh as [|x sh IH]; intro H; [cbn; lia|]. cbn [zprod fold_right]. fold (zprod sh). specialize (IH (fun k n E => H (S k) n E)). specialize (H 0%nat x eq_refl). nia. Qed.
Lemma setgrid_ok spl g key x y z ov sh axes : reproduces_lines spl -> (1 <= length sh <= 3)%nat -> length axes = length sh -> (forall nm, ov nm = None) ->
  (forall k a, nth_error [x; y; z] k = Some a -> exists id, axid a = Ok id /\ id mod 90 = Z.of_nat k) ->
  (forall k a, (k < length sh)%nat -> nth_error [x; y; z] k = Some a -> exists o s n, regular g key a o s n /\ (1 <= n)%nat /\ ~ (s == 0)%Q /\ nth_error sh k = Some (Z.of_nat n)) ->
  exists axes', setgridtofield spl g key (x, y, z) ov None sh axes = Ok axes' /\ length axes' = length sh /\
    forall k a, (k < length sh)%nat -> nth_error [x; y; z] k = Some a -> exists ax, nth_error axes' k = Some ax /\ full_axis g key a sh k ax.
Proof.
  intros Sp L La Ov Id Rg.
  assert (P : 1 <= zprod sh).
  { apply zprod_pos. intros k n E. assert (Lk : (k < length sh)%nat) by (apply nth_error_Some; congruence). assert (exists a, nth_error [x; y; z] k = Some a) as (a & Ea).
    { destruct k as [|[|[|k]]]; [eexists; reflexivity..|lia]. }
    destruct (Rg k a Lk Ea) as (o & s & m & _ & M & _ & E2). rewrite E in E2. injection E2 as ->. lia. }
  assert (D : dims sh = Z.of_nat (length sh)) by (unfold dims; destruct (Z.eqb_spec (zprod sh) 0); [lia|reflexivity]).
  unfold setgridtofield. rewrite D.
  destruct (set_ok spl g key x 0 sh axes ov Sp (Id 0%nat x eq_refl) ltac:(lia) La (Rg 0%nat x ltac:(lia) eq_refl) Ov) as (ax0 & E0 & F0). rewrite E0. cbn [bind].
  assert (L0 : length (upd axes 0 ax0) = length sh) by now rewrite upd_length.
  destruct (Z.ltb_spec 1 (Z.of_nat (length sh))) as [G1|G1].
  2:{ cbn [bind]. destruct (Z.ltb_spec 2 (Z.of_nat (length sh))); [lia|]. eexists. split; [reflexivity|]. split; [exact L0|]. intros k a Lk Ek. assert (k = 0%nat) by lia. subst k. injection Ek as <-. exists ax0. split; [|exact F0].
      rewrite nth_error_upd. cbn. destruct axes; [cbn in La; lia|reflexivity]. }
  destruct (set_ok spl g key y 1 sh _ ov Sp (Id 1%nat y eq_refl) ltac:(lia) L0 (Rg 1%nat y ltac:(lia) eq_refl) Ov) as (ax1 & E1 & F1). rewrite E1. cbn [bind].
  assert (L1 : length (upd (upd axes 0 ax0) 1 ax1) = length sh) by now rewrite upd_length.
  destruct (Z.ltb_spec 2 (Z.of_nat (length sh))) as [G2|G2].
  - destruct (set_ok spl g key z 2 sh _ ov Sp (Id 2%nat z eq_refl) ltac:(lia) L1 (Rg 2%nat z ltac:(lia) eq_refl) Ov) as (ax2 & E2 & F2). rewrite E2. eexists. split; [reflexivity|]. split; [now rewrite upd_length|].
    intros k a Lk Ek. destruct axes as [|u0 [|u1 [|u2 axes]]]; cbn in La; try lia. destruct k as [|[|[|k]]]; cbn in Ek; try (injection Ek as <-); try (destruct k; discriminate); eexists; (split; [reflexivity|assumption]).
  - eexists. split; [reflexivity|]. split; [exact L1|]. intros k a Lk Ek. destruct axes as [|u0 [|u1 axes]]; cbn in La; try lia. destruct k as [|[|k]]; [| |lia]; cbn in Ek; injection Ek as <-; eexists; (split; [reflexivity|assumption]).
Qed.

(** * openPMD *)
Lemma pmd_regular file key a id r off sp u o s d n : axid a = Ok id -> file key = Ok r -> ga_offset (grid_attrs r) = Some off -> ga_spacing (grid_attrs r) = Some sp -> ga_unit (grid_attrs r) = Some u ->
  h_array r = Some d -> nth_error off (Z.to_nat id) = Some o -> nth_error sp (Z.to_nat id) = Some s -> nth_error (a_shape d) (Z.to_nat id) = Some (Z.of_nat n) -> 0 <= id ->
  regular (pmd file) key a (o * u) (s * u) n.
Proof.
  intros Ea Ef H1 H2 H3 H4 H5 H6 H7 Hid. rewrite <- (Z2Nat.id id) in Ea by exact Hid. unfold regular. cbn [pmd g_off g_sp g_pts]. unfold pmd_off, pmd_sp, pmd_pts. rewrite Ea. cbn [bind]. rewrite Ef. cbn [bind]. rewrite H1, H2, H3, H4. cbn [attr bind].
  rewrite (getidx_nonneg _ _ _ H5), (getidx_nonneg _ _ _ H6), (getidx_nonneg _ _ _ H7). cbn [bind]. repeat split; reflexivity.
Qed.

(** * chooseCode *)
Lemma choose_lower avail s code : choose avail s code = choose avail s (lower code).
Proof.
  assert (E : lower (lower code) = lower code).
  { induction code as [|c r IH]; [reflexivity|]. cbn. rewrite IH. f_equal. destruct c as [b0 b1 b2 b3 b4 b5 b6 b7]. destruct b0, b1, b2, b3, b4, b5, b6, b7; reflexivity. }
  unfold choose. rewrite E. reflexivity.
Qed.

Lemma choose_table avail s code : choose avail s code =
  match usable avail code with
  | Some (d, k) => (mkst (Some (D d)) (Some (Sm k)), Ok tt)
  | None => (s, Err (match preset presets (lower code) with Some _ => BareException | None => if String.eqb (lower code) "vsim" then BareException else TypeError end))
  end.
Proof.
  unfold choose, usable, mem_str, pick. generalize (lower code) as x. intro x. cbn [presets preset existsb].
  destruct (String.eqb_spec x "epoch") as [->|]; [cbn; now destruct (avail "epochsdf"%string)|].
  destruct (String.eqb_spec x "epoch1d") as [->|]; [cbn; now destruct (avail "epochsdf"%string)|].
  destruct (String.eqb_spec x "epoch2d") as [->|]; [cbn; now destruct (avail "epochsdf"%string)|].
  destruct (String.eqb_spec x "epoch3d") as [->|]; [cbn; now destruct (avail "epochsdf"%string)|].
  destruct (String.eqb_spec x "openpmd") as [->|]; [cbn; now destruct (avail "openPMDh5"%string)|].
  destruct (String.eqb_spec x "openpmdh5") as [->|]; [cbn; now destruct (avail "openPMDh5"%string)|].
  destruct (String.eqb_spec x "picongpu") as [->|]; [cbn; now destruct (avail "openPMDh5"%string)|].
  destruct (String.eqb_spec x "fbpic") as [->|]; [cbn; now destruct (avail "openPMDh5"%string)|].
  destruct (String.eqb_spec x "vsim") as [->|]; [cbn; reflexivity|].
  destruct (String.eqb_spec x "smilei") as [->|]; [cbn; now destruct (avail "smileih5"%string)|].
  destruct (String.eqb_spec x "dummy") as [->|]; [cbn; now destruct (avail "dummy"%string)|]. reflexivity.
Qed.
Lemma chosen_last avail codes : forall s r, (match r with Some (d, k) => s = mkst (Some (D d)) (Some (Sm k)) | None => True end) ->
  chosen avail s codes = match fold_left (fun r c => match usable avail c with Some p => Some p | None => r end) codes r with
                         | Some (d, k) => mkst (Some (D d)) (Some (Sm k)) | None => s end.
Proof.
  induction codes as [|c codes IH]; intros s r H; cbn [chosen fold_left].
  - destruct r as [[d k]|]; [exact H|reflexivity].
  - fold (chosen avail (fst (choose avail s c)) codes). rewrite choose_table. destruct (usable avail c) as [[d k]|] eqn:E; cbn [fst].
    + rewrite (IH _ (Some (d, k)) eq_refl). clear. generalize (d, k). intro p. revert p. induction codes as [|c' l IH]; intro p; cbn [fold_left]; [now destruct p|]. destruct (usable avail c'); apply IH.
    + now apply IH.
Qed.
