(** Lemmas about VTK files. *)
From Coq Require Import String List ZArith QArith Lia Lqa Bool.
From Verif Require Import PyBase PyBaseFacts NumpyModel NumpyFacts AxisModel AxisSpec AxisFacts NdModel NdFacts FieldModel FieldSpec FieldInvFacts FieldReduceFacts FieldRearrFacts FieldIndexFacts ReaderFacts IoModel IoSpec IoFacts IoText.
Import ListNotations.
Local Close Scope Q_scope.

Lemma flat_len {A B} (f : A -> list B) b l : (forall y, In y l -> length (f y) = b) -> length (flat_map f l) = length l * b.
Proof. induction l as [|y l IH]; intro H; [reflexivity|]. cbn. rewrite app_length, H by now left. rewrite IH by (intros; apply H; now right). lia. Qed.
Lemma flat_nth {A B} (f : A -> list B) b : forall l q r x, (forall y, In y l -> length (f y) = b) -> nth_error l q = Some x -> r < b -> nth_error (flat_map f l) (q * b + r) = nth_error (f x) r.
Proof.
  induction l as [|y l IH]; intros q r x H E Hr; [destruct q; discriminate|]. assert (Ly : length (f y) = b) by (apply H; now left). destruct q as [|q]; cbn [nth_error flat_map] in *.
  - injection E as ->. rewrite nth_error_app1 by (cbn; lia). reflexivity.
  - rewrite nth_error_app2 by (cbn; lia). rewrite Ly. replace (S q * b + r - b) with (q * b + r) by (cbn; lia). apply IH; [intros; apply H; now right|exact E|exact Hr].
Qed.
Lemma indicesF_nth n rest q i t : nth_error (indicesF rest) q = Some t -> i < n -> nth_error (indicesF (Z.of_nat n :: rest)) (q * n + i) = Some (Z.of_nat i :: t).
Proof.
  intros E Hi. cbn [indicesF]. rewrite (flat_nth _ n _ q i t); [|intros; rewrite map_length, zrange_length; lia|exact E|exact Hi]. rewrite nth_error_map, zrange_nth by lia. reflexivity.
Qed.
Lemma indicesF_len sh : nonempty sh -> length (indicesF sh) = Z.to_nat (zprod sh).
Proof.
  intro H. assert (P : (0 <= zprod sh)%Z /\ length (indicesF sh) = Z.to_nat (zprod sh)); [|apply P]. induction H as [|n sh Hn H [P IH]]; [split; [cbn; lia|reflexivity]|]. change (zprod (n :: sh)) with (n * zprod sh)%Z. split; [nia|].
  cbn [indicesF]. rewrite (flat_len _ (Z.to_nat n)) by (intros; now rewrite map_length, zrange_length). rewrite IH, Z2Nat.inj_mul by lia. apply Nat.mul_comm.
Qed.
Lemma indices3 nx ny nz i j k : i < nx -> j < ny -> k < nz -> nth_error (indicesF [Z.of_nat nx; Z.of_nat ny; Z.of_nat nz]) (i + nx * (j + ny * k)) = Some [Z.of_nat i; Z.of_nat j; Z.of_nat k].
Proof.
  intros Hi Hj Hk. replace (i + nx * (j + ny * k)) with ((k * ny + j) * nx + i) by lia. apply indicesF_nth; [|exact Hi]. apply indicesF_nth; [|exact Hj]. replace k with (0 * nz + k) by lia. apply indicesF_nth; [reflexivity|exact Hk].
Qed.
Lemma transform_ok {V} (l : list (nda V)) L : l <> [] -> (forall a, In a l -> length (ravelF a) = L) ->
  exists vals, transform_data l = Ok vals /\ length vals = L * length l /\
    forall c a p, nth_error l c = Some a -> p < L -> nth_error vals (length l * p + c) = nth_error (ravelF a) p.
Proof.
  intros N H. unfold transform_data. destruct (map ravelF l) as [|r0 rs] eqn:E; [destruct l; [congruence|discriminate]|].
  assert (Hr : forall r, In r (r0 :: rs) -> length r = L) by (rewrite <- E; intros r I; apply in_map_iff in I as (a & <- & I); now apply H).
  assert (L0 : length r0 = L) by (apply Hr; now left). rewrite all_len_ok. 2: { intros r I. rewrite L0. apply Hr. exact I. } rewrite L0. eexists. split; [reflexivity|]. rewrite <- E.
  assert (B : forall p, In p (seq 0 L) -> length (flat_map (fun r : list V => match nth_error r p with Some v => [v] | None => [] end) (map ravelF l)) = length l).
  { intros p I. apply in_seq in I. rewrite (flat_len _ 1); [now rewrite map_length, Nat.mul_1_r|]. intros r Ir. rewrite E in Ir. destruct (nth_error r p) eqn:En; [reflexivity|]. apply nth_error_None in En. rewrite (Hr r Ir) in En. lia. }
  split; [rewrite (flat_len _ _ _ B), seq_length; reflexivity|]. intros c a p Ea Hp. assert (Hc : c < length l) by (apply nth_error_Some; congruence).
  rewrite Nat.mul_comm. rewrite (flat_nth _ _ _ p c p B); [|rewrite (nth_error_nth' _ 0) by (rewrite seq_length; exact Hp); now rewrite seq_nth|exact Hc].
  assert (En : exists v, nth_error (ravelF a) p = Some v) by (destruct (nth_error (ravelF a) p) eqn:En; [eauto|]; apply nth_error_None in En; rewrite H in En by (eapply nth_error_In; exact Ea); lia).
  destruct En as (v & En). replace c with (c * 1 + 0) by lia. rewrite (flat_nth _ 1 _ c 0 (ravelF a)).
  - rewrite En. reflexivity.
  - intros r Ir. rewrite E in Ir. destruct (nth_error r p) eqn:En'; [reflexivity|]. apply nth_error_None in En'. rewrite (Hr r Ir) in En'. lia.
  - rewrite nth_error_map, Ea. reflexivity.
  - lia.
Qed.

Lemma F2_length {A B} (P : A -> B -> Prop) l m : Forall2 P l m -> length l = length m.
Proof. induction 1; cbn; congruence. Qed.
Lemma F2_nth' {A B} (P : A -> B -> Prop) l m i x : Forall2 P l m -> nth_error l i = Some x -> exists y, nth_error m i = Some y /\ P x y.
Proof. intro F. revert i. induction F as [|a b l m H F IH]; intros [|i] E; try discriminate; cbn in *; [injection E as <-; eauto|eauto]. Qed.
Lemma F2_nth_r {A B} (P : A -> B -> Prop) l m i y : Forall2 P l m -> nth_error m i = Some y -> exists x, nth_error l i = Some x /\ P x y.
Proof. intro F. revert i. induction F as [|a b l m H F IH]; intros [|i] E; try discriminate; cbn in *; [injection E as <-; eauto|eauto]. Qed.

(** * the fields *)
Definition chosen {V} (unstag : list (field V) -> res (list (field V))) (unstagger skip : bool) (fields : list (field V)) : res (list (field V)) :=
  match fields with
  | [] => Err IndexError
  | f0 :: rest =>
      let! same := mapM (fun f => same_axes (f_axes f) (f_axes f0)) rest in
      if forallb (fun b => b) same then Ok fields else if unstagger then unstag fields else if skip then Ok fields else Err ValueError
  end.
Definition rest_export {V} (spl : spline_fn) (kind : vtk_kind) (fields : list (field V)) : res (vtk V) :=
  let! g0 := getidx fields 0 in
  if (3 <? length (f_shape g0)) then Err ValueError
  else if (length (f_shape g0) =? 1) then Err ValueError
  else
    let! fields := mapM (fun f => field_atleast_nd spl f 3) fields in
    let! g0 := getidx fields 0 in
    let! lin := mapM islinear (f_axes g0) in
    let! ds := (if forallb (fun b => b) lin then structured_of g0 else rectilinear_of g0) in
    if (match kind with Vectors => negb (length fields =? 3) | Scalars => (4 <? length fields) end) then Err ValueError
    else
      let! vals := transform_data (map f_data fields) in
      Ok (mkVtk ds (zprod (f_shape g0)) kind (length fields) vals).
Lemma export_split {V} spl (unstag : list (field V) -> res (list (field V))) kind unstagger skip fields : export_arraydata spl unstag kind unstagger skip fields = let! l := chosen unstag unstagger skip fields in rest_export spl kind l.
Proof. unfold export_arraydata, chosen, rest_export. destruct fields; [reflexivity|]. destruct (mapM _ _); [|reflexivity]. cbn [bind]. reflexivity. Qed.
Lemma axes_eqb_refl l : axes_eqb l l = Ok true.
Proof. induction l as [|a l IH]; [reflexivity|]. cbn. rewrite axis_eqb_pointwise by (intros; reflexivity). cbn. exact IH. Qed.
Lemma same_axes_refl l : same_axes l l = Ok true.
Proof. unfold same_axes. rewrite Nat.eqb_refl. apply axes_eqb_refl. Qed.
Lemma chosen_same {V} unstag unstagger skip (f0 : field V) rest : (forall f, In f rest -> f_axes f = f_axes f0) -> chosen unstag unstagger skip (f0 :: rest) = Ok (f0 :: rest).
Proof.
  intro H. unfold chosen. rewrite (mapM_eq _ (fun _ => true)) by (intros f I; rewrite (H f I); apply same_axes_refl). cbn [bind].
  assert (X : forallb (fun b => b) (map (fun _ : field V => true) rest) = true) by (clear; induction rest; [reflexivity|exact IHrest]). now rewrite X.
Qed.
Lemma islinear_total ax : axis_proper ax -> exists b, islinear ax = Ok b.
Proof.
  intro H. unfold islinear. destruct (ax_n ax <? 3)%Z; [eauto|]. assert (L := proper_length _ H). unfold h_islinear. destruct (ax_node ax) as [|g0 gr]; [discriminate|].
  destruct (np_linspace_total g0 (last (g0 :: gr) g0) (Z.of_nat (length (g0 :: gr)))) as [l E]; [lia|]. rewrite E. cbn. eauto.
Qed.
(** first grid points and spacings, or the grids *)
Definition describes_set (ds : dataset) (axes : list axis) : Prop :=
  (Forall (fun ax => islinear ax = Ok true) axes /\ exists o sp, ds = Structured (map ax_len axes) o sp /\ Forall2 (fun ax x => nth_error (ax_grid ax) 0 = Some x) axes o /\ Forall2 (fun ax h => spacing ax = Ok h) axes sp) \/
  (Exists (fun ax => islinear ax = Ok false) axes /\ ds = Rectilinear (map ax_grid axes)).
Lemma mapM_F2 {A B} (f : A -> res B) (P : A -> B -> Prop) l : (forall x, In x l -> exists y, f x = Ok y /\ P x y) -> exists m, mapM f l = Ok m /\ Forall2 P l m.
Proof.
  induction l as [|x l IH]; intro H; [exists []; split; [reflexivity|constructor]|]. destruct (H x) as (y & E & Py); [now left|]. destruct IH as (m & Em & F); [intros; apply H; now right|].
  exists (y :: m). cbn. rewrite E. cbn. rewrite Em. split; [reflexivity|now constructor].
Qed.
Lemma dataset_ok {V} (g : field V) : Forall axis_proper (f_axes g) -> length (f_axes g) = 3 -> dims (f_shape g) = 3%Z -> (forall ax, In ax (f_axes g) -> (1 <= ax_len ax)%Z) ->
  exists lin ds, mapM islinear (f_axes g) = Ok lin /\ (if forallb (fun b => b) lin then structured_of g else rectilinear_of g) = Ok ds /\ describes_set ds (f_axes g).
Proof.
  intros Hp L3 D N. rewrite Forall_forall in Hp. destruct (mapM_F2 islinear (fun ax b => islinear ax = Ok b) (f_axes g)) as (lin & El & F); [intros ax I; destruct (islinear_total ax (Hp ax I)) as (b & E); eauto|].
  exists lin. destruct (forallb (fun b => b) lin) eqn:Eb.
  - assert (A : forall ax, In ax (f_axes g) -> islinear ax = Ok true).
    { clear -F Eb. induction F as [|ax b l m H F IH]; intros x I; [destruct I|]. cbn in Eb. apply andb_prop in Eb as [-> Eb]. destruct I as [<- | I]; [exact H|now apply IH]. }
    assert (Ng : forall ax, In ax (f_axes g) -> exists x, nth_error (ax_grid ax) 0 = Some x).
    { intros ax I. specialize (N ax I). destruct (proper_describes _ (Hp ax I)) as (_ & _ & E). unfold ax_len in N. rewrite E in N. destruct (ax_grid ax); [cbn in N; lia|eexists; reflexivity]. }
    destruct (mapM_F2 (fun ax => getidx (ax_grid ax) 0) (fun ax x => nth_error (ax_grid ax) 0 = Some x) (f_axes g)) as (o & Eo & Fo).
    { intros ax I. destruct (Ng ax I) as (x & E). exists x. split; [|exact E]. change 0%Z with (Z.of_nat 0). now apply getidx_nonneg. }
    destruct (mapM_F2 spacing (fun ax h => spacing ax = Ok h) (f_axes g)) as (sp & Es & Fs).
    { intros ax I. unfold spacing. rewrite (A ax I). cbn [bind negb]. assert (Lp := proper_length _ (Hp ax I)). destruct (Ng ax I) as (x & E). assert (1 <= length (ax_grid ax)) by (destruct (ax_grid ax); [discriminate|cbn; lia]).
      change 1%Z with (Z.of_nat 1). change 0%Z with (Z.of_nat 0). rewrite !getidx_nth by lia. cbn [bind]. eauto. }
    exists (Structured (map ax_len (f_axes g)) o sp). split; [exact El|]. split.
    + unfold structured_of. rewrite D. cbn [Z.eqb negb Pos.eqb]. rewrite Eo. cbn [bind]. rewrite Es. cbn [bind]. now rewrite L3.
    + left. split; [now apply Forall_forall|]. exists o, sp. split; [reflexivity|]. now split.
  - exists (Rectilinear (map ax_grid (f_axes g))). split; [exact El|]. split; [unfold rectilinear_of; now rewrite L3|]. right. split; [|reflexivity].
    clear -F Eb. induction F as [|ax b l m H F IH]; [discriminate|]. cbn in Eb. destruct b; [right; now apply IH|now left].
Qed.
Lemma export_rest_ok {V} spl kind (f0 : field V) rest : (forall f, In f (f0 :: rest) -> ready f /\ f_shape f = f_shape f0) -> nonempty (f_shape f0) -> 2 <= length (f_shape f0) <= 3 ->
  (match kind with Vectors => length rest = 2 | Scalars => length rest <= 3 end) ->
  exists v g0, rest_export spl kind (f0 :: rest) = Ok v /\ v_kind v = kind /\ v_comps v = S (length rest) /\ v_points v = zprod (f_shape f0) /\ Z.of_nat (length (v_values v)) = (v_points v * Z.of_nat (v_comps v))%Z /\
    (forall nx ny nz c f i j k, three (f_shape f0) = [Z.of_nat nx; Z.of_nat ny; Z.of_nat nz] -> nth_error (f0 :: rest) c = Some f -> i < nx -> j < ny -> k < nz ->
      nth_error (v_values v) (position (v_comps v) nx ny i j k c) = Some (a_at (f_data f) (firstn (length (f_shape f0)) [Z.of_nat i; Z.of_nat j; Z.of_nat k]))) /\
    with_dims f0 (3 - length (f_shape f0)) g0 /\ describes_set (v_set v) (f_axes g0) /\ Forall axis_proper (f_axes g0).
Proof.
  intros H Hne Hl Hk. unfold rest_export. change (getidx (f0 :: rest) 0) with (Ok f0). cbn [bind].
  destruct (Nat.ltb_spec 3 (length (f_shape f0))); [lia|]. destruct (Nat.eqb_spec (length (f_shape f0)) 1) as [?|_]; [lia|].
  set (n := length (f_shape f0)) in *.
  destruct (mapM_F2 (fun f => field_atleast_nd spl f 3) (fun f g => with_dims f (3 - n) g /\ Forall axis_proper (f_axes g)) (f0 :: rest)) as (gs & Eg & F).
  { intros f I. destruct (H f I) as [(C & P & In0) S0]. destruct (atleast_total spl f 3 C) as (g & E & W & _ & Pg); [rewrite S0; exact Hne|exact P|exact In0|cbn; lia|rewrite S0; fold n; unfold max_dims; lia|].
    exists g. split; [exact E|]. split; [|exact Pg]. rewrite S0 in W. exact W. }
  rewrite Eg. cbn [bind]. assert (Lg : length gs = S (length rest)) by (clear -F; apply F2_length in F; cbn in F; lia).
  assert (Fn : forall c f, nth_error (f0 :: rest) c = Some f -> exists g, nth_error gs c = Some g /\ with_dims f (3 - n) g) by (intros c f E; destruct (F2_nth' _ _ _ _ _ F E) as (g & E1 & W & _); eauto).
  assert (Fg : forall g, In g gs -> f_shape g = three (f_shape f0)).
  { intros g I. apply In_nth_error in I as (c & E). destruct (F2_nth_r _ _ _ _ _ F E) as (f & E1 & W & _). assert (If : In f (f0 :: rest)) by (eapply nth_error_In; exact E1). destruct W as (Sg & _). rewrite Sg. unfold three. fold n. now rewrite (proj2 (H f If)). }
  destruct gs as [|g0 gs']; [discriminate|]. change (getidx (g0 :: gs') 0) with (Ok g0). cbn [bind].
  assert (W0 : with_dims f0 (3 - n) g0 /\ Forall axis_proper (f_axes g0)) by (inversion F; subst; assumption). destruct W0 as [W0 P0].
  assert (N3 : nonempty (three (f_shape f0))) by (unfold three; apply Forall_app; split; [exact Hne|]; apply Forall_forall; intros x I; apply repeat_spec in I; lia).
  assert (L3 : length (three (f_shape f0)) = 3) by (unfold three; rewrite app_length, repeat_length; fold n; lia).
  assert (S0 : f_shape g0 = three (f_shape f0)) by (apply Fg; now left).
  assert (C0 : length (f_axes g0) = 3 /\ forall ax, In ax (f_axes g0) -> (1 <= ax_len ax)%Z).
  { destruct (H f0 (or_introl eq_refl)) as [(C & P & _) _]. destruct C as (La & Ca & _). destruct W0 as (_ & (axs & Ea & Lx & Px) & _). rewrite Ea, app_length, Lx, La. fold n. split; [lia|]. intros ax I. apply in_app_or in I as [I|I].
    - apply In_nth_error in I as (k & E). destruct (nth_error (f_shape f0) k) as [m|] eqn:Em; [|apply nth_error_None in Em; assert (k < length (f_axes f0)) by (apply nth_error_Some; congruence); lia].
      rewrite (Ca k ax m E Em). apply nth_error_In in Em. unfold nonempty in Hne. rewrite Forall_forall in Hne. specialize (Hne m Em). lia.
    - rewrite Forall_forall in Px. destruct (Px ax I) as (_ & _ & -> & _). lia. }
  destruct (dataset_ok g0 P0 (proj1 C0)) as (lin & ds & El & Ed & Dd); [rewrite S0, nonempty_dims, L3 by exact N3; reflexivity|apply C0|]. rewrite El. cbn [bind]. rewrite Ed. cbn [bind].
  assert (K : (match kind with Vectors => negb (length (g0 :: gs') =? 3) | Scalars => (4 <? length (g0 :: gs')) end) = false).
  { rewrite Lg. destruct kind; [apply Nat.ltb_ge; lia|rewrite Hk; reflexivity]. }
  rewrite K. destruct (transform_ok (map f_data (g0 :: gs')) (Z.to_nat (zprod (three (f_shape f0))))) as (vals & Ev & Lv & Pv); [discriminate|intros a I; apply in_map_iff in I as (g & <- & I); unfold ravelF; rewrite map_length; change (a_shape (f_data g)) with (f_shape g); rewrite (Fg g I); now apply indicesF_len|].
  rewrite Ev. cbn [bind]. assert (Z3 : zprod (three (f_shape f0)) = zprod (f_shape f0)).
  { unfold three. clear. induction (f_shape f0) as [|x l IH] in |- *; [|]. 1: { cbn [length Nat.sub app]. reflexivity. }
    assert (G : forall l m, zprod (l ++ repeat 1%Z m) = zprod l) by (induction l0 as [|y l0 IH']; intro m; [induction m as [|m IHm]; [reflexivity|]; change (zprod ([] ++ repeat 1%Z (S m))) with (1 * zprod ([] ++ repeat 1%Z m))%Z; rewrite IHm; reflexivity|]; change (zprod ((y :: l0) ++ repeat 1%Z m)) with (y * zprod (l0 ++ repeat 1%Z m))%Z; rewrite IH'; reflexivity). apply G. }
  exists (mkVtk ds (zprod (f_shape g0)) kind (length (g0 :: gs')) vals), g0. cbn [v_kind v_comps v_points v_values v_set]. split; [reflexivity|]. split; [reflexivity|]. split; [exact Lg|]. rewrite S0, Z3. split; [reflexivity|]. rewrite Z3 in *. assert (Zp : (0 <= zprod (f_shape f0))%Z) by (clear -Hne; induction Hne as [|x l Hx Hne IH]; [cbn; lia|]; change (zprod (x :: l)) with (x * zprod l)%Z; nia).
  split; [rewrite Lv, map_length; lia|]. split; [|split; [exact W0|split; [exact Dd|exact P0]]].
  intros nx ny nz c f i j k E3 Ef Hi Hj Hkk. unfold position. destruct (Fn c f Ef) as (g & Egc & W). rewrite map_length in Pv. rewrite (Pv c (f_data g)); [|rewrite nth_error_map, Egc; reflexivity|].
  - unfold ravelF. change (a_shape (f_data g)) with (f_shape g). rewrite (Fg g) by (eapply nth_error_In; exact Egc). rewrite E3, nth_error_map, indices3 by assumption. cbn [option_map]. f_equal.
    destruct W as (_ & _ & V0 & _). assert (Sf : f_shape f = f_shape f0) by (apply H; eapply nth_error_In; exact Ef). rewrite Sf in V0.
    rewrite <- V0.
    + f_equal. unfold three in E3. subst n. clear -E3 Hl Hkk. destruct (f_shape f0) as [|a [|b [|c' [|? ?]]]]; cbn [length] in *; try lia; [|reflexivity]. cbn in E3. injection E3 as _ _ E. assert (k = 0) as -> by lia. reflexivity.
    + unfold three in E3. subst n. clear -E3 Hl Hkk Hi Hj. destruct (f_shape f0) as [|a [|b [|c' [|? ?]]]]; cbn [length] in *; try lia; cbn in E3; injection E3 as -> -> E; cbn [firstn]; apply in_shape_spec; repeat constructor; lia.
  - rewrite <- Z3, E3. change (zprod [Z.of_nat nx; Z.of_nat ny; Z.of_nat nz]) with (Z.of_nat nx * (Z.of_nat ny * (Z.of_nat nz * 1)))%Z. rewrite Z.mul_1_r, <- !Nat2Z.inj_mul, Nat2Z.id. assert (Q1 : j + ny * k < ny * nz) by nia. revert Q1. generalize (j + ny * k) (ny * nz). intros q m Q1. clear -Q1 Hi. nia.
Qed.

(** * where the points are *)
Lemma spacing_even ax x h : axis_proper ax -> (1 <= ax_len ax)%Z -> (0 < h)%Q -> (forall i, i < length (ax_node ax) -> (nth i (ax_node ax) 0 == x - (1 # 2) * h + inject_Z (Z.of_nat i) * h)%Q) -> forall s, spacing ax = Ok s -> (s == h)%Q.
Proof.
  intros P L Hh H s E. assert (Lp := proper_length _ P). destruct (proper_describes _ P) as (_ & _ & D). unfold ax_len in L. unfold spacing in E. apply bind_ok in E as (b & _ & E). destruct (negb b); [discriminate|].
  change 1%Z with (Z.of_nat 1) in E. change 0%Z with (Z.of_nat 0) in E. rewrite !getidx_nth in E by lia. cbn [bind] in E. injection E as <-. rewrite !qabs_Qabs.
  assert (X : (nth 1 (ax_node ax) 0 - nth 0 (ax_node ax) 0 == h)%Q) by (rewrite !H by lia; change (inject_Z (Z.of_nat 1)) with 1%Q; change (inject_Z (Z.of_nat 0)) with 0%Q; ring). rewrite X. apply Qabs.Qabs_pos. lra.
Qed.
Lemma point_even ax : point_axis ax -> ascending_even ax /\ axis_proper ax /\ ax_len ax = 1%Z.
Proof.
  intros (_ & _ & L & N & (x & G & X) & E). split; [|split; [|exact L]].
  - exists 0%Q, 1%Q. split; [lra|]. rewrite G, N. split; intros i Hi; cbn in Hi; [destruct i as [|i]; [change (inject_Z (Z.of_nat 0)) with 0%Q; cbn [nth]; rewrite X; ring|lia]|destruct i as [|[|i]]; [reflexivity|reflexivity|lia]].
  - left. split; [|split; [rewrite E, N; reflexivity|split; [rewrite E, G, N; reflexivity|unfold ax_len in L; rewrite L, G; reflexivity]]]. split; [rewrite N, G; reflexivity|]. rewrite N, G. intros i Hi. cbn in Hi. assert (i = 0) as -> by lia. cbn [nth]. split; lra.
Qed.
Lemma located_axes ds axes : describes_set ds axes -> Forall axis_proper axes -> (forall ax, In ax axes -> (1 <= ax_len ax)%Z) -> (Forall ascending_even axes \/ Exists (fun ax => islinear ax = Ok false) axes) ->
  forall a ax i, nth_error axes a = Some ax -> oeq (located ds a i) (nth_error (ax_grid ax) i).
Proof.
  intros D P N H a ax i Ea. rewrite Forall_forall in P. assert (I : In ax axes) by (eapply nth_error_In; exact Ea). destruct D as [[Dl (o & sp & -> & Fo & Fs)]|[_ ->]].
  - destruct H as [H|H]; [|exfalso; apply Exists_exists in H as (ax' & I' & F'); rewrite Forall_forall in Dl; rewrite (Dl ax' I') in F'; discriminate].
    rewrite Forall_forall in H. destruct (H ax I) as (x & h & Hh & Hg & Hn). unfold located. rewrite nth_error_map, Ea. cbn [option_map]. destruct (F2_nth' _ _ _ _ _ Fo Ea) as (x0 & Eo & E0). destruct (F2_nth' _ _ _ _ _ Fs Ea) as (s & Es & E1). rewrite Eo, Es.
    assert (Sh := spacing_even ax x h (P ax I) (N ax I) Hh Hn s E1). destruct (proper_describes _ (P ax I)) as (_ & _ & Dn). unfold ax_len. rewrite Dn.
    destruct (Z.ltb_spec (Z.of_nat i) (Z.of_nat (length (ax_grid ax)))).
    + rewrite (nth_error_nth' _ 0%Q) by lia. cbn [oeq]. rewrite Hg by lia. assert (X0 : (x0 == x)%Q). { apply nth_error_nth with (d := 0%Q) in E0. rewrite <- E0, Hg by lia. change (inject_Z (Z.of_nat 0)) with 0%Q. ring. } rewrite X0, Sh. reflexivity.
    + assert (X : nth_error (ax_grid ax) i = None) by (apply nth_error_None; lia). now rewrite X.
  - unfold located. rewrite nth_error_map, Ea. cbn [option_map]. destruct (nth_error (ax_grid ax) i); cbn; [reflexivity|tauto].
Qed.


Lemma vtk_core {V} (zero : V) spl kind (f0 : field V) rest given : (forall f, In f (f0 :: rest) -> ready f /\ f_shape f = f_shape f0) -> nonempty (f_shape f0) -> 2 <= length (f_shape f0) <= 3 ->
  (match kind with Vectors => length rest = 2 | Scalars => length rest <= 3 end) ->
  (forall c f, nth_error (f0 :: rest) c = Some f -> nth_error given c = Some f \/ (nth_error given c = None /\ forall idx, a_at (f_data f) idx = zero)) ->
  exists v, rest_export spl kind (f0 :: rest) = Ok v /\ v_kind v = kind /\ lists_values zero given (S (length rest)) (f_shape f0) v /\
    (Forall ascending_even (f_axes f0) \/ Exists (fun ax => islinear ax = Ok false) (f_axes f0) -> locates_points f0 v).
Proof.
  intros H Hne Hl Hk Hg. destruct (export_rest_ok spl kind f0 rest H Hne Hl Hk) as (v & g0 & E & Ek & Ec & Ep & Ev & Pv & W & D & P). exists v. split; [exact E|]. split; [exact Ek|]. split.
  - split; [exact Ec|]. split; [exact Ep|]. split; [now rewrite Ev, Ec|]. intros nx ny nz c i j k E3 Hc Hi Hj Hkk. destruct (nth_error (f0 :: rest) c) as [f|] eqn:Ef; [|apply nth_error_None in Ef; cbn in Ef; lia].
    rewrite <- Ec. rewrite (Pv nx ny nz c f i j k E3 Ef Hi Hj Hkk). destruct (Hg c f Ef) as [-> | [-> Z0]]; [reflexivity|]. now rewrite Z0.
  - intros Ha a i Ha3. destruct (H f0 (or_introl eq_refl)) as [((La & Ca & _) & Pf & _) _]. destruct W as (_ & (axs & Ea & Lx & Px) & _).
    assert (Na : forall ax, In ax (f_axes g0) -> (1 <= ax_len ax)%Z).
    { rewrite Ea. intros ax I. apply in_app_or in I as [I|I].
      - apply In_nth_error in I as (k & E'). destruct (nth_error (f_shape f0) k) as [m|] eqn:Em; [|apply nth_error_None in Em; assert (k < length (f_axes f0)) by (apply nth_error_Some; congruence); lia].
        rewrite (Ca k ax m E' Em). apply nth_error_In in Em. unfold nonempty in Hne. rewrite Forall_forall in Hne. specialize (Hne m Em). lia.
      - rewrite Forall_forall in Px. destruct (Px ax I) as (_ & _ & -> & _). lia. }
    assert (Hx : Forall ascending_even (f_axes g0) \/ Exists (fun ax => islinear ax = Ok false) (f_axes g0)).
    { rewrite Ea. destruct Ha as [Ha|Ha]; [left; apply Forall_app; split; [exact Ha|]|right; apply Exists_app; now left]. eapply Forall_impl; [|exact Px]. intros ax Pa. now apply point_even. }
    unfold coordinate. destruct (nth_error (f_axes g0) a) as [ax|] eqn:Eax; [|apply nth_error_None in Eax; rewrite Ea, app_length in Eax; lia].
    assert (Loc := located_axes _ _ D P Na Hx a ax i Eax). rewrite Ea in Eax. destruct (nth_error (f_axes f0) a) as [ax'|] eqn:Eax'.
    + rewrite nth_error_app1 in Eax by (apply nth_error_Some; congruence). rewrite Eax' in Eax. injection Eax as <-. exact Loc.
    + rewrite nth_error_app2 in Eax by (now apply nth_error_None). apply nth_error_In in Eax. rewrite Forall_forall in Px. destruct (Px ax Eax) as (_ & _ & _ & _ & (x & G & X) & _). rewrite G in Loc. destruct i as [|i]; [|destruct i; exact Loc]. cbn in Loc. destruct (located (v_set v) a 0); [cbn in *; now rewrite Loc|exact Loc].
Qed.
Lemma vtk_scalars {V} (zero : V) spl unstag unstagger skip (f0 : field V) rest : on_one_grid f0 (f0 :: rest) -> nonempty (f_shape f0) -> 2 <= length (f_shape f0) <= 3 -> length rest <= 3 ->
  exists v, export_scalars spl unstag unstagger skip (f0 :: rest) = Ok v /\ v_kind v = Scalars /\ lists_values zero (f0 :: rest) (S (length rest)) (f_shape f0) v /\
    (Forall ascending_even (f_axes f0) \/ Exists (fun ax => islinear ax = Ok false) (f_axes f0) -> locates_points f0 v).
Proof.
  intros H Hne Hl Hk. unfold export_scalars. destruct (Nat.ltb_spec 4 (length (f0 :: rest))); [cbn in *; lia|]. rewrite export_split, chosen_same by (intros f I; apply H; now right). cbn [bind].
  apply (vtk_core zero spl Scalars); [intros f I; destruct (H f I) as (? & ? & _); now split|exact Hne|exact Hl|exact Hk|]. intros c f E. now left.
Qed.
Lemma vtk_vector {V} (zero : V) spl unstag unstagger skip (f0 : field V) rest : on_one_grid f0 (f0 :: rest) -> nonempty (f_shape f0) -> 2 <= length (f_shape f0) <= 3 -> length rest <= 2 ->
  exists v, export_vector spl unstag zero unstagger skip (f0 :: rest) = Ok v /\ v_kind v = Vectors /\ lists_values zero (f0 :: rest) 3 (f_shape f0) v /\
    (Forall ascending_even (f_axes f0) \/ Exists (fun ax => islinear ax = Ok false) (f_axes f0) -> locates_points f0 v).
Proof.
  intros H Hne Hl Hk. unfold export_vector. destruct (Nat.ltb_spec 3 (length (f0 :: rest))); [cbn in *; lia|]. cbn [app]. set (pad := repeat (zero_like zero f0) (3 - length (f0 :: rest))).
  assert (Hp : forall f, In f pad -> f = zero_like zero f0) by (intros f I; now apply repeat_spec in I).
  rewrite export_split, chosen_same by (intros f I; apply in_app_or in I as [I|I]; [apply H; now right|now rewrite (Hp f I)]). cbn [bind].
  assert (L2 : length (rest ++ pad) = 2) by (unfold pad; rewrite app_length, repeat_length; cbn [length]; lia). 
  cut (exists v, rest_export spl Vectors (f0 :: rest ++ pad) = Ok v /\ v_kind v = Vectors /\ lists_values zero (f0 :: rest) (S (length (rest ++ pad))) (f_shape f0) v /\ (Forall ascending_even (f_axes f0) \/ Exists (fun ax => islinear ax = Ok false) (f_axes f0) -> locates_points f0 v)); [now rewrite L2|].
  apply (vtk_core zero spl Vectors); [|exact Hne|exact Hl|exact L2|].
  - intros f I. change (f0 :: rest ++ pad) with ((f0 :: rest) ++ pad) in I. apply in_app_or in I as [I|I]; [destruct (H f I) as (? & ? & _); now split|]. rewrite (Hp f I). split; [|reflexivity]. destruct (H f0 (or_introl eq_refl)) as ((C & P & _) & _). split; [exact C|]. split; [exact P|reflexivity].
  - intros c f E. change (f0 :: rest ++ pad) with ((f0 :: rest) ++ pad) in E. destruct (Nat.lt_ge_cases c (length (f0 :: rest))); [rewrite nth_error_app1 in E by assumption; now left|]. right. split; [now apply nth_error_None|]. rewrite nth_error_app2 in E by assumption. apply nth_error_In in E. rewrite (Hp f E). reflexivity.
Qed.
(** fields on different grids *)
Lemma vtk_staggered {V} (zero : V) spl unstag (f0 : field V) rest l0 l : (forall f, In f rest -> exists b, same_axes (f_axes f) (f_axes f0) = Ok b) -> (exists f, In f rest /\ same_axes (f_axes f) (f_axes f0) = Ok false) -> length rest <= 3 ->
  (forall skip, unstag (f0 :: rest) = Ok (l0 :: l) -> on_one_grid l0 (l0 :: l) -> nonempty (f_shape l0) -> 2 <= length (f_shape l0) <= 3 -> length l <= 3 ->
     exists v, export_scalars spl unstag true skip (f0 :: rest) = Ok v /\ lists_values zero (l0 :: l) (S (length l)) (f_shape l0) v) /\
  (forall skip e, unstag (f0 :: rest) = Err e -> export_scalars spl unstag true skip (f0 :: rest) = Err e) /\
  export_scalars spl unstag false false (f0 :: rest) = Err ValueError.
Proof.
  intros Hb (f & If & Ff) Hk. destruct (mapM_F2 (fun f => same_axes (f_axes f) (f_axes f0)) (fun f b => same_axes (f_axes f) (f_axes f0) = Ok b) rest) as (bs & Eb & Fb); [intros g I; destruct (Hb g I) as (b & E); eauto|].
  assert (X : forallb (fun b => b) bs = false). { apply In_nth_error in If as (k & Ek). destruct (F2_nth' _ _ _ _ _ Fb Ek) as (b & E1 & E2). rewrite Ff in E2. injection E2 as <-. apply nth_error_In in E1. destruct (forallb _ bs) eqn:Y; [|reflexivity]. rewrite forallb_forall in Y. now rewrite (Y false E1). }
  assert (E4 : forall unstagger skip, export_scalars spl unstag unstagger skip (f0 :: rest) = let! l := (if unstagger then unstag (f0 :: rest) else if skip then Ok (f0 :: rest) else Err ValueError) in rest_export spl Scalars l).
  { intros u s. unfold export_scalars. destruct (Nat.ltb_spec 4 (length (f0 :: rest))); [cbn in *; lia|]. rewrite export_split. unfold chosen. rewrite Eb. cbn [bind]. now rewrite X. }
  split; [|split].
  - intros skip E H Hne Hl Hk'. rewrite E4, E. cbn [bind]. destruct (vtk_core zero spl Scalars l0 l (l0 :: l)) as (v & E' & _ & R & _); [intros g I; destruct (H g I) as (? & ? & _); now split|exact Hne|exact Hl|exact Hk'|intros c g E'; now left|]. exists v. now split.
  - intros skip e E. now rewrite E4, E.
  - now rewrite E4.
Qed.
