From Coq Require Import Lia.
From Verif Require Import PyBase PyBaseFacts NumpyModel NumpyFacts AxisModel AxisSpec AxisFacts
  NdModel NdFacts FieldModel FieldSpec FieldInvFacts FieldNodedFacts FieldRearrFacts FieldReduceFacts FieldOpFacts UfuncModel UfuncSpec.

Lemma bshape_nil_r s : bshape s [] = Ok s.
Proof. unfold bshape. cbn [rev]. destruct (rev s) eqn:E; cbn [bshape_rev rmap]; rewrite <- E, rev_involutive; reflexivity. Qed.
Lemma join1 s : join_shapes [s] = Ok s.
Proof. cbn [join_shapes bind]. apply bshape_nil_r. Qed.
Lemma join2 s t : join_shapes [s; t] = bshape s t.
Proof. cbn [join_shapes bind]. rewrite bshape_nil_r. reflexivity. Qed.

(** the case of one output is the binary operation of FieldModel *)
Lemma call_fields {V} (u : ufunc V) f g : u_nin u = 2%nat -> u_nout u = 1%nat -> f_inner f = [] -> f_inner g = [] ->
  call_ufunc u MCall [AField f; AField g] [] = rmap (fun h => RFields [h]) (field_op2 (fun a b => u_fun u 0%nat [a; b]) f g).
Proof.
  intros N M If Ig. unfold call_ufunc. cbn [length num_inputs]. rewrite N. cbn [Nat.eqb negb existsb app disables orb first_field].
  unfold array_ufunc. cbn [app forallb handled andb result_props props2 mapM unwrap bind]. unfold field_op2, wrap_op2.
  change (length (f_shape f)) with (length (a_shape (f_data f))). change (length (f_shape g)) with (length (a_shape (f_data g))).
  destruct (op2_entries _ _ _ _) as [es|e]; cbn [rmap bind]; [|reflexivity]. rewrite If, Ig. cbn [length Nat.add data_op2].
  unfold np_method, np_call, np_map2. cbn [map]. rewrite join2. destruct (bshape _ _) as [sh|e]; cbn [bind]; [|reflexivity].
  unfold np_fill. rewrite M. cbn [seq map mapM fst snd]. unfold props_of_entries. destruct (field_of _ _ _ _ _ _); reflexivity.
Qed.
Lemma call_field_array {V} (u : ufunc V) f b : u_nin u = 2%nat -> u_nout u = 1%nat -> f_inner f = [] ->
  call_ufunc u MCall [AField f; AArr b] [] = rmap (fun h => RFields [h]) (field_op_array (fun a b => u_fun u 0%nat [a; b]) f b).
Proof.
  intros N M If. unfold call_ufunc. cbn [length num_inputs]. rewrite N. cbn [Nat.eqb negb existsb app disables orb first_field].
  unfold array_ufunc. cbn [app forallb handled andb result_props props2 mapM unwrap bind]. unfold field_op_array, wrap_op2.
  change (length (f_shape f)) with (length (a_shape (f_data f))).
  destruct (op2_entries _ _ _ _) as [es|e]; cbn [rmap bind]; [|reflexivity]. rewrite If. cbn [length Nat.add data_op2].
  unfold np_method, np_call, np_map2. cbn [map]. rewrite join2. destruct (bshape _ _) as [sh|e]; cbn [bind]; [|reflexivity].
  unfold np_fill. rewrite M. cbn [seq map mapM fst snd]. unfold props_of_entries. destruct (field_of _ _ _ _ _ _); reflexivity.
Qed.
Lemma call_array_field {V} (u : ufunc V) a g : u_nin u = 2%nat -> u_nout u = 1%nat -> f_inner g = [] ->
  call_ufunc u MCall [AArr a; AField g] [] = rmap (fun h => RFields [h]) (array_op_field (fun a b => u_fun u 0%nat [a; b]) a g).
Proof.
  intros N M If. unfold call_ufunc. cbn [length num_inputs]. rewrite N. cbn [Nat.eqb negb existsb app disables orb first_field].
  unfold array_ufunc. cbn [app forallb handled andb result_props props2 mapM unwrap bind]. unfold array_op_field, wrap_op2.
  change (length (f_shape g)) with (length (a_shape (f_data g))).
  destruct (op2_entries _ _ _ _) as [es|e]; cbn [rmap bind]; [|reflexivity]. rewrite If. cbn [length Nat.add data_op2].
  unfold np_method, np_call, np_map2. cbn [map]. rewrite join2. destruct (bshape _ _) as [sh|e]; cbn [bind]; [|reflexivity].
  unfold np_fill. rewrite M. cbn [seq map mapM fst snd]. unfold props_of_entries. destruct (field_of _ _ _ _ _ _); reflexivity.
Qed.

(** * Shapes *)
Lemma from_end_none {A} (l : list A) j : (length l <= j)%nat -> from_end l j = None.
Proof. intro H. unfold from_end. apply nth_error_None. rewrite rev_length. exact H. Qed.
Lemma from_end_some {A} (l : list A) j : (j < length l)%nat -> exists x, from_end l j = Some x.
Proof. intro H. unfold from_end. destruct (nth_error (rev l) j) eqn:E; [eauto|]. apply nth_error_None in E. rewrite rev_length in E. lia. Qed.
Lemma from_end_lt {A} (l : list A) j x : from_end l j = Some x -> (j < length l)%nat.
Proof. unfold from_end. intro H. apply nth_error_lt in H. rewrite rev_length in H. exact H. Qed.
Lemma repeats_fits s t : repeats_to s t -> broadcastable s t.
Proof. intros [_ H] j a b Ha Hb. destruct (H j a b Ha Hb); auto. Qed.
Lemma repeats_joint s t : repeats_to s t -> forall j, joint_len (from_end s j) (from_end t j) = from_end t j /\ joint_len (from_end t j) (from_end s j) = from_end t j.
Proof.
  intros [L H] j. specialize (H j). destruct (from_end s j) as [a|] eqn:Ea, (from_end t j) as [b|] eqn:Eb; try (split; reflexivity).
  - specialize (H a b eq_refl eq_refl). cbn. split; f_equal; [destruct (Z.eqb_spec a 1); lia|destruct (Z.eqb_spec b 1); lia].
  - exfalso. apply from_end_lt in Ea. destruct (from_end_some t j) as [x Hx]; [lia|congruence].
Qed.
Lemma repeats_bshape s t : repeats_to s t -> bshape s t = Ok t /\ bshape t s = Ok t.
Proof.
  intro H. pose proof (repeats_fits _ _ H) as B.
  destruct (bshape_fits s t B) as (x & Ex & Hx). destruct (bshape_fits t s (broadcastable_sym _ _ B)) as (y & Ey & Hy).
  split; [rewrite Ex|rewrite Ey]; f_equal; apply from_end_ext; intro j; [rewrite Hx|rewrite Hy]; now apply repeats_joint.
Qed.
Lemma bshape_repeats s t : bshape s t = Ok t -> repeats_to s t.
Proof.
  intro H. pose proof (bshape_ok_fits _ _ _ H) as B. destruct (bshape_fits s t B) as (x & Ex & Hx). rewrite H in Ex. injection Ex as <-.
  split.
  - destruct (Nat.le_gt_cases (length s) (length t)) as [|L]; [assumption|]. exfalso. specialize (Hx (length t)).
    rewrite from_end_none in Hx by lia. destruct (from_end_some s (length t) L) as [a Ha]. rewrite Ha in Hx. discriminate.
  - intros j a b Ha Hb. specialize (Hx j). rewrite Ha, Hb in Hx. cbn in Hx. destruct (Z.eqb_spec a 1); [auto|left; congruence].
Qed.
Lemma repeats_refl s : repeats_to s s.
Proof. split; [lia|]. intros. left. congruence. Qed.

(** * The attributes of the result *)
Definition lists (axes : list axis) (ats : list (option bool)) (tao : list (option Q)) : props := (map Some axes, ats, tao).
Lemma entries_lists es axes : map e_axis es = map Some axes ->
  props_of_entries es = lists axes (map (fun e => snd (fst e)) es) (map snd es) /\ length es = length axes.
Proof. intro H. split; [unfold props_of_entries, lists; now rewrite <- H|]. apply (f_equal (@length _)) in H. now rewrite !map_length in H. Qed.
Lemma props2_total {V} (x y : operand V) : sound x -> sound y -> fit x y ->
  exists axes ats tao sh, props2 x y = Ok (lists axes ats tao) /\ join_shapes [shape_of x; shape_of y] = Ok sh /\
    map ax_len axes = sh /\ (length axes <= 3)%nat /\ length ats = length axes /\ length tao = length axes /\
    (forall j, from_end sh j = joint_len (from_end (shape_of x) j) (from_end (shape_of y) j)) /\
    (forall j, from_end axes j = joint_axis (from_end (axes_at x) j) (from_end (axes_at y) j)).
Proof.
  intros Sx Sy F. rewrite join2.
  assert (One : forall (f : field V), consistent f -> (length (f_shape f) <= 3)%nat ->
    map ax_len (f_axes f) = f_shape f /\ (length (f_axes f) <= 3)%nat /\ length (f_ats f) = length (f_axes f) /\ length (f_tao f) = length (f_axes f)).
  { intros f Hf L. split; [now apply consistent_map|]. destruct Hf as (La & _ & L1 & L2). rewrite La. auto. }
  assert (NR : forall j, from_end (@nil axis) j = None) by (intro j; apply from_end_none; cbn; lia).
  assert (JR : forall o : option axis, joint_axis o None = o) by (intros [|]; reflexivity).
  destruct x as [f|a|a|]; [|destruct y as [g|b|b|]|destruct y as [g|b|b|]|destruct Sx]; try (exfalso; exact F); try (exfalso; exact Sy).
  - destruct Sx as (Hf & If & F3). destruct (One f Hf F3) as (M & O1 & O2 & O3). destruct y as [g|b|b|]; [| | |destruct Sy].
    + destruct Sy as (Hg & Ig & G3). cbn [fit] in F. cbn [props2 shape_of axes_at].
      destruct (op2_broadcasts (fun _ _ => tt) f g Hf Hg If Ig F3 G3 F) as (h & E & Hs & Ha & Ml & _).
      unfold field_op2, wrap_op2 in E. change (length (a_shape (f_data f))) with (length (f_shape f)) in E. change (length (a_shape (f_data g))) with (length (f_shape g)) in E.
      destruct (op2_entries _ _ _ _) as [es|]; cbn [bind] in E; [|discriminate].
      apply bind_ok in E as (c & Ec & E). apply field_of_ok in E as (Dh & _ & Ax & Ml' & _). cbn [rmap].
      destruct (entries_lists es (f_axes h) Ax) as [-> Le]. destruct (bshape_fits _ _ F) as (sh & Es & Hs').
      exists (f_axes h), (map (fun e => snd (fst e)) es), (map snd es), sh.
      assert (E : sh = f_shape h) by (apply from_end_ext; intro j; rewrite Hs', Hs; reflexivity).
      split; [reflexivity|]. split; [exact Es|]. split; [now rewrite E|]. split; [|rewrite !map_length; auto].
      rewrite <- (map_length ax_len), Ml. destruct (Nat.le_gt_cases (length (f_shape h)) 3) as [|L]; [assumption|]. exfalso.
      destruct (from_end_some (f_shape h) 3 L) as [z Hz]. rewrite Hs, !from_end_none in Hz by lia. discriminate.
    + cbn [fit shape_of] in F. cbn [props2 shape_of axes_at]. destruct (repeats_bshape _ _ F) as [_ B].
      destruct (op_array_total (fun _ _ => tt) f b Hf If F3 B) as (h & E & Hs & Ha & Hat & Hto & _).
      unfold field_op_array, wrap_op2 in E. change (length (a_shape (f_data f))) with (length (f_shape f)) in E.
      destruct (op2_entries _ _ _ _) as [es|]; cbn [bind] in E; [|discriminate].
      apply bind_ok in E as (c & Ec & E). apply field_of_ok in E as (Dh & _ & Ax & Ml' & _). cbn [rmap]. rewrite Ha in Ax.
      destruct (entries_lists es (f_axes f) Ax) as [-> Le]. exists (f_axes f), (map (fun e => snd (fst e)) es), (map snd es), (f_shape f).
      split; [reflexivity|]. split; [exact B|]. rewrite !map_length. do 4 (split; [auto|]). split.
      * intro j. symmetry. now apply repeats_joint.
      * intro j. rewrite NR. now rewrite JR.
    + cbn [props2 shape_of axes_at]. exists (f_axes f), (f_ats f), (f_tao f), (f_shape f). split; [reflexivity|]. split; [apply bshape_nil_r|].
      do 4 (split; [auto|]). split; intro j; [rewrite (from_end_none []) by (cbn; lia); now destruct (from_end (f_shape f) j)|now rewrite NR, JR].
  - destruct Sy as (Hf & If & F3). destruct (One g Hf F3) as (M & O1 & O2 & O3). cbn [fit shape_of] in F. cbn [props2 shape_of axes_at].
    destruct (repeats_bshape _ _ F) as [B B'].
    destruct (op_array_total (fun _ _ => tt) g a Hf If F3 B') as (h & E & Hs & Ha & Hat & Hto & _).
    unfold field_op_array, wrap_op2 in E. change (length (a_shape (f_data g))) with (length (f_shape g)) in E.
    assert (Ec : op2_entries None (Some (f_top g)) (length (a_shape a)) (length (f_shape g)) = op2_entries (Some (f_top g)) None (length (f_shape g)) (length (a_shape a))) by reflexivity.
    rewrite Ec. destruct (op2_entries _ _ _ _) as [es|]; cbn [bind] in E; [|discriminate].
    apply bind_ok in E as (c & Ec' & E). apply field_of_ok in E as (Dh & _ & Ax & Ml' & _). cbn [rmap]. rewrite Ha in Ax.
    destruct (entries_lists es (f_axes g) Ax) as [-> Le]. exists (f_axes g), (map (fun e => snd (fst e)) es), (map snd es), (f_shape g).
    split; [reflexivity|]. split; [exact B|]. rewrite !map_length. do 4 (split; [auto|]). split.
    + intro j. symmetry. now apply repeats_joint.
    + intro j. rewrite NR. reflexivity.
  - destruct Sy as (Hf & If & F3). destruct (One g Hf F3) as (M & O1 & O2 & O3). cbn [props2 shape_of axes_at].
    exists (f_axes g), (f_ats g), (f_tao g), (f_shape g). split; [reflexivity|]. split; [unfold bshape; cbn [rev bshape_rev rmap]; now rewrite rev_involutive|].
    do 4 (split; [auto|]). split; intro j; [now rewrite (from_end_none []) by (cbn; lia)|now rewrite NR].
Qed.

(** * Calls *)
Lemma unwrap_sound {V} (o : operand V) : sound o -> exists a, unwrap o = Ok a /\ a_shape a = shape_of o /\
  forall idx, (length (shape_of o) <= length idx)%nat -> contributes o idx (a_at a (bidx (a_shape a) idx)).
Proof.
  destruct o as [f|a|x|b]; intro S; [| | |destruct S]; (eexists; split; [reflexivity|]; split; [reflexivity|]); intros idx L.
  - exists (bidx (f_shape f) idx). split; [now apply bidx_operand|reflexivity].
  - exists (bidx (a_shape a) idx). split; [now apply bidx_operand|reflexivity].
  - reflexivity.
Qed.
Lemma sound_handled {V} (o : operand V) : sound o -> handled o = true /\ disables o = false.
Proof. destruct o; cbn; tauto. Qed.
Lemma fill_fields {V} (u : ufunc V) sh arrs nm un axes ats tao : map ax_len axes = sh -> (length axes <= 3)%nat ->
  mapM (fun r => field_of r nm un (map Some axes) ats tao) (np_fill u sh arrs) =
  Ok (map (fun r => mkField r (mkLayer axes ats tao nm un) []) (np_fill u sh arrs)).
Proof.
  intros M L. unfold np_fill. induction (seq 0 (u_nout u)) as [|k l IH]; [reflexivity|]. cbn [map mapM].
  rewrite field_of_total by assumption. cbn [bind]. rewrite IH. reflexivity.
Qed.
Lemma fill_length {V} (u : ufunc V) sh arrs : length (np_fill u sh arrs) = u_nout u.
Proof. unfold np_fill. now rewrite map_length, seq_length. Qed.
Lemma fill_nth {V} (u : ufunc V) sh arrs k r : nth_error (np_fill u sh arrs) k = Some r ->
  r = mkarr sh (fun idx => u_fun u k (map (fun a => a_at a (bidx (a_shape a) idx)) arrs)).
Proof.
  unfold np_fill. rewrite nth_error_map. destruct (nth_error (seq 0 (u_nout u)) k) as [m|] eqn:E; [|discriminate]. intros [= <-].
  pose proof (nth_error_lt _ _ _ E) as L. rewrite seq_length in L. rewrite (nth_error_nth' _ 0%nat) in E by (rewrite seq_length; exact L).
  rewrite seq_nth in E by exact L. injection E as <-. reflexivity.
Qed.
Lemma lengths_consistent {V} (r : nda V) axes ats tao nm un : map ax_len axes = a_shape r -> length ats = length axes -> length tao = length axes ->
  consistent (mkField r (mkLayer axes ats tao nm un) []).
Proof.
  intros M L1 L2. assert (La : length axes = length (a_shape r)) by (rewrite <- M; now rewrite map_length).
  apply map_consistent; unfold f_axes, f_shape, f_ats, f_tao; cbn [f_top f_data l_axes l_ats l_tao]; congruence.
Qed.
Lemma shape_le {V} (o : operand V) sh other : (forall j, from_end sh j = joint_len (from_end (shape_of o) j) (from_end other j)) \/
  (forall j, from_end sh j = joint_len (from_end other j) (from_end (shape_of o) j)) -> (length (shape_of o) <= length sh)%nat.
Proof.
  intro H. destruct (Nat.le_gt_cases (length (shape_of o)) (length sh)) as [|L]; [assumption|]. exfalso.
  destruct (from_end_some (shape_of o) (length sh) L) as [z Hz].
  destruct H as [H|H]; specialize (H (length sh)); rewrite from_end_none in H by lia; rewrite Hz in H; destruct (from_end other (length sh)); discriminate.
Qed.
Lemma call_two {V} (u : ufunc V) x y : u_nin u = 2%nat -> sound x -> sound y -> fit x y ->
  exists hs, call_ufunc u MCall [x; y] [] = Ok (RFields hs) /\ length hs = u_nout u /\
    forall k h, nth_error hs k = Some h -> consistent h /\ f_inner h = [] /\
      (forall j, from_end (f_shape h) j = joint_len (from_end (shape_of x) j) (from_end (shape_of y) j)) /\
      (forall j, from_end (f_axes h) j = joint_axis (from_end (axes_at x) j) (from_end (axes_at y) j)) /\
      (forall idx, in_shape (f_shape h) idx = true ->
         exists v w, contributes x idx v /\ contributes y idx w /\ a_at (f_data h) idx = u_fun u k [v; w]) /\
      (forall f, first_of x y f -> l_name (f_top h) = l_name (f_top f) /\ l_unit (f_top h) = l_unit (f_top f)).
Proof.
  intros N Sx Sy F. destruct (props2_total x y Sx Sy F) as (axes & ats & tao & sh & P & J & M & L3 & La & Lt & Hs & Ha).
  destruct (unwrap_sound x Sx) as (a & Ua & Aa & Ca). destruct (unwrap_sound y Sy) as (b & Ub & Ab & Cb).
  destruct (sound_handled x Sx) as [Hx Dx]. destruct (sound_handled y Sy) as [Hy Dy].
  assert (FF : exists self, first_field [x; y] = Some self /\ forall f, first_of x y f -> self = f).
  { destruct x as [f| | |]; cbn [first_field].
    - exists f. split; [reflexivity|]. intros g [[= ->]|[C _]]; [reflexivity|]. exfalso. apply C. now exists f.
    - destruct y as [g| | |]; try (exfalso; exact F). exists g. split; [reflexivity|]. intros h [[=]|[_ [= ->]]]; reflexivity.
    - destruct y as [g| | |]; try (exfalso; exact F). exists g. split; [reflexivity|]. intros h [[=]|[_ [= ->]]]; reflexivity.
    - destruct Sx. }
  destruct FF as (self & FF & Fn).
  unfold call_ufunc. cbn [length num_inputs]. rewrite N. cbn [Nat.eqb negb app existsb]. rewrite Dx, Dy. cbn [orb]. rewrite FF.
  unfold array_ufunc. cbn [app forallb]. rewrite Hx, Hy. cbn [andb result_props]. rewrite P. cbn [bind mapM]. rewrite Ua, Ub. cbn [bind np_method].
  unfold np_call. cbn [map]. rewrite Aa, Ab, J. cbn [bind lists].
  rewrite (fill_fields u sh [a; b] _ _ axes ats tao M L3). cbn [bind]. eexists. split; [reflexivity|]. rewrite map_length, fill_length. split; [reflexivity|].
  intros k h Hk. rewrite nth_error_map in Hk. destruct (nth_error (np_fill u sh [a; b]) k) as [r|] eqn:Er; [|discriminate]. injection Hk as <-.
  apply fill_nth in Er. subst r. split; [now apply lengths_consistent|]. split; [reflexivity|]. split; [exact Hs|]. split; [exact Ha|]. split.
  - intros idx Hi. apply in_shape_length in Hi. unfold f_shape in Hi. cbn [f_data a_shape] in Hi.
    exists (a_at a (bidx (a_shape a) idx)), (a_at b (bidx (a_shape b) idx)).
    split; [apply Ca; rewrite Hi; apply (shape_le x sh (shape_of y)); now left|]. split; [apply Cb; rewrite Hi; apply (shape_le y sh (shape_of x)); now right|]. reflexivity.
  - intros f Hf. rewrite <- (Fn f Hf). split; reflexivity.
Qed.
Lemma operator_two {V} (u : ufunc V) x y : u_nin u = 2%nat -> u_nout u = 1%nat -> sound x -> sound y -> fit x y ->
  exists h, binary_operator u x y = Ok (RFields [h]) /\ consistent h /\
    (forall j, from_end (f_shape h) j = joint_len (from_end (shape_of x) j) (from_end (shape_of y) j)) /\
    (forall j, from_end (f_axes h) j = joint_axis (from_end (axes_at x) j) (from_end (axes_at y) j)) /\
    (forall idx, in_shape (f_shape h) idx = true ->
       exists v w, contributes x idx v /\ contributes y idx w /\ a_at (f_data h) idx = u_fun u 0%nat [v; w]) /\
    (forall f, first_of x y f -> l_name (f_top h) = l_name (f_top f) /\ l_unit (f_top h) = l_unit (f_top f)).
Proof.
  intros N M Sx Sy F. destruct (call_two u x y N Sx Sy F) as (hs & E & L & H). rewrite M in L. destruct hs as [|h [|]]; try discriminate.
  exists h. split; [|destruct (H 0%nat h eq_refl) as (A & _ & B); exact (conj A B)].
  rewrite <- E. destruct x as [f|a|a|]; destruct y as [g|b|b|]; try reflexivity; try (exfalso; exact F); exfalso; (exact Sx || exact Sy).
Qed.
Lemma bidx_in sh idx : in_shape sh idx = true -> bidx sh idx = idx.
Proof.
  intro Hi. pose proof (in_shape_length _ _ Hi) as Li. destruct (bidx_operand sh idx ltac:(lia)) as [LB O].
  apply from_end_ext. intro j.
  destruct (Nat.lt_ge_cases j (length idx)) as [Hj|Hj]; [|rewrite (from_end_none idx) by lia; apply from_end_none; rewrite LB, <- Li; exact Hj].
  destruct (from_end_some idx j Hj) as [q Hq]. destruct (from_end_some sh j) as [n Hn]; [rewrite <- Li; exact Hj|].
  rewrite (O j n q Hn Hq), Hq. destruct (Z.eqb_spec n 1) as [->|]; [|reflexivity]. f_equal.
  assert (Hb : (0 <= q < 1)%Z); [|lia]. apply in_shape_spec in Hi. unfold from_end in *.
  assert (G : Forall2 (fun n i => 0 <= i < n)%Z (rev sh) (rev idx)).
  { clear - Hi. induction Hi; [constructor|]. cbn [rev]. apply Forall2_app; [assumption|repeat constructor; lia]. }
  clear - G Hq Hn. revert j Hq Hn. induction G as [|a b l m Hab G IH]; intros [|j] Hq Hn; try discriminate; [|exact (IH j Hq Hn)].
  cbn in Hq, Hn. injection Hq as ->. injection Hn as ->. exact Hab.
Qed.
(** functions of one argument *)
Lemma call_one {V} (u : ufunc V) f : u_nin u = 1%nat -> consistent f -> (length (f_shape f) <= 3)%nat ->
  exists hs, call_ufunc u MCall [AField f] [] = Ok (RFields hs) /\ length hs = u_nout u /\
    forall k h, nth_error hs k = Some h -> f_shape h = f_shape f /\ f_axes h = f_axes f /\ f_ats h = f_ats f /\ f_tao h = f_tao f /\
      l_name (f_top h) = l_name (f_top f) /\ l_unit (f_top h) = l_unit (f_top f) /\
      forall idx, in_shape (f_shape f) idx = true -> a_at (f_data h) idx = u_fun u k [a_at (f_data f) idx].
Proof.
  intros N Hf L. unfold call_ufunc. cbn [length num_inputs]. rewrite N. cbn [Nat.eqb negb app existsb disables orb first_field].
  unfold array_ufunc. cbn [app forallb handled andb result_props bind mapM unwrap np_method]. unfold np_call. cbn [map]. rewrite join1. cbn [bind props_of].
  rewrite (fill_fields u (a_shape (f_data f)) [f_data f]); [|now apply consistent_map|destruct Hf as (-> & _); exact L].
  cbn [bind]. eexists. split; [reflexivity|]. rewrite map_length, fill_length. split; [reflexivity|].
  intros k h Hk. rewrite nth_error_map in Hk. destruct (nth_error (np_fill u _ _) k) as [r|] eqn:Er; [|discriminate]. injection Hk as <-.
  apply fill_nth in Er. subst r. do 6 (split; [reflexivity|]). intros idx Hi. cbn [f_data a_at map].
  change (a_shape (f_data f)) with (f_shape f). now rewrite (bidx_in _ _ Hi).
Qed.

(** * In place *)
Lemma bshape_err s t e : bshape s t = Err e -> e = ValueError.
Proof.
  unfold bshape. assert (G : forall a b e, bshape_rev a b = Err e -> e = ValueError).
  { induction a as [|x a IH]; intros [|y b] e'; cbn [bshape_rev]; try discriminate. destruct (x =? y)%Z; [|destruct (x =? 1)%Z; [|destruct (y =? 1)%Z]]; cbn [bind].
    1-3: (destruct (bshape_rev a b) as [|e''] eqn:E; cbn [bind]; [discriminate|]; intros [= <-]; exact (IH _ _ E)).
    intros [= <-]. reflexivity. }
  destruct (bshape_rev (rev s) (rev t)) as [|e'] eqn:E; cbn [rmap]; [discriminate|]. intros [= <-]. exact (G _ _ _ E).
Qed.
Lemma three_shapes s t : (repeats_to t s -> (let! r := bshape t s in bshape s r) = Ok s) /\
  (forall sh, (let! r := bshape t s in bshape s r) = Ok sh -> sh = s -> repeats_to t s).
Proof.
  split.
  - intro H. destruct (repeats_bshape _ _ H) as [-> _]. cbn [bind]. exact (proj1 (repeats_bshape s s (repeats_refl s))).
  - intros sh H ->. apply bind_ok in H as (r & Hr & H). destruct (bshape_fits _ _ (bshape_ok_fits _ _ _ Hr)) as (r' & Er & Jr). rewrite Hr in Er. injection Er as <-.
    destruct (bshape_fits _ _ (bshape_ok_fits _ _ _ H)) as (s' & Es & Js). rewrite H in Es. injection Es as <-. split.
    + destruct (Nat.le_gt_cases (length t) (length s)) as [|L]; [assumption|]. exfalso. destruct (from_end_some t (length s) L) as [z Hz].
      specialize (Js (length s)). specialize (Jr (length s)). rewrite Hz in Jr. rewrite (from_end_none s) in * by lia. rewrite Jr in Js. discriminate.
    + intros j a b Ha Hb. specialize (Jr j). specialize (Js j). rewrite Ha, Hb in Jr. rewrite Hb, Jr in Js. cbn in Js.
      destruct (bshape_ok_fits _ _ _ Hr j a b Ha Hb) as [|[|E]]; [auto|auto|]. subst b. cbn in Js. destruct (Z.eqb_spec a 1); [auto|left; congruence].
Qed.
Lemma three_err s t e : (let! r := bshape t s in bshape s r) = Err e -> e = ValueError.
Proof. destruct (bshape t s) eqn:E; cbn [bind]; intro H; [exact (bshape_err _ _ _ H)|]. injection H as <-. exact (bshape_err _ _ _ E). Qed.
Lemma inplace_law {V} (u : ufunc V) f y : u_nin u = 2%nat -> u_nout u = 1%nat -> sound y ->
  (repeats_to (shape_of y) (f_shape f) -> exists g, inplace_operator u f y = Ok g /\ f_shape g = f_shape f /\ f_top g = f_top f /\ f_inner g = f_inner f /\
     forall idx, in_shape (f_shape f) idx = true -> exists w, contributes y idx w /\ a_at (f_data g) idx = u_fun u 0%nat [a_at (f_data f) idx; w]) /\
  (~ repeats_to (shape_of y) (f_shape f) -> inplace_operator u f y = Err ValueError).
Proof.
  intros N M Sy. destruct (unwrap_sound y Sy) as (b & Ub & Ab & Cb). destruct (sound_handled y Sy) as [Hy Dy].
  unfold inplace_operator, call_ufunc. cbn [length num_inputs]. rewrite N. cbn [Nat.eqb negb app existsb disables orb]. rewrite Dy. cbn [orb first_field].
  unfold array_ufunc. cbn [app forallb handled andb]. rewrite Hy. cbn [andb mapM unwrap bind]. rewrite Ub. cbn [bind].
  unfold np_into. cbn [length]. rewrite M. cbn [Nat.eqb negb app map join_shapes]. rewrite Ab. change (a_shape (f_data f)) with (f_shape f).
  cbn [bind]. rewrite bshape_nil_r. cbn [bind]. destruct (three_shapes (f_shape f) (shape_of y)) as [T1 T2].
  pose proof (three_err (f_shape f) (shape_of y)) as T3. cbn [bind] in T1, T2, T3.
  destruct (let! r := bshape (shape_of y) (f_shape f) in bshape (f_shape f) r) as [sh|e]; cbn [bind].
  - unfold np_fill. rewrite M. cbn [seq map combine forallb fst snd a_shape andb].
    destruct (idx_eqb sh (a_shape (f_data f))) eqn:E; cbn [andb bind].
    + apply idx_eqb_eq in E. split; [|intro C; exfalso; apply C, (T2 sh); [reflexivity|exact E]]. intros R. eexists. split; [reflexivity|]. subst sh.
      do 3 (split; [reflexivity|]). intros idx Hi. exists (a_at b (bidx (a_shape b) idx)).
      pose proof (in_shape_length _ _ Hi) as Li. split; [apply Cb; rewrite Li; apply R|]. cbn [f_data a_at]. change (a_shape (f_data f)) with (f_shape f). now rewrite (bidx_in _ _ Hi).
    + split; [|reflexivity]. intro R. exfalso. specialize (T1 R). injection T1 as ->. assert (idx_eqb (f_shape f) (f_shape f) = true) by (now apply idx_eqb_eq). unfold f_shape in *. congruence.
  - split; [intro R; discriminate (T1 R)|]. intros _. f_equal. now apply T3.
Qed.
(** f op= y holds what f op y gives *)
Lemma inplace_operator_same {V} (u : ufunc V) f y g : u_nin u = 2%nat -> u_nout u = 1%nat -> sound (AField f) -> sound y ->
  inplace_operator u f y = Ok g ->
  exists h, binary_operator u (AField f) y = Ok (RFields [h]) /\ f_shape h = f_shape g /\ f_axes h = f_axes g /\
    l_name (f_top h) = l_name (f_top g) /\ l_unit (f_top h) = l_unit (f_top g) /\
    forall idx, in_shape (f_shape g) idx = true -> a_at (f_data h) idx = a_at (f_data g) idx.
Proof.
  intros N M Sf Sy E. destruct (inplace_law u f y N M Sy) as [I1 I2].
  assert (R : repeats_to (shape_of y) (f_shape f)).
  { unfold inplace_operator, call_ufunc in E. destruct (unwrap_sound y Sy) as (b & Ub & Ab & Cb). destruct (sound_handled y Sy) as [Hy Dy].
    cbn [length num_inputs] in E. rewrite N in E. cbn [Nat.eqb negb app existsb disables orb] in E. rewrite Dy in E. cbn [orb first_field] in E.
    unfold array_ufunc in E. cbn [app forallb handled andb] in E. rewrite Hy in E. cbn [andb mapM unwrap bind] in E. rewrite Ub in E. cbn [bind] in E.
    unfold np_into in E. cbn [length] in E. rewrite M in E. cbn [Nat.eqb negb app map join_shapes] in E. rewrite Ab in E. change (a_shape (f_data f)) with (f_shape f) in E.
    cbn [bind] in E. rewrite bshape_nil_r in E. cbn [bind] in E. destruct (three_shapes (f_shape f) (shape_of y)) as [T1 T2]. cbn [bind] in T2.
    destruct (let! r := bshape (shape_of y) (f_shape f) in bshape (f_shape f) r) as [sh|e]; cbn [bind] in E; [|discriminate].
    unfold np_fill in E. rewrite M in E. cbn [seq map combine forallb fst snd a_shape andb] in E.
    destruct (idx_eqb sh (a_shape (f_data f))) eqn:Es; cbn [andb bind] in E; [|discriminate]. apply idx_eqb_eq in Es. exact (T2 sh eq_refl Es). }
  destruct (I1 R) as (g' & E' & Sg & Tg & _ & Vg). rewrite E in E'. injection E' as <-. 
  assert (F : fit (AField f) y) by (destruct y; [now apply broadcastable_sym, repeats_fits|exact R|exact R|destruct Sy]).
  destruct (operator_two u (AField f) y N M Sf Sy F) as (h & Eh & Hc & Hs & Ha & Hv & Hn). exists h. split; [exact Eh|].
  assert (Sh : f_shape h = f_shape g).
  { rewrite Sg. apply from_end_ext. intro j. rewrite Hs. cbn [shape_of]. now apply repeats_joint. }
  split; [exact Sh|]. split.
  { unfold f_axes at 2. rewrite Tg. apply from_end_ext. intro j. rewrite Ha. cbn [axes_at]. change (l_axes (f_top f)) with (f_axes f).
    destruct y as [k| | |]; cbn [axes_at]; [|rewrite (from_end_none []) by (cbn; lia); destruct (from_end (f_axes f) j); reflexivity..].
    destruct Sf as (Cf & _), Sy as (Ck & _). pose proof (consistent_map f Cf) as Mf. pose proof (consistent_map k Ck) as Mk. destruct R as [RL R]. cbn [shape_of] in *.
    destruct (from_end (f_axes f) j) as [p|] eqn:Ep, (from_end (f_axes k) j) as [q|] eqn:Eq; try reflexivity.
    - cbn. f_equal. assert (H : ax_len q = ax_len p \/ ax_len q = 1%Z).
      { apply (R j); [rewrite <- Mk|rewrite <- Mf]; rewrite from_end_map, ?Ep, ?Eq; reflexivity. }
      destruct (Z.eqb_spec (ax_len p) 1), (Z.eqb_spec (ax_len q) 1); cbn [andb negb]; try reflexivity. lia.
    - exfalso. apply from_end_lt in Eq. destruct Cf as (Lf & _), Ck as (Lk & _). destruct (from_end_some (f_axes f) j) as [z Hz]; [lia|congruence]. }
  destruct (Hn f (or_introl eq_refl)) as [Nm Un]. rewrite Tg. split; [exact Nm|]. split; [exact Un|].
  intros idx Hi. destruct (Hv idx) as (v & w & Cv & Cw & ->); [now rewrite Sh|]. rewrite Sg in Hi. destruct (Vg idx Hi) as (w' & Cw' & ->).
  assert (U : forall s i i', operand_index s idx i -> operand_index s idx i' -> (length s <= length idx)%nat -> i = i').
  { intros s i i' [L O] [L' O'] Ls. apply from_end_ext. intro j. destruct (Nat.lt_ge_cases j (length s)) as [Hj|Hj]; [|rewrite !from_end_none by lia; reflexivity].
    destruct (from_end_some s j Hj) as [n Hn']. destruct (from_end_some idx j) as [q Hq]; [lia|]. now rewrite (O j n q Hn' Hq), (O' j n q Hn' Hq). }
  pose proof (in_shape_length _ _ Hi) as Li. cbn [contributes] in Cv. destruct Cv as (i & Oi & ->).
  assert (i = idx) as ->. { rewrite <- (bidx_in _ _ Hi). apply (U (f_shape f)); [exact Oi|now apply bidx_operand; lia|lia]. }
  assert (w = w') as ->; [|reflexivity]. destruct R as [RL _].
  destruct y as [k|b|x|]; cbn [contributes shape_of] in *; [| | |destruct Sy].
  - destruct Cw as (i1 & O1 & ->), Cw' as (i2 & O2 & ->). f_equal. apply (U (f_shape k)); [exact O1|exact O2|lia].
  - destruct Cw as (i1 & O1 & ->), Cw' as (i2 & O2 & ->). f_equal. apply (U (a_shape b)); [exact O1|exact O2|lia].
  - congruence.
Qed.
