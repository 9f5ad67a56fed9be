(** The values of results. *)
From Coq Require Import Lia.
From Verif Require Import PyBase PyBaseFacts NumpyModel AxisModel NdModel NdFacts DepFacts FieldModel FieldReduceFacts HeapModel HeapSpec HeapFacts HeapLaws HeapApart.
Local Open Scope nat_scope.

(** * Views of places and views of numbers *)
Definition lift {A B} (g : A -> B) (f : field A) : field B := mkField (np_map g (f_data f)) (f_top f) (f_inner f).
Lemma getitem_lift {A B} (g : A -> B) a sls : np_getitem (np_map g a) sls = rmap (np_map g) (np_getitem a sls).
Proof. unfold np_getitem. cbn. destruct (sels_of _ _); reflexivity. Qed.
Lemma data_getitem_lift {A B} (g : A -> B) spl : forall ls a sls, data_getitem spl ls (np_map g a) sls = rmap (fun p => (fst p, np_map g (snd p))) (data_getitem spl ls a sls).
Proof.
  induction ls as [|l ls IH]; intros a sls; cbn [data_getitem]; [rewrite getitem_lift; destruct (np_getitem a sls); reflexivity|].
  cbn [np_map a_shape]. destruct (negb _); [reflexivity|]. destruct (mapM _ _) as [subs|e]; [|reflexivity]. cbn [bind]. rewrite IH. destruct (data_getitem spl ls a _) as [[inner b]|e]; [|reflexivity]. cbn [rmap bind fst snd np_map a_shape].
  destruct (pick (l_axes l) _) as [ax|e]; [|reflexivity]. cbn [bind]. destruct (set_axes _ _ _ _) as [ax'|e]; [|reflexivity]. cbn [bind]. destruct (pick (l_ats l) _) as [t|e]; [|reflexivity]. cbn [bind]. destruct (pick (l_tao l) _) as [o|e]; reflexivity.
Qed.
Lemma field_getitem_lift {A B} (g : A -> B) spl f keys : field_getitem spl (lift g f) keys = rmap (lift g) (field_getitem spl f keys).
Proof.
  unfold field_getitem. change (f_axes (lift g f)) with (f_axes f). change (f_shape (lift g f)) with (f_shape f). destruct (normalize_slices _ _ _) as [sls|e]; [|reflexivity]. cbn [bind]. cbn [lift f_data f_top f_inner]. rewrite data_getitem_lift.
  destruct (data_getitem spl _ (f_data f) sls) as [[[|l ls] b]|e]; reflexivity.
Qed.
Lemma np_transpose_lift {A B} (g : A -> B) a axes : np_transpose (np_map g a) axes = rmap (np_map g) (np_transpose a axes).
Proof. unfold np_transpose. cbn [np_map a_shape]. destruct (negb _); [reflexivity|]. destruct (mapM _ _) as [p|e]; [|reflexivity]. cbn [bind]. destruct (nodupb p); reflexivity. Qed.
Lemma data_transpose_lift {A B} (g : A -> B) : forall ls a axes, data_transpose ls (np_map g a) axes = rmap (fun p => (fst p, np_map g (snd p))) (data_transpose ls a axes).
Proof.
  induction ls as [|l ls IH]; intros a axes; cbn [data_transpose]; [rewrite np_transpose_lift; destruct (np_transpose a axes); reflexivity|].
  cbn [np_map a_shape]. repeat (rewrite IH || match goal with |- context [if ?b then _ else _] => destruct b | |- context [mapM ?f ?l] => destruct (mapM f l) end; cbn [bind rmap]; try reflexivity).
  all: try (destruct (data_transpose ls a _) as [[inner b]|e]; cbn; try reflexivity).
  all: repeat match goal with |- context [bind ?x _] => destruct x; cbn; try reflexivity end.
Qed.
Lemma field_transpose_lift {A B} (g : A -> B) f axes : field_transpose (lift g f) axes = rmap (lift g) (field_transpose f axes).
Proof.
  unfold field_transpose. change (f_shape (lift g f)) with (f_shape f). cbn [lift f_data f_top f_inner]. rewrite data_transpose_lift.
  destruct (data_transpose _ _ _) as [[[|l ls] b]|e]; reflexivity.
Qed.
Lemma field_squeeze_lift {A B} (g : A -> B) spl f : field_squeeze spl (lift g f) = rmap (lift g) (field_squeeze spl f).
Proof.
  unfold field_squeeze. change (f_shape (lift g f)) with (f_shape f). change (f_axes (lift g f)) with (f_axes f). destruct (mapM _ _) as [ones|e]; [|reflexivity]. cbn [bind]. rewrite field_getitem_lift. destruct (field_getitem spl f _) as [r|e]; [|reflexivity]. cbn [rmap bind]. change (f_shape (lift g r)) with (f_shape r). change (f_axes (lift g r)) with (f_axes r). destruct (idx_eqb _ _); reflexivity.
Qed.
Lemma add_dims_lift {A B} (g : A -> B) spl st : forall k f, add_dims spl st k (lift g f) = rmap (lift g) (add_dims spl st k f).
Proof.
  induction k as [|k IH]; intro f; cbn [add_dims]; [reflexivity|]. change (f_shape (lift g f)) with (f_shape f). change (f_inner (lift g f)) with (f_inner f). destruct (_ && _)%bool; [reflexivity|]. destruct (max_dims <=? _); [reflexivity|]. destruct (mk_axis _ _ _ _ _ _ _) as [ax|e]; [|reflexivity]. cbn [bind].
  rewrite <- IH. reflexivity.
Qed.
Lemma view_lift {A B} (g : A -> B) spl v f : apply_view spl v (lift g f) = rmap (lift g) (apply_view spl v f).
Proof.
  destruct v; cbn [apply_view]; [apply field_getitem_lift|apply field_transpose_lift|apply field_squeeze_lift|]. unfold field_atleast_nd. change (f_shape (lift g f)) with (f_shape f). destruct (n <=? _)%Z; [reflexivity|].
  change (transform_state (lift g f)) with (transform_state f). destruct (transform_state f); [|reflexivity]. cbn [bind]. apply add_dims_lift.
Qed.
(** views of plain fields are plain *)
Lemma getitem_plain {V} spl (f : field V) keys r : f_inner f = [] -> field_getitem spl f keys = Ok r -> f_inner r = [].
Proof.
  intros P E. unfold field_getitem in E. apply bind_ok in E as (sls & _ & E). rewrite P in E. apply bind_ok in E as ([ls b] & E1 & E). cbn [data_getitem] in E1. destruct (negb _); [discriminate|]. apply bind_ok in E1 as (subs & _ & E1). apply bind_ok in E1 as ([inner b'] & E2 & E1). apply bind_ok in E2 as (b2 & _ & E2). injection E2 as <- <-.
  apply bind_ok in E1 as (? & _ & E1). apply bind_ok in E1 as (? & _ & E1). apply bind_ok in E1 as (? & _ & E1). apply bind_ok in E1 as (? & _ & E1). injection E1 as <- <-. now injection E as <-.
Qed.
Lemma view_plain {V} spl v (f : field V) r : f_inner f = [] -> apply_view spl v f = Ok r -> f_inner r = [].
Proof.
  intros P E. destruct v; cbn [apply_view] in E; [exact (getitem_plain _ _ _ _ P E)| | |].
  - unfold field_transpose in E. rewrite P in E. apply bind_ok in E as ([ls b] & E1 & E). cbn [data_transpose] in E1.
    repeat (match type of E1 with (if ?b then _ else _) = _ => destruct b; [try discriminate|try discriminate] | bind _ _ = _ => apply bind_ok in E1 as (? & ? & E1) end). 
    destruct ls as [|l ls]; [discriminate|]. injection E as <-. cbn. 
    repeat match goal with p : (_ * _)%type |- _ => destruct p | H : bind _ _ = Ok _ |- _ => apply bind_ok in H as (? & ? & H) end. congruence.
  - unfold field_squeeze in E. apply bind_ok in E as (ones & _ & E). apply bind_ok in E as (r' & Er & E). destruct (idx_eqb _ _); [|discriminate]. injection E as <-. exact (getitem_plain _ _ _ _ P Er).
  - unfold field_atleast_nd in E. destruct (n <=? _)%Z; [now injection E as <-|]. apply bind_ok in E as (st & _ & E). generalize dependent f. intro f. generalize (Z.to_nat (n - dims (f_shape f))). intros k0. revert f. induction k0 as [|k IH]; intros f P E; cbn [add_dims] in E; [now injection E as <-|]. destruct (_ && _)%bool; [discriminate|]. destruct (max_dims <=? _); [discriminate|]. apply bind_ok in E as (ax & _ & E). apply IH in E; [exact E|cbn; now rewrite P].
Qed.

(** * Results *)
Lemma eta_arr {V} (a : nda V) : mkarr (a_shape a) (fun i => a_at a i) = a.
Proof. now destruct a. Qed.
Lemma nth_snoc {A} (l : list A) x : nth_error (l ++ [x]) (length l) = Some x.
Proof. rewrite nth_error_app2 by lia. now rewrite Nat.sub_diag. Qed.
Lemma alloc_field_value w f : value (fst (alloc_field w f)) (snd (alloc_field w f)) = Ok (mkField (f_data f) (f_top f) []).
Proof.
  cbn [alloc_field fst snd]. erewrite value_given; cbn; try apply nth_snoc. unfold read_view, whole. cbn [a_shape a_at o_view]. unfold f_shape. rewrite eta_arr. unfold f_axes, f_ats, f_tao. now destruct (f_top f).
Qed.
Lemma ok_inj {A} (x y : A) : Ok x = Ok y -> x = y.
Proof. congruence. Qed.
Lemma new_field w f w' r : Ok (alloc_field w f) = Ok (w', r) -> value w' r = Ok (mkField (f_data f) (f_top f) []).
Proof. intro E. apply ok_inj in E. assert (V := alloc_field_value w f). now rewrite E in V. Qed.
Lemma old_nth {A} (l m : list A) k x : nth_error l k = Some x -> nth_error (l ++ m) k = Some x.
Proof. intro H. rewrite nth_error_app1; [exact H|]. apply nth_error_Some. congruence. Qed.
Lemma alloc_view_value w b v l blk : nth_error (w_blocks w) b = Some blk -> value (fst (alloc_view w b v l)) (snd (alloc_view w b v l)) = Ok (mkField (np_map (a_at blk) v) l []).
Proof. intro H. cbn [alloc_view fst snd]. erewrite value_given; cbn; try apply nth_snoc; [|exact H]. now destruct l. Qed.
Lemma value_inv w x f : value w x = Ok f -> exists o b l, nth_error (w_objs w) x = Some o /\ nth_error (w_blocks w) (o_block o) = Some b /\ layer_of w o = Ok l /\ f = lift (a_at b) (mkField (o_view o) l []).
Proof.
  intro V. unfold value in V. apply bind_ok in V as (o & Ho & V). apply get_some in Ho. apply bind_ok in V as (a & Ha & V). apply bind_ok in V as (l & Hl & V). injection V as <-. unfold matrix_of in Ha. destruct (get (w_blocks w) (o_block o)) as [b|] eqn:G; [|discriminate]. apply get_some in G. injection Ha as <-. exists o, b, l. auto.
Qed.
Lemma layer_inv w o l : layer_of w o = Ok l -> nth_error (w_axes w) (o_axes o) = Some (l_axes l) /\ nth_error (w_ats w) (o_ats o) = Some (l_ats l) /\ nth_error (w_tao w) (o_tao o) = Some (l_tao l) /\ l_name l = o_name o /\ l_unit l = o_unit o.
Proof. intro E. unfold layer_of in E. apply bind_ok in E as (a & Ha & E). apply bind_ok in E as (s & Hs & E). apply bind_ok in E as (t & Ht & E). injection E as <-. apply get_some in Ha, Hs, Ht. auto. Qed.
Lemma value_of w x o b l : nth_error (w_objs w) x = Some o -> nth_error (w_blocks w) (o_block o) = Some b -> layer_of w o = Ok l -> value w x = Ok (lift (a_at b) (mkField (o_view o) l [])).
Proof. intros Ho Hb Hl. rewrite (value_unfold _ _ _ Ho). unfold matrix_of. rewrite (some_get _ _ _ Hb), Hl. reflexivity. Qed.
Lemma values_exist w x o : all_ok w -> nth_error (w_objs w) x = Some o -> exists f, value w x = Ok f.
Proof. intros A Ho. destruct (value_parts w x o Ho (A x o Ho)) as (b & axes & ats & tao & _ & _ & _ & _ & V). eauto. Qed.
Lemma plain f : f_inner f = [] -> mkField (f_data f) (f_top f) [] = (f : field Q).
Proof. destruct f as [d t i]. cbn. now intros ->. Qed.
Lemma value_plain w x f : value w x = Ok f -> f_inner f = [].
Proof. intro V. rewrite (value_shape _ _ _ V). reflexivity. Qed.
Lemma set_matrix_value w x a w' : all_ok w -> set_matrix w x a = Ok w' -> exists f m, value w x = Ok f /\ array_value w a = Ok m /\ value w' x = Ok (mkField m (f_top f) []) /\ a_shape m = f_shape f.
Proof.
  intros A E. unfold set_matrix in E. apply bind_ok in E as (o & Ho & E). apply get_some in Ho. apply bind_ok in E as ([w1 [b v]] & Ea & E). destruct (idx_eqb (a_shape v) (a_shape (o_view o))) eqn:Es; [|discriminate]. cbn [negb] in E. apply idx_eqb_eq in Es. injection E as <-.
  destruct (value_parts w x o Ho (A x o Ho)) as (b0 & axes & ats & tao & N1 & N2 & N3 & N4 & V). exists (mkField (read_view b0 (o_view o)) (mkLayer axes ats tao (o_name o) (o_unit o)) []).
  destruct a as [m|y]; cbn [arg_array] in Ea.
  - injection Ea as <- <- <-. exists m. split; [exact V|]. split; [reflexivity|]. split; [|unfold f_shape; cbn in *; congruence].
    erewrite value_given; cbn; [|apply (upd_at _ _ _ _ Ho)|cbn; apply nth_snoc|exact N2|exact N3|exact N4]. cbn. unfold read_view, whole. cbn [a_shape a_at]. now rewrite eta_arr.
  - apply bind_ok in Ea as (oy & Hy & Ea). apply get_some in Hy. injection Ea as <- <- <-. destruct (value_parts w y oy Hy (A y oy Hy)) as (by0 & axy & aty & tay & M1 & M2 & M3 & M4 & Vy). exists (read_view by0 (o_view oy)). split; [exact V|]. split; [cbn; now rewrite Vy|]. split; [|unfold f_shape; cbn in *; congruence].
    erewrite value_given; cbn; [|apply (upd_at _ _ _ _ Ho)|exact M1|exact N2|exact N3|exact N4]. reflexivity.
Qed.

Lemma of_plain {V} (a : nda V) nm un axs ats tao f : field_of a nm un axs ats tao = Ok f -> f_inner f = [] /\ f_ats f = ats /\ f_tao f = tao.
Proof. intro E. unfold field_of in E. destruct (_ <? _); [discriminate|]. apply bind_ok in E as (ax & _ & E). injection E as <-. auto. Qed.
Lemma op_plain {A B C} (op : A -> B -> C) ta tb la lb a b f : wrap_op2 op ta tb la lb a b = Ok f -> f_inner f = [].
Proof. intro E. unfold wrap_op2 in E. apply bind_ok in E as (es & _ & E). apply bind_ok in E as (c & _ & E). now apply of_plain in E. Qed.
Lemma reduce_plain {V} spl (red : list V -> V) f ax k g : field_reduce spl red f ax k = Ok g -> f_inner g = [].
Proof. intro E. unfold field_reduce in E. apply bind_ok in E as ([[axes ats] tao] & _ & E). apply bind_ok in E as (o & _ & E). now apply of_plain in E. Qed.
Lemma run_value spl c w w' r : all_ok w -> run spl c w = Ok (w', r) -> (forall x k v, c <> MSet x k v) -> (forall op x, c <> MInplace op x) -> value w' r = result spl w c.
Proof.
  intros A E NS NI. destruct c as [f|[|] x|x a|op x|op x y|op x a|red x ax keep|v x|x k v|op x|x a|x i ax|x i b|x i q]; cbn [run result] in *.
  - now apply new_field in E.
  - apply bind_ok in E as (f & Ef & E). apply new_field in E. rewrite E, Ef. now rewrite (plain f (value_plain _ _ _ Ef)).
  - unfold shallow in E. apply bind_ok in E as (o & Ho & E). apply get_some in Ho. apply bind_ok in E as (l & Hl & E). apply ok_inj in E. destruct (values_exist w x o A Ho) as (f & Ef). destruct (value_inv w x f Ef) as (o' & b & l' & Ho' & Hb & Hl' & ->). assert (o' = o) by congruence. subst o'. assert (l' = l) by congruence. subst l'.
    rewrite Ef. assert (V := alloc_view_value w (o_block o) (o_view o) l b Hb). rewrite E in V. exact V.
  - apply bind_ok in E as (arg & Ea & E). apply bind_ok in E as ([w1 r1] & E1 & E). apply bind_ok in E as (w2 & E2 & E). injection E as <- <-. cbn [fst snd] in *. destruct (shallow_ok w x _ A E1) as (ox & o & Ho & C & L & B1 & B2 & B3 & B4 & B5). cbn [fst snd] in *. assert (A1 := creates_ok _ _ _ A C).
    destruct (set_matrix_value w1 r1 a w2 A1 E2) as (f & m & Ef & Em & -> & _). destruct (values_exist w x ox A Ho) as (fx & Ex). rewrite Ex. cbn [bind].
    assert (Vf : f = fx). { unfold shallow in E1. rewrite (some_get _ _ _ Ho) in E1. cbn [bind] in E1. apply bind_ok in E1 as (l & Hl & E1). injection E1 as <- <-. destruct (value_inv w x fx Ex) as (o' & b & l' & Ho' & Hb & Hl' & ->). assert (o' = ox) by congruence. subst o'. assert (l' = l) by congruence. subst l'. assert (Q := alloc_view_value w (o_block ox) (o_view ox) l b Hb). cbn [alloc_view fst snd] in *. rewrite Q in Ef. now injection Ef as <-. }
    subst f. assert (Am : array_value w a = Ok m). { destruct a as [m'|y]; [exact Em|]. cbn [array_value arg_array] in *. apply bind_ok in Ea as (oy & Hy & _). apply get_some in Hy. destruct C as (Co & Cg & _). destruct (value_parts w y oy Hy (A y oy Hy)) as (b & axes & ats & tao & N1 & N2 & N3 & N4 & V). rewrite V. destruct (grown w w1 Cg) as (G1 & G2 & G3 & G4).
      rewrite (value_given w1 y oy b axes ats tao) in Em; auto. rewrite Co. now apply old_nth. }
    now rewrite Am.
  - apply bind_ok in E as (o & Ho & E). apply get_some in Ho. apply bind_ok in E as (f & Ef & E). apply bind_ok in E as (g & Eg & E). injection E as <- <-. rewrite Ef. cbn [bind]. rewrite Eg. destruct (of_plain _ _ _ _ _ _ _ Eg) as (P & Ea & Et). destruct (value_parts w x o Ho (A x o Ho)) as (b & axes & ats & tao & N1 & N2 & N3 & N4 & V). rewrite V in Ef. injection Ef as <-.
    unfold alloc_keep. erewrite value_given; cbn; try apply nth_snoc; [|exact N3|exact N4]. f_equal. rewrite <- (plain g P). unfold read_view, whole, f_shape. cbn [a_shape a_at f_data o_view]. rewrite eta_arr. f_equal. unfold f_axes, f_ats, f_tao in *. cbn in Ea, Et. subst ats tao. cbn. now destruct (f_top g).
  - apply bind_ok in E as (f & Ef & E). apply bind_ok in E as (g & Eg & E). apply bind_ok in E as (s & Es & E). apply new_field in E. rewrite E, Ef, Eg. cbn [bind]. rewrite Es. now rewrite (plain s (op_plain _ _ _ _ _ _ _ _ Es)).
  - apply bind_ok in E as (f & Ef & E). apply bind_ok in E as (s & Es & E). apply new_field in E. rewrite E, Ef. cbn [bind]. rewrite Es. now rewrite (plain s (op_plain _ _ _ _ _ _ _ _ Es)).
  - apply bind_ok in E as (f & Ef & E). apply bind_ok in E as (s & Es & E). apply new_field in E. rewrite E, Ef. cbn [bind]. rewrite Es. now rewrite (plain s (reduce_plain _ _ _ _ _ _ Es)).
  - assert (V : exists o f p b, get (w_objs w) x = Ok o /\ value w x = Ok f /\ places w x = Ok p /\ f_inner p = [] /\ nth_error (w_blocks w) (o_block o) = Some b /\ f = lift (a_at b) p /\ nth_error (w_objs w) x = Some o).
    { destruct (get (w_objs w) x) as [o|] eqn:Ho; [|destruct v; discriminate]. assert (Ho' := get_some _ _ _ Ho). destruct (values_exist w x o A Ho') as (f & Ef). destruct (value_inv w x f Ef) as (o' & b & l & Hx & Hb & Hl & ->). assert (o' = o) by congruence. subst o'. exists o, (lift (a_at b) (mkField (o_view o) l [])), (mkField (o_view o) l []), b. split; [reflexivity|]. split; [exact Ef|]. split; [unfold places; rewrite Ho; cbn [bind]; rewrite Hl; reflexivity|]. auto. }
    destruct V as (o & f & p & b & Ho & Ef & Ep & Pp & Hb & -> & Hx). rewrite Ef. cbn [bind]. 
    assert (VV : forall q, apply_view spl v p = Ok q -> value (fst (alloc_view w (o_block o) (f_data q) (f_top q))) (snd (alloc_view w (o_block o) (f_data q) (f_top q))) = apply_view spl v (lift (a_at b) p)).
    { intros q Eq. rewrite view_lift, Eq, (alloc_view_value _ _ _ _ _ Hb). cbn [rmap]. unfold lift. now rewrite (view_plain _ _ _ _ Pp Eq). }
    assert (VC : forall s, apply_view spl v (lift (a_at b) p) = Ok s -> value (fst (alloc_field w s)) (snd (alloc_field w s)) = Ok s).
    { intros s Es. rewrite alloc_field_value. rewrite plain; [reflexivity|]. apply (view_plain _ _ _ _ (Pp : f_inner (lift (a_at b) p) = []) Es). }
    assert (Gen : forall cond : bool, (let! q := apply_view spl v p in if cond then (let! f := value w x in let! s := apply_view spl v f in Ok (alloc_field w s)) else Ok (alloc_view w (o_block o) (f_data q) (f_top q))) = Ok (w', r) -> value w' r = apply_view spl v (lift (a_at b) p)).
    { intros cond E'. apply bind_ok in E' as (q & Eq & E'). destruct cond; [rewrite Ef in E'; cbn [bind] in E'; apply bind_ok in E' as (s & Es & E'); rewrite Es; specialize (VC s Es); destruct (alloc_field w s); injection E' as <- <-; exact VC|]. specialize (VV q Eq). destruct (alloc_view _ _ _ _). injection E' as <- <-. exact VV. }
    destruct v as [keys|axes| |n].
    + rewrite Ho in E. cbn [bind] in E. rewrite Ep in E. cbn [bind] in E. apply bind_ok in E as (q & Eq & E). destruct (f_shape q) eqn:Sq; [apply (Gen true)|apply (Gen false)]; rewrite Eq; exact E.
    + rewrite Ho in E. cbn [bind] in E. rewrite Ep in E. cbn [bind] in E. apply bind_ok in E as (q & Eq & E). apply (Gen false). rewrite Eq. destruct (f_shape q); exact E.
    + rewrite Ho in E. cbn [bind] in E. rewrite Ep in E. cbn [bind] in E. apply bind_ok in E as (q & Eq & E). destruct (f_shape q) eqn:Sq; [apply (Gen true)|apply (Gen false)]; rewrite Eq; exact E.
    + rewrite Ho in E. cbn [bind] in E. rewrite Ep in E. cbn [bind] in E. destruct (n <=? dims (a_shape (o_view o)))%Z eqn:En; [|apply (Gen false); exact E]. injection E as <- <-. rewrite Ef. cbn [apply_view]. unfold field_atleast_nd.
      assert (Sh : f_shape (lift (a_at b) p) = a_shape (o_view o)). { unfold places in Ep. rewrite Ho in Ep. cbn [bind] in Ep. apply bind_ok in Ep as (l & _ & Ep). injection Ep as <-. reflexivity. }
      rewrite Sh, En. reflexivity.
  - exfalso. eapply NS. reflexivity.
  - exfalso. eapply NI. reflexivity.
  - apply bind_ok in E as (w2 & E2 & E). injection E as <- <-. destruct (set_matrix_value w x a w2 A E2) as (f & m & Ef & Em & -> & _). rewrite Ef, Em. reflexivity.
  - apply bind_ok in E as (o & Ho & E). apply get_some in Ho. apply bind_ok in E as (l & El & E). apply get_some in El. apply bind_ok in E as (l' & El' & E). injection E as <- <-. destruct (value_parts w x o Ho (A x o Ho)) as (b & axes & ats & tao & N1 & N2 & N3 & N4 & V). rewrite V. cbn [bind]. assert (l = axes) by congruence. subst l. unfold f_shape, f_axes. cbn [f_top f_data l_axes read_view a_shape]. rewrite El'. cbn [bind]. erewrite value_given; cbn; [|exact Ho|exact N1|exact (upd_at _ _ _ _ N2)|exact N3|exact N4]. reflexivity.
  - apply bind_ok in E as (o & Ho & E). apply get_some in Ho. apply bind_ok in E as (l & El & E). apply get_some in El. apply bind_ok in E as (l' & El' & E). injection E as <- <-. destruct (value_parts w x o Ho (A x o Ho)) as (b0 & axes & ats & tao & N1 & N2 & N3 & N4 & V). rewrite V. cbn [bind]. assert (l = ats) by congruence. subst l. unfold f_ats. cbn [f_top f_data l_ats]. rewrite El'. cbn [bind]. erewrite value_given; cbn; [|exact Ho|exact N1|exact N2|exact (upd_at _ _ _ _ N3)|exact N4]. reflexivity.
  - apply bind_ok in E as (o & Ho & E). apply get_some in Ho. apply bind_ok in E as (l & El & E). apply get_some in El. apply bind_ok in E as (l' & El' & E). injection E as <- <-. destruct (value_parts w x o Ho (A x o Ho)) as (b0 & axes & ats & tao & N1 & N2 & N3 & N4 & V). rewrite V. cbn [bind]. assert (l = tao) by congruence. subst l. unfold f_tao. cbn [f_top f_data l_tao]. rewrite El'. cbn [bind]. erewrite value_given; cbn; [|exact Ho|exact N1|exact N2|exact N3|exact (upd_at _ _ _ _ N4)]. reflexivity.
Qed.
(** * Assignment to elements *)
Lemma write_at b l f i : a_at (write b l f) i = if existsb (idx_eqb i) l then f (a_at b i) else a_at b i.
Proof. reflexivity. Qed.
Lemma existsb_idx i l : existsb (idx_eqb i) l = true <-> In i l.
Proof. rewrite existsb_exists. split; [intros (j & H & E); apply idx_eqb_eq in E; now subst|]. intro H. exists i. split; [exact H|]. now apply idx_eqb_eq. Qed.
Lemma spots_in v i : in_shape (a_shape v) i = true -> In (a_at v i) (spots v).
Proof. intro H. unfold spots. apply in_map, all_idx_In, H. Qed.
Lemma inplace_value spl op x w w' r f : run spl (MInplace op x) w = Ok (w', r) -> value w x = Ok f -> r = x /\ exists d, value w' x = Ok (mkField d (f_top f) []) /\ a_shape d = f_shape f /\ forall i, in_shape (f_shape f) i = true -> a_at d i = op (a_at (f_data f) i).
Proof.
  intros E V. cbn [run] in E. apply bind_ok in E as (o & Ho & E). apply get_some in Ho. apply bind_ok in E as (b & Eb & E). apply get_some in Eb. injection E as <- <-. split; [reflexivity|]. destruct (value_inv w x f V) as (o' & b' & l & Ho' & Hb & Hl & ->). assert (o' = o) by congruence. subst o'. assert (b' = b) by congruence. subst b'.
  eexists. split; [eapply (value_of (with_blocks w (upd (w_blocks w) (o_block o) (write b (spots (o_view o)) op))) x o); [exact Ho|exact (upd_at _ _ _ _ Eb)|exact Hl]|]. split; [reflexivity|]. intros i Hi. cbn [lift f_data np_map a_at]. rewrite write_at. now rewrite (proj2 (existsb_idx _ _) (spots_in (o_view o) i Hi)).
Qed.
Lemma set_value spl keys v x w w' r f : run spl (MSet x keys v) w = Ok (w', r) -> value w x = Ok f ->
  r = x /\ exists d sls, value w' x = Ok (mkField d (f_top f) []) /\ a_shape d = f_shape f /\ normalize_slices (f_axes f) (f_shape f) keys = Ok sls /\
  exists s t, np_getitem d sls = Ok s /\ np_getitem (f_data f) sls = Ok t /\ a_shape s = a_shape t /\ (forall i, in_shape (a_shape s) i = true -> a_at s i = v) /\ forall i, a_at d i = v \/ a_at d i = a_at (f_data f) i.
Proof.
  intros E V. cbn [run] in E. apply bind_ok in E as (o & Ho & E). apply get_some in Ho. apply bind_ok in E as (l & Hl & E). apply bind_ok in E as (sls & Es & E). apply bind_ok in E as (q & Eq & E). apply bind_ok in E as (b & Eb & E). apply get_some in Eb. injection E as <- <-. split; [reflexivity|].
  destruct (value_inv w x f V) as (o' & b' & l' & Ho' & Hb & Hl' & ->). assert (o' = o) by congruence. subst o'. assert (b' = b) by congruence. subst b'. assert (l' = l) by congruence. subst l'.
  eexists. exists sls. split; [eapply (value_of (with_blocks w (upd (w_blocks w) (o_block o) (write b (spots q) (fun _ => v)))) x o); [exact Ho|exact (upd_at _ _ _ _ Eb)|exact Hl]|]. split; [reflexivity|]. split; [exact Es|]. cbn [lift f_data]. rewrite !getitem_lift, Eq. cbn [rmap]. eexists. eexists. split; [reflexivity|]. split; [reflexivity|]. split; [reflexivity|]. split.
  - intros i Hi. cbn [np_map a_at]. rewrite write_at. now rewrite (proj2 (existsb_idx _ _) (spots_in q i Hi)).
  - intro i. cbn [np_map a_at]. rewrite write_at. destruct (existsb _ _); auto.
Qed.
(** a field with its own array: elements not selected stay *)
Lemma set_fresh spl f w w1 x keys v w2 r d : run spl (CNew f) w = Ok (w1, x) -> run spl (MSet x keys v) w1 = Ok (w2, r) -> value w2 x = Ok d -> exists sls t, normalize_slices (f_axes f) (f_shape f) keys = Ok sls /\ np_getitem (mkarr (f_shape f) (fun i => i)) sls = Ok t /\
  forall i, a_at (f_data d) i = if existsb (idx_eqb i) (map (a_at t) (all_idx (a_shape t))) then v else a_at (f_data f) i.
Proof.
  intros E0 E V. cbn [run] in E0. injection E0 as <- <-. cbn [run] in E. apply bind_ok in E as (o & Ho & E). apply get_some in Ho. cbn [w_objs] in Ho. rewrite nth_snoc in Ho. injection Ho as <-. cbn [o_axes o_ats o_tao o_block o_view o_name o_unit] in *. apply bind_ok in E as (l & Hl & E). apply layer_inv in Hl as (La & _). cbn [w_axes o_axes] in La. rewrite nth_snoc in La. injection La as La. apply bind_ok in E as (sls & Es & E). apply bind_ok in E as (q & Eq & E). apply bind_ok in E as (b & Eb & E). apply get_some in Eb. cbn [w_blocks] in Eb. rewrite nth_snoc in Eb. injection Eb as <-. injection E as <- <-.
  exists sls, q. rewrite La. split; [exact Es|]. split; [exact Eq|]. intro i. destruct (value_inv _ _ _ V) as (o & b & l' & Ho & Hb & _ & ->). cbn in Ho. rewrite nth_snoc in Ho. injection Ho as <-. cbn in Hb. rewrite (upd_at _ _ _ _ (nth_snoc _ _)) in Hb. injection Hb as <-. reflexivity.
Qed.
Lemma reachable_value spl h w c w' r : reachable spl h w -> run spl c w = Ok (w', r) -> (forall x k v, c <> MSet x k v) -> (forall op x, c <> MInplace op x) -> value w' r = result spl w c.
Proof. intros R. exact (run_value spl c w w' r (i_ok _ _ (reachable_inv spl h w R))). Qed.
