(** Lemmas about sharing between Field objects. *)
From Coq Require Import Lia.
From Verif Require Import PyBase PyBaseFacts NumpyModel AxisModel NdModel NdFacts FieldModel HeapModel HeapSpec.
Local Open Scope nat_scope.

Lemma get_ok {A} (l : list A) k : k < length l -> exists x, get l k = Ok x /\ nth_error l k = Some x.
Proof. intro H. unfold get. destruct (nth_error l k) eqn:E; [eauto|]. apply nth_error_None in E. lia. Qed.
Lemma get_some {A} (l : list A) k x : get l k = Ok x -> nth_error l k = Some x.
Proof. unfold get. destruct (nth_error l k); [now intros [= ->]|discriminate]. Qed.
Lemma some_get {A} (l : list A) k x : nth_error l k = Some x -> get l k = Ok x.
Proof. unfold get. now intros ->. Qed.
Lemma get_lt {A} (l : list A) k x : get l k = Ok x -> k < length l.
Proof. intro H. apply get_some in H. apply nth_error_Some. congruence. Qed.
Lemma get_app {A} (l m : list A) k : k < length l -> get (l ++ m) k = get l k.
Proof. intro H. unfold get. now rewrite nth_error_app1. Qed.
Lemma get_upd_other {A} (l : list A) k j x : j <> k -> get (upd l k x) j = get l j.
Proof. intro N. unfold get. rewrite nth_error_upd. destruct (Nat.eqb_spec j k); [congruence|reflexivity]. Qed.

(** all references of an object are valid *)
Definition ok_obj (w : world) (o : obj) : Prop :=
  o_block o < length (w_blocks w) /\ o_axes o < length (w_axes w) /\ o_ats o < length (w_ats w) /\ o_tao o < length (w_tao w).
Definition all_ok (w : world) : Prop := forall x o, nth_error (w_objs w) x = Some o -> ok_obj w o.
(** nothing that exists is touched *)
Definition grows (w w' : world) : Prop :=
  (exists l, w_blocks w' = w_blocks w ++ l) /\ (exists l, w_axes w' = w_axes w ++ l) /\ (exists l, w_ats w' = w_ats w ++ l) /\ (exists l, w_tao w' = w_tao w ++ l).
Lemma value_unfold w x o : nth_error (w_objs w) x = Some o -> value w x = (let! a := matrix_of w o in let! l := layer_of w o in Ok (mkField a l [])).
Proof. intro H. unfold value. now rewrite (some_get _ _ _ H). Qed.
Lemma layer_grows w w' o : ok_obj w o -> grows w w' -> layer_of w' o = layer_of w o /\ matrix_of w' o = matrix_of w o.
Proof.
  intros (H1 & H2 & H3 & H4) ((l1 & E1) & (l2 & E2) & (l3 & E3) & (l4 & E4)). unfold layer_of, matrix_of. rewrite E1, E2, E3, E4, !get_app by assumption. split; reflexivity.
Qed.
Lemma value_ok w x : all_ok w -> exists_in w x -> exists f, value w x = Ok f.
Proof.
  intros A E. destruct (get_ok (w_objs w) x E) as (o & Ho & No). destruct (A x o No) as (H1 & H2 & H3 & H4). unfold value. rewrite Ho. cbn [bind]. unfold matrix_of, layer_of.
  destruct (get_ok _ _ H1) as (b & -> & _), (get_ok _ _ H2) as (ax & -> & _), (get_ok _ _ H3) as (s & -> & _), (get_ok _ _ H4) as (t & -> & _). cbn. eauto.
Qed.

(** * The two shapes of a command *)
(** a new object is put at the end; whatever exists is kept *)
Definition creates (w w' : world) (o : obj) : Prop := w_objs w' = w_objs w ++ [o] /\ grows w w' /\ ok_obj w' o.
Lemma grows_refl w : grows w w.
Proof. repeat split; exists []; now rewrite app_nil_r. Qed.
Lemma alloc_field_creates w f : exists o, creates w (fst (alloc_field w f)) o /\ snd (alloc_field w f) = length (w_objs w) /\
  o_block o = length (w_blocks w) /\ o_axes o = length (w_axes w) /\ o_ats o = length (w_ats w) /\ o_tao o = length (w_tao w) /\ matrix_of (fst (alloc_field w f)) o = Ok (read_view (f_data f) (whole (f_shape f))) /\ layer_of (fst (alloc_field w f)) o = Ok (f_top f).
Proof.
  unfold alloc_field. cbn [fst snd]. eexists. split; [split; [reflexivity|]; split; [repeat split; eexists; reflexivity|]|].
  - unfold ok_obj. cbn. rewrite !app_length. cbn. lia.
  - repeat (split; [reflexivity|]). unfold matrix_of, layer_of, get. cbn [w_blocks w_axes w_ats w_tao o_block o_axes o_ats o_tao]. rewrite !nth_error_app2, !Nat.sub_diag by lia. cbn. split; [reflexivity|]. unfold f_axes, f_ats, f_tao; now destruct (f_top f).
Qed.
Lemma alloc_view_creates w b v l : b < length (w_blocks w) -> exists o, creates w (fst (alloc_view w b v l)) o /\ snd (alloc_view w b v l) = length (w_objs w) /\
  o_block o = b /\ o_view o = v /\ o_axes o = length (w_axes w) /\ o_ats o = length (w_ats w) /\ o_tao o = length (w_tao w) /\ layer_of (fst (alloc_view w b v l)) o = Ok l /\ w_blocks (fst (alloc_view w b v l)) = w_blocks w.
Proof.
  intro B. unfold alloc_view. cbn [fst snd]. eexists. split; [split; [reflexivity|]; split; [repeat split; eexists; cbn; [symmetry; apply app_nil_r|reflexivity..]|]|].
  - unfold ok_obj. cbn. rewrite !app_length. cbn. lia.
  - repeat (split; [reflexivity|]). split; [|reflexivity]. unfold layer_of, get. cbn [w_axes w_ats w_tao o_axes o_ats o_tao]. rewrite !nth_error_app2, !Nat.sub_diag by lia. cbn. now destruct l.
Qed.
Lemma alloc_keep_creates w f s t : s < length (w_ats w) -> t < length (w_tao w) -> exists o, creates w (fst (alloc_keep w f s t)) o /\ snd (alloc_keep w f s t) = length (w_objs w) /\
  o_block o = length (w_blocks w) /\ o_axes o = length (w_axes w) /\ o_ats o = s /\ o_tao o = t /\ matrix_of (fst (alloc_keep w f s t)) o = Ok (read_view (f_data f) (whole (f_shape f))).
Proof.
  intros Hs Ht. unfold alloc_keep. cbn [fst snd]. eexists. split; [split; [reflexivity|]; split; [repeat split; eexists; cbn; [reflexivity|reflexivity|symmetry; apply app_nil_r..]|]|].
  - unfold ok_obj. cbn. rewrite !app_length. cbn. lia.
  - repeat (split; [reflexivity|]). unfold matrix_of, get. cbn [w_blocks o_block]. rewrite nth_error_app2, Nat.sub_diag by lia. reflexivity.
Qed.
(** relation between the references of a new object and those of the old ones *)
Definition fresh_axes (w : world) (o : obj) : Prop := o_axes o = length (w_axes w).
Definition fresh_lists (w : world) (o : obj) : Prop := o_ats o = length (w_ats w) /\ o_tao o = length (w_tao w).
Definition same_lists (w : world) (o : obj) (x : nat) : Prop := exists ox, nth_error (w_objs w) x = Some ox /\ o_ats o = o_ats ox /\ o_tao o = o_tao ox.
Definition fresh_block (w : world) (o : obj) : Prop := length (w_blocks w) <= o_block o.
Definition same_block (w : world) (o : obj) (x : nat) : Prop := exists ox, nth_error (w_objs w) x = Some ox /\ o_block o = o_block ox.
(** what every command does: nothing new (atleast_nd, already large enough), a new object, or a modification *)
Inductive effect (c : cmd) (w w' : world) (r : nat) : Prop :=
| eff_same : w' = w -> r < length (w_objs w) -> target c = None /\ data_source c = Some r -> effect c w w' r
| eff_new o : target c = None -> creates w w' o -> r = length (w_objs w) -> fresh_axes w o ->
    (fresh_lists w o \/ exists x, list_source c = Some x /\ same_lists w o x) -> (fresh_block w o \/ exists x, data_source c = Some x /\ same_block w o x) -> effect c w w' r
| eff_block x o b : target c = Some x -> r = x -> nth_error (w_objs w) x = Some o -> w' = with_blocks w (upd (w_blocks w) (o_block o) b) -> effect c w w' r
| eff_axes x o l : target c = Some x -> r = x -> nth_error (w_objs w) x = Some o -> w' = mkworld (w_objs w) (w_blocks w) (upd (w_axes w) (o_axes o) l) (w_ats w) (w_tao w) -> effect c w w' r
| eff_ats x o l : target c = Some x -> r = x -> nth_error (w_objs w) x = Some o -> w' = mkworld (w_objs w) (w_blocks w) (w_axes w) (upd (w_ats w) (o_ats o) l) (w_tao w) -> effect c w w' r
| eff_tao x o l : target c = Some x -> r = x -> nth_error (w_objs w) x = Some o -> w' = mkworld (w_objs w) (w_blocks w) (w_axes w) (w_ats w) (upd (w_tao w) (o_tao o) l) -> effect c w w' r
| eff_matrix x o b v : target c = Some x -> r = x -> nth_error (w_objs w) x = Some o -> grows w w' ->
    w_objs w' = upd (w_objs w) x (mkobj b v (o_axes o) (o_ats o) (o_tao o) (o_name o) (o_unit o)) -> b < length (w_blocks w') -> w_axes w' = w_axes w -> w_ats w' = w_ats w -> w_tao w' = w_tao w ->
    ((length (w_blocks w) <= b /\ (forall z y, c <> MMatrix z (AOf y))) \/ exists y, data_source c = Some y /\ exists oy, nth_error (w_objs w) y = Some oy /\ b = o_block oy) -> effect c w w' r.
Lemma set_matrix_ok w x a w' : all_ok w -> set_matrix w x a = Ok w' -> exists o b v, nth_error (w_objs w) x = Some o /\ grows w w' /\
  w_objs w' = upd (w_objs w) x (mkobj b v (o_axes o) (o_ats o) (o_tao o) (o_name o) (o_unit o)) /\ b < length (w_blocks w') /\ w_axes w' = w_axes w /\ w_ats w' = w_ats w /\ w_tao w' = w_tao w /\
  match a with AFresh m => b = length (w_blocks w) /\ w_blocks w' = w_blocks w ++ [m] /\ v = whole (a_shape m) | AOf y => w_blocks w' = w_blocks w /\ exists oy, nth_error (w_objs w) y = Some oy /\ b = o_block oy /\ v = o_view oy end.
Proof.
  intros Ok0 E. unfold set_matrix in E. apply bind_ok in E as (o & Ho & E). apply get_some in Ho. apply bind_ok in E as ([w1 [b v]] & Ea & E). destruct (negb _); [discriminate|]. injection E as <-.
  exists o, b, v. split; [exact Ho|]. destruct a as [m|y]; cbn [arg_array] in Ea.
  - injection Ea as <- <- <-. cbn. split; [repeat split; cbn; eexists; first [reflexivity|symmetry; apply app_nil_r]|]. rewrite app_length. cbn. repeat split. lia.
  - apply bind_ok in Ea as (oy & Hy & Ea). apply get_some in Hy. injection Ea as <- <- <-. cbn. split; [repeat split; cbn; exists []; now rewrite app_nil_r|]. split; [reflexivity|]. split; [exact (proj1 (Ok0 y oy Hy))|]. repeat split. exists oy. auto.
Qed.
Lemma shallow_ok w x p : all_ok w -> shallow w x = Ok p -> exists ox o, nth_error (w_objs w) x = Some ox /\ creates w (fst p) o /\ snd p = length (w_objs w) /\ o_block o = o_block ox /\ o_view o = o_view ox /\ fresh_axes w o /\ fresh_lists w o /\
  w_blocks (fst p) = w_blocks w /\ layer_of (fst p) o = layer_of w ox.
Proof.
  intros A E. unfold shallow in E. apply bind_ok in E as (ox & Ho & E). apply get_some in Ho. apply bind_ok in E as (l & El & E). injection E as <-. exists ox. destruct (alloc_view_creates w (o_block ox) (o_view ox) l (proj1 (A x ox Ho))) as (o & C & L & B1 & B2 & B3 & B4 & B5 & B6 & B7).
  exists o. unfold fresh_axes, fresh_lists. rewrite El. auto 20.
Qed.
Lemma creates_ok w w' o : all_ok w -> creates w w' o -> all_ok w'.
Proof.
  intros A (Co & Cg & Ck) z oz Hz. rewrite Co in Hz. destruct (Nat.lt_ge_cases z (length (w_objs w))) as [Lz|Lz].
  - rewrite nth_error_app1 in Hz by exact Lz. destruct (A z oz Hz) as (H1 & H2 & H3 & H4), Cg as ((l1 & G1) & (l2 & G2) & (l3 & G3) & (l4 & G4)). unfold ok_obj. rewrite G1, G2, G3, G4, !app_length. lia.
  - rewrite nth_error_app2 in Hz by exact Lz. destruct (z - length (w_objs w)) as [|[|]]; try discriminate. injection Hz as <-. exact Ck.
Qed.
Lemma run_effect spl c w w' r : all_ok w -> run spl c w = Ok (w', r) -> effect c w w' r.
Proof.
  intros A E. destruct c as [f|[|] x|x a|op x|op x y|op x a|red x ax k|v x|x keys v|op x|x a|x i ax|x i b|x i q]; cbn [run] in E.
  - injection E as <- <-. destruct (alloc_field_creates w f) as (o & C & L & B1 & B2 & B3 & B4 & _). apply (eff_new _ _ _ _ o); auto; [left; split; assumption|left; red; lia].
  - apply bind_ok in E as (f & Ef & E). injection E as <- <-. destruct (alloc_field_creates w f) as (o & C & L & B1 & B2 & B3 & B4 & _). apply (eff_new _ _ _ _ o); auto; [left; split; assumption|left; red; lia].
  - destruct (shallow_ok w x _ A E) as (ox & o & Ho & C & L & B1 & B2 & B3 & B4 & _). apply (eff_new _ _ _ _ o); auto. right. exists x. split; [reflexivity|]. exists ox. auto.
  - apply bind_ok in E as (arg & Earg & E). apply bind_ok in E as ([w1 r1] & E1 & E). apply bind_ok in E as (w2 & E2 & E). injection E as <- <-. destruct (shallow_ok w x _ A E1) as (ox & o & Ho & C & L & B1 & B2 & B3 & B4 & B5 & B6). cbn [fst snd] in *. subst r1.
    destruct C as (Co & Cg & Ck). assert (A1 := creates_ok w w1 o A (conj Co (conj Cg Ck))).
    destruct (set_matrix_ok _ _ _ _ A1 E2) as (o1 & b & v & Ho1 & G & Ob & Lb & X1 & X2 & X3 & Ar). assert (o1 = o) by (rewrite Co, nth_error_app2, Nat.sub_diag in Ho1 by lia; now injection Ho1 as <-). subst o1.
    apply (eff_new _ _ _ _ (mkobj b v (o_axes o) (o_ats o) (o_tao o) (o_name o) (o_unit o))); auto.
    + split; [|split].
      * rewrite Ob, Co. clear. induction (w_objs w) as [|z l IH]; [reflexivity|]. cbn. now rewrite IH.
      * destruct Cg as ((l1 & G1) & (l2 & G2) & (l3 & G3) & (l4 & G4)), G as ((m1 & H1) & _). split; [exists (l1 ++ m1); rewrite H1, G1; now rewrite app_assoc|]. rewrite X1, X2, X3. split; [exists l2; exact G2|]. split; [exists l3; exact G3|exists l4; exact G4].
      * destruct Ck as (K1 & K2 & K3 & K4). unfold ok_obj. cbn. rewrite X1, X2, X3. auto.
    + destruct a as [m|y]; [left; unfold fresh_block; cbn; destruct Ar as (-> & _); rewrite B5; lia|].
      destruct Ar as (_ & oy & Hy & Eb & _). cbn [arg_array] in Earg. apply bind_ok in Earg as (oy' & Hy' & _). apply get_some in Hy'. rewrite Co, nth_error_app1 in Hy by (apply nth_error_Some; congruence).
      right. exists y. split; [reflexivity|]. exists oy. auto.
  - apply bind_ok in E as (o & Ho & E). apply get_some in Ho. apply bind_ok in E as (f & Ef & E). apply bind_ok in E as (g & Eg & E). injection E as <- <-. destruct (A x o Ho) as (K1 & K2 & K3 & K4).
    destruct (alloc_keep_creates w g _ _ K3 K4) as (n & C & L & B1 & B2 & B3 & B4 & _). apply (eff_new _ _ _ _ n); auto; [right; exists x; split; [reflexivity|]; exists o; auto|left; red; lia].
  - apply bind_ok in E as (f & Ef & E). apply bind_ok in E as (g & Eg & E). apply bind_ok in E as (h & Eh & E). injection E as <- <-. destruct (alloc_field_creates w h) as (o & C & L & B1 & B2 & B3 & B4 & _). apply (eff_new _ _ _ _ o); auto; [left; split; assumption|left; red; lia].
  - apply bind_ok in E as (f & Ef & E). apply bind_ok in E as (h & Eh & E). injection E as <- <-. destruct (alloc_field_creates w h) as (o & C & L & B1 & B2 & B3 & B4 & _). apply (eff_new _ _ _ _ o); auto; [left; split; assumption|left; red; lia].
  - apply bind_ok in E as (f & Ef & E). apply bind_ok in E as (h & Eh & E). injection E as <- <-. destruct (alloc_field_creates w h) as (o & C & L & B1 & B2 & B3 & B4 & _). apply (eff_new _ _ _ _ o); auto; [left; split; assumption|left; red; lia].
  - assert (V : forall (o : obj) (q : field (list Z)), nth_error (w_objs w) x = Some o -> Ok (alloc_view w (o_block o) (f_data q) (f_top q)) = Ok (w', r) -> effect (CView v x) w w' r).
    { intros o q Ho [= <- <-]. destruct (alloc_view_creates w (o_block o) (f_data q) (f_top q) (proj1 (A x o Ho))) as (n & C & L & B1 & B2 & B3 & B4 & B5 & _). apply (eff_new _ _ _ _ n); auto; [left; split; assumption|right; exists x; split; [reflexivity|]; exists o; auto]. }
    assert (S : forall (g : field Q), Ok (alloc_field w g) = Ok (w', r) -> effect (CView v x) w w' r).
    { intros g [= <- <-]. destruct (alloc_field_creates w g) as (n & C & L & B1 & B2 & B3 & B4 & _). apply (eff_new _ _ _ _ n); auto; [left; split; assumption|left; red; lia]. }
    destruct v as [keys|axes| |n]; apply bind_ok in E as (o & Ho & E); apply get_some in Ho; apply bind_ok in E as (p & Ep & E).
    + apply bind_ok in E as (q & Eq & E). destruct (f_shape q); [apply bind_ok in E as (f & Ef & E); apply bind_ok in E as (s & Es & E); now apply S in E|now apply V in E].
    + apply bind_ok in E as (q & Eq & E). destruct (f_shape q); now apply V in E.
    + apply bind_ok in E as (q & Eq & E). destruct (f_shape q); [apply bind_ok in E as (f & Ef & E); apply bind_ok in E as (s & Es & E); now apply S in E|now apply V in E].
    + destruct (n <=? _)%Z; [injection E as <- <-; apply eff_same; [reflexivity|apply nth_error_Some; congruence|split; reflexivity]|]. apply bind_ok in E as (q & Eq & E). now apply V in E.
  - apply bind_ok in E as (o & Ho & E). apply get_some in Ho. apply bind_ok in E as (l & El & E). apply bind_ok in E as (sls & Es & E). apply bind_ok in E as (q & Eq & E). apply bind_ok in E as (b & Eb & E). injection E as <- <-. now apply (eff_block _ _ _ _ x o (write b (spots q) (fun _ => v))).
  - apply bind_ok in E as (o & Ho & E). apply get_some in Ho. apply bind_ok in E as (b & Eb & E). injection E as <- <-. now apply (eff_block _ _ _ _ x o (write b (spots (o_view o)) op)).
  - apply bind_ok in E as (w1 & E1 & E). injection E as <- <-. destruct (set_matrix_ok _ _ _ _ A E1) as (o & b & v & Ho & G & Ob & Lb & X1 & X2 & X3 & Ar). apply (eff_matrix _ _ _ _ x o b v); auto.
    destruct a as [m|y]; [left; destruct Ar as (-> & _); split; [lia|discriminate]|right; exists y; split; [reflexivity|]; destruct Ar as (_ & oy & Hy & Eb & _); exists oy; auto].
  - apply bind_ok in E as (o & Ho & E). apply get_some in Ho. apply bind_ok in E as (l & El & E). apply bind_ok in E as (l' & El' & E). injection E as <- <-. now apply (eff_axes _ _ _ _ x o l').
  - apply bind_ok in E as (o & Ho & E). apply get_some in Ho. apply bind_ok in E as (l & El & E). apply bind_ok in E as (l' & El' & E). injection E as <- <-. now apply (eff_ats _ _ _ _ x o l').
  - apply bind_ok in E as (o & Ho & E). apply get_some in Ho. apply bind_ok in E as (l & El & E). apply bind_ok in E as (l' & El' & E). injection E as <- <-. now apply (eff_tao _ _ _ _ x o l').
Qed.
