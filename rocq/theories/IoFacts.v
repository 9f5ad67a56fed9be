(** Lemmas about files. *)
From Coq Require Import String Ascii List ZArith QArith Lia Lqa Bool.
From Verif Require Import PyBase PyBaseFacts NumpyModel NumpyFacts AxisModel AxisSpec AxisFacts NdModel NdFacts FieldModel FieldSpec FieldReduceFacts FieldIndexFacts ReaderFacts IoModel IoSpec.
Import ListNotations.
Local Close Scope Q_scope.

Lemma mapM_eq {A B} (f : A -> res B) (g : A -> B) l : (forall x, In x l -> f x = Ok (g x)) -> mapM f l = Ok (map g l).
Proof. induction l as [|x l IH]; intro H; [reflexivity|]. cbn. rewrite H by now left. cbn. rewrite IH by (intros; apply H; now right). reflexivity. Qed.
Lemma mapM_positions {A B} (f : Z -> res B) (g : A -> B) l : forall s, (forall k x, nth_error l k = Some x -> f (Z.of_nat (s + k)) = Ok (g x)) -> mapM f (map Z.of_nat (seq s (length l))) = Ok (map g l).
Proof.
  induction l as [|x l IH]; intros s H; [reflexivity|]. cbn. rewrite <- (Nat.add_0_r s) at 1. rewrite (H 0%nat x eq_refl). cbn.
  rewrite (IH (S s)); [reflexivity|]. intros k y E. replace (S s + k)%nat with (s + S k)%nat by lia. now apply H.
Qed.
Lemma mapM_zrange {A B} (f : Z -> res B) (g : A -> B) l : (forall k x, nth_error l k = Some x -> f (Z.of_nat k) = Ok (g x)) -> mapM f (zrange (Z.of_nat (length l))) = Ok (map g l).
Proof. intro H. unfold zrange. rewrite Nat2Z.id. now apply (mapM_positions f g l 0). Qed.

(** * npz *)
Lemma zmax_list_ok l : l <> [] -> exists m, zmax_list l = Ok m /\ forall x, In x l -> (x <= m)%Z.
Proof.
  induction l as [|x l IH]; intro H; [congruence|]. destruct l as [|y l]; [exists x; split; [reflexivity|]; intros z [<- | []]; lia|].
  destruct IH as (m & E & M); [discriminate|]. exists (Z.max x m). change (zmax_list (x :: y :: l)) with (let! m := zmax_list (y :: l) in Ok (Z.max x m)). rewrite E. split; [reflexivity|].
  intros z [<- | I]; [lia|]. specialize (M z I). lia.
Qed.
Lemma assign_row_ok total k vals : k = Z.of_nat (length vals) -> (k <= total)%Z -> assign_row total k vals = Ok (vals ++ repeat 0%Q (Z.to_nat total - length vals)).
Proof. intros -> H. unfold assign_row. rewrite Z.min_l, Z.max_r by lia. rewrite Nat2Z.id. now rewrite Nat.eqb_refl. Qed.
Lemma getslice_prefix {A} (l r : list A) k : k = Z.of_nat (length l) -> getslice (l ++ r) (mkslice (Some 0%Z) (Some k) None) = Ok l.
Proof. intros ->. rewrite getslice_simple by (rewrite ?app_length; lia). rewrite Z.sub_0_r, Nat2Z.id. cbn [Z.to_nat skipn]. rewrite firstn_app, firstn_all, Nat.sub_diag. cbn. now rewrite app_nil_r. Qed.
Definition reloaded (ax : axis) : axis := made (one_char (ax_name ax)) (one_char (ax_unit ax)) (ax_node ax) (ax_grid ax).
Lemma npz_round {V} spl (f : field V) : consistent f -> Forall axis_proper (f_axes f) -> f_axes f <> [] -> length (f_axes f) <= 3 ->
  exists z, export_npz f = Ok z /\ import_npz spl z = Ok (mkField (f_data f) (mkLayer (map reloaded (f_axes f)) (f_ats f) (f_tao f) (l_name (f_top f)) (l_unit (f_top f))) []).
Proof.
  intros Hc Hp Hn H3. rewrite Forall_forall in Hp. unfold export_npz.
  destruct (zmax_list_ok (map (fun ax => Z.of_nat (length (ax_node ax))) (f_axes f))) as (top & Et & Mt); [destruct (f_axes f); [congruence|discriminate]|]. rewrite Et. cbn [bind].
  assert (Lt : forall ax, In ax (f_axes f) -> (Z.of_nat (length (ax_node ax)) <= top)%Z) by (intros ax I; apply Mt; now apply in_map with (f := fun ax => Z.of_nat (length (ax_node ax)))).
  rewrite (mapM_eq _ (fun ax => ax_node ax ++ repeat 0%Q (Z.to_nat top - length (ax_node ax)))) by (intros ax I; apply assign_row_ok; [reflexivity|now apply Lt]). cbn [bind].
  rewrite (mapM_eq _ (fun ax => ax_grid ax ++ repeat 0%Q (Z.to_nat (top - 1) - length (ax_grid ax)))) by (intros ax I; specialize (Lt ax I); assert (L := proper_length _ (Hp ax I)); apply assign_row_ok; lia). cbn [bind].
  eexists. split; [reflexivity|]. unfold import_npz. cbn [z_lengths z_edges z_grids z_axnames z_axunits z_matrix z_name z_unit z_ats z_tao]. rewrite map_length.
  rewrite (mapM_zrange _ reloaded).
  - cbn [bind]. apply field_of_total; [|now rewrite map_length]. rewrite map_map. destruct Hc as (L & Hl & _). unfold f_shape in *. clear -L Hl Hp.
    revert Hl L. generalize (a_shape (f_data f)) as sh. induction (f_axes f) as [|ax axes IH]; intros sh Hl L; destruct sh as [|n sh]; try discriminate; [reflexivity|]. cbn [map]. f_equal.
    + cbn. rewrite <- (Hl 0%nat ax n eq_refl eq_refl). unfold ax_len. destruct (proper_describes _ (Hp ax (or_introl eq_refl))) as (_ & _ & E). now rewrite E.
    + apply IH; [intros; apply Hp; now right|intros k a m E1 E2; now apply (Hl (S k) a m)|now injection L].
  - intros k ax E. assert (I : In ax (f_axes f)) by (eapply nth_error_In; exact E).
    rewrite (getidx_nonneg _ k (Z.of_nat (length (ax_node ax)))) by (rewrite nth_error_map, E; reflexivity). cbn [bind].
    rewrite (getidx_nonneg _ k (ax_node ax ++ repeat 0%Q (Z.to_nat top - length (ax_node ax)))) by (rewrite nth_error_map, E; reflexivity). cbn [bind].
    rewrite (getidx_nonneg _ k (ax_grid ax ++ repeat 0%Q (Z.to_nat (top - 1) - length (ax_grid ax)))) by (rewrite nth_error_map, E; reflexivity). cbn [bind].
    rewrite getslice_prefix by (assert (L := proper_length _ (Hp ax I)); lia). cbn [bind].
    rewrite (getidx_nonneg _ k (one_char (ax_name ax))) by (rewrite nth_error_map, E; reflexivity). cbn [bind].
    rewrite (getidx_nonneg _ k (one_char (ax_unit ax))) by (rewrite nth_error_map, E; reflexivity). cbn [bind].
    rewrite getslice_prefix by reflexivity. cbn [bind]. apply mk_axis_cells, proper_cells, Hp, I.
Qed.
Lemma reloaded_numbers ax : axis_proper ax -> same_numbers ax (reloaded ax).
Proof. intro H. destruct (proper_describes _ H) as (E0 & E1 & E2). unfold same_numbers, reloaded, made. cbn. repeat split; [now rewrite E2|now rewrite E0|now rewrite E1]. Qed.
Lemma one_char_short s : short s -> one_char s = s.
Proof. destruct s as [|c [|c' s]]; [reflexivity|reflexivity|unfold short; cbn; lia]. Qed.
Lemma npz_general {V} spl (f : field V) : consistent f -> Forall axis_proper (f_axes f) -> f_axes f <> [] -> length (f_axes f) <= 3 ->
  exists z g, export_npz f = Ok z /\ import_npz spl z = Ok g /\ same_but_names f g /\ f_inner g = [] /\
    map ax_name (f_axes g) = map (fun ax => String.substring 0 1 (ax_name ax)) (f_axes f) /\ map ax_unit (f_axes g) = map (fun ax => String.substring 0 1 (ax_unit ax)) (f_axes f).
Proof.
  intros Hc Hp Hn H3. destruct (npz_round spl f Hc Hp Hn H3) as (z & E1 & E2). exists z. eexists. split; [exact E1|]. split; [exact E2|]. split; [|split; [reflexivity|]].
  - unfold same_but_names, f_axes, f_ats, f_tao. cbn. split; [reflexivity|]. split; [reflexivity|]. split; [reflexivity|]. split; [reflexivity|]. split; [reflexivity|].
    fold (f_axes f). clear -Hp. induction Hp as [|ax l H Hp IH]; constructor; [now apply reloaded_numbers|exact IH].
  - assert (X : forall s, one_char s = String.substring 0 1 s) by (intros [|c [|c' s]]; reflexivity).
    split; [transitivity (map ax_name (map reloaded (f_axes f)))|transitivity (map ax_unit (map reloaded (f_axes f)))]; try reflexivity; rewrite map_map; apply map_ext; intro ax; cbn; apply X.
Qed.
Lemma npz_short {V} spl (f : field V) : consistent f -> Forall axis_proper (f_axes f) -> f_axes f <> [] -> length (f_axes f) <= 3 -> Forall (fun ax => short (ax_name ax) /\ short (ax_unit ax)) (f_axes f) ->
  exists z g, export_npz f = Ok z /\ import_npz spl z = Ok g /\ same_but_names f g /\ map ax_name (f_axes g) = map ax_name (f_axes f) /\ map ax_unit (f_axes g) = map ax_unit (f_axes f).
Proof.
  intros Hc Hp Hn H3 Hs. destruct (npz_general spl f Hc Hp Hn H3) as (z & g & E1 & E2 & E3 & _ & E4 & E5). exists z, g. split; [exact E1|]. split; [exact E2|]. split; [exact E3|]. rewrite Forall_forall in Hs.
  assert (X : forall s, short s -> String.substring 0 1 s = s) by (intros [|c [|c' s]]; unfold short; cbn; auto; lia). rewrite E4, E5. split; apply map_ext_in; intros ax I; apply X; now apply Hs in I.
Qed.
Lemma npz_scalar {V} (f : field V) : f_axes f = [] -> export_npz f = Err ValueError.
Proof. intro E. unfold export_npz. now rewrite E. Qed.
Lemma endswith_refl_app a b : endswith (a ++ b) b = true.
Proof. induction a as [|c a IH]; cbn [String.append]; [destruct b; cbn; now rewrite ?Ascii.eqb_refl, ?String.eqb_refl|]. cbn [endswith]. destruct (String.eqb _ _); [reflexivity|exact IH]. Qed.
Lemma lower_app a b : lower (a ++ b) = (lower a ++ lower b)%string.
Proof. induction a as [|c a IH]; [reflexivity|]. cbn. now rewrite IH. Qed.
Definition writes (disk : string -> option (file Q)) (p : string * file Q) : string -> option (file Q) := fun n => if String.eqb n (fst p) then Some (snd p) else disk n.
Lemma sapp_assoc a b c : (a ++ b ++ c)%string = ((a ++ b) ++ c)%string.
Proof. induction a as [|x a IH]; cbn; [reflexivity|now rewrite IH]. Qed.
Lemma npz_file spl unstag fmt disk stem (f : field Q) : consistent f -> Forall axis_proper (f_axes f) -> f_axes f <> [] -> length (f_axes f) <= 3 -> Forall (fun ax => short (ax_name ax) /\ short (ax_unit ax)) (f_axes f) ->
  exists p g, export_field spl unstag fmt (stem ++ ".npz") f = Ok p /\ load_field spl (writes disk p) (stem ++ ".npz") = Ok g /\ same_but_names f g /\ map ax_name (f_axes g) = map ax_name (f_axes f) /\ map ax_unit (f_axes g) = map ax_unit (f_axes f).
Proof.
  intros Hc Hp Hn H3 Hs. destruct (npz_short spl f Hc Hp Hn H3 Hs) as (z & g & E1 & E2 & E3). exists ((stem ++ ".npz")%string, FNpz z), g. unfold export_field, load_field, savez_name.
  assert (X : endswith (lower (stem ++ ".npz")) "npz" = true) by (rewrite lower_app; change (lower ".npz") with ("." ++ "npz")%string; rewrite sapp_assoc; apply endswith_refl_app).
  rewrite X, E1, endswith_refl_app. cbn [bind negb]. split; [reflexivity|]. unfold writes. cbn [fst snd]. rewrite String.eqb_refl. split; [exact E2|exact E3].
Qed.
