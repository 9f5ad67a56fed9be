(** Lemmas for the theorems about readers. *)
From Coq Require Import QArith Qfield Lqa String Ascii List ZArith Bool Lia Sorted Permutation.
From Verif Require Import PyBase PyBaseFacts NumpyModel NumpyFacts AxisModel AxisSpec AxisFacts NdModel NdFacts FieldModel FieldGridFacts ReaderModel ReaderSpec ReaderFacts ReaderGrid.
From Verif Require FieldInvFacts AxisObjFacts.
Import ListNotations.
Local Open Scope Z_scope.

Lemma dummy_at n i : 0 <= i < n -> sim_int (dummysim n) i = Ok i /\ sim_int (dummysim n) (i - n) = Ok i.
Proof.
  intro H. unfold sim_int. cbn [dummysim sim_len sim_dump]. destruct (Z.ltb_spec i 0); [lia|]. destruct (Z.leb_spec n i); [lia|]. destruct (Z.ltb_spec (i - n) 0); [|lia].
  replace (i - n + n) with i by lia. destruct (Z.leb_spec n i); [lia|]. destruct (Z.ltb_spec i n); [|lia]. destruct (Z.ltb_spec i 0); [lia|]. split; reflexivity.
Qed.
Lemma smilei_dir int keys k key : nth_error keys k = Some key -> sim_int (smilei_series int true keys) (Z.of_nat k) = Ok (int key) /\ sim_int (smilei_series int true keys) (Z.of_nat k - Z.of_nat (length keys)) = Ok (int key).
Proof.
  intro E. unfold smilei_series. assert (E' : nth_error (map (fun k => if true then inr (int k) else inl k) keys) k = Some (inr (int key) : string + Z)) by (rewrite nth_error_map, E; reflexivity).
  destruct (series_at (smilei_open int keys) _ _ _ E') as (A & B & _). rewrite map_length in B. cbn in A, B |- *. rewrite A, B.
  assert (M : mem_Z (int key) (map int keys) = true).
  { apply nth_error_In in E. clear -E. induction keys as [|x l IH]; [destruct E|]. cbn. destruct E as [-> | E]; [now rewrite Z.eqb_refl|]. rewrite (IH E). apply orb_true_r. }
  rewrite M. split; reflexivity.
Qed.
Lemma smilei_file int keys i : 0 <= i < Z.of_nat (length keys) -> sim_int (smilei_series int false keys) i = Err IOError.
Proof.
  intro H. unfold smilei_series. destruct (nth_error keys (Z.to_nat i)) as [key|] eqn:E; [|apply nth_error_None in E; lia].
  assert (E' : nth_error (map (fun k => if false then inr (int k) else inl k) keys) (Z.to_nat i) = Some (inl key : string + Z)) by (rewrite nth_error_map, E; reflexivity).
  destruct (series_at (smilei_open int keys) _ _ _ E') as (A & _). rewrite Z2Nat.id in A by lia. exact A.
Qed.
(** sdf *)
Lemma sdf_regular file key a id r lo hi nn x n : axid a = Ok (Z.of_nat id) -> file key = Ok r ->
  let m := sd_grid r in let dx := ((hi - lo) / inject_Z (nn - 1))%Q in
  length (m_extents m) = (2 * length (m_dims m))%nat -> nth_error (m_extents m) id = Some lo -> nth_error (m_extents m) (id + length (m_dims m)) = Some hi ->
  nth_error (m_dims m) id = Some nn -> 2 <= nn -> nth_error (sd_dims r) id = Some (Z.of_nat n) ->
  (exists l, nth_error (if Z.testbit (sdf_stagger key r) (Z.of_nat id) then sd_mid r else m_data m) id = Some l /\ nth_error l 0 = Some x) ->
  regular (sdf file) key a (x - dx / 2) dx n.
Proof.
  intros Ea Ef m dx _ El Eh En N Ed (l & E1 & E2). unfold regular. cbn [sdf g_off g_sp g_pts]. assert (Sp : sdf_sp file key a = Ok dx).
  { unfold sdf_sp. rewrite Ea. cbn [bind]. rewrite Ef. cbn [bind]. fold m. rewrite <- Nat2Z.inj_add, (getidx_nonneg _ _ _ Eh). cbn [bind]. rewrite (getidx_nonneg _ _ _ El). cbn [bind]. rewrite (getidx_nonneg _ _ _ En). cbn [bind].
    destruct (Z.eqb_spec (nn - 1) 0); [lia|reflexivity]. }
  split; [|split; [exact Sp|]].
  - unfold sdf_off. rewrite Ea. cbn [bind]. rewrite Sp. cbn [bind]. rewrite Ef. cbn [bind]. fold m. rewrite (getidx_nonneg _ _ _ E1). cbn [bind]. change 0 with (Z.of_nat 0). rewrite (getidx_nonneg _ _ _ E2). reflexivity.
  - unfold sdf_pts. rewrite Ea. cbn [bind]. rewrite Ef. cbn [bind]. now apply getidx_nonneg.
Qed.
Lemma sdf_sim m a id lo hi nn : axid a = Ok (Z.of_nat id) -> length (m_extents m) = (2 * length (m_dims m))%nat -> nth_error (m_extents m) id = Some lo ->
  nth_error (m_extents m) (id + length (m_dims m)) = Some hi -> nth_error (m_dims m) id = Some nn -> 2 <= nn ->
  sdf_simextent m a = Ok (lo, hi) /\ sdf_simgridpoints m a = Ok (nn - 1) /\ sdf_simgridspacing m a = Ok ((hi - lo) / inject_Z (nn - 1))%Q.
Proof.
  intros Ea L El Eh En N. assert (Lid : (id < length (m_dims m))%nat) by (apply nth_error_Some; congruence).
  assert (X : sdf_simextent m a = Ok (lo, hi)).
  { unfold sdf_simextent. rewrite Ea. destruct (Z.leb_spec (Z.of_nat (length (m_extents m))) (Z.of_nat id + Z.of_nat (length (m_dims m)))); [lia|]. rewrite <- Nat2Z.inj_add, (getidx_nonneg _ _ _ El), (getidx_nonneg _ _ _ Eh). reflexivity. }
  assert (P : sdf_simgridpoints m a = Ok (nn - 1)) by (unfold sdf_simgridpoints; rewrite Ea; cbn [bind]; rewrite (getidx_nonneg _ _ _ En); reflexivity).
  split; [exact X|]. split; [exact P|]. unfold sdf_simgridspacing. rewrite X, P. cbn [bind fst snd]. destruct (Z.eqb_spec (nn - 1) 0); [lia|reflexivity].
Qed.
(** fbpic *)
Lemma fbpic_theta pi file key r d Nm Nr Nz : file key = Ok r -> h_array r = Some d -> a_shape d = [Nm; Nr; Nz] -> 1 <= Nm ->
  regular (fbpic pi file) key (KS "theta") 0 (2 * pi / inject_Z ((Nm + 1) / 2)) (Z.to_nat ((Nm + 1) / 2)).
Proof.
  intros E Ed Es N. unfold regular. cbn [fbpic g_off g_sp g_pts]. assert (P : fb_pts file key (KS "theta") = Ok ((Nm + 1) / 2)).
  { unfold fb_pts. cbn [axid lookup axes_table]. cbn. rewrite E. cbn [bind]. rewrite Ed, Es. reflexivity. }
  assert (B : 1 <= (Nm + 1) / 2) by (apply Z.div_le_lower_bound; lia). rewrite P, Z2Nat.id by lia. split; [reflexivity|]. split; [|reflexivity].
  unfold fb_sp. cbn [bind]. change (axid (KS "theta")) with (Ok 91). cbn [bind]. rewrite Z.eqb_refl, P. cbn [bind]. destruct (Z.eqb_spec ((Nm + 1) / 2) 0); [lia|reflexivity].
Qed.
(** particle records *)
Lemma data_ok file key r u : file key = Ok r -> readable r -> h_unit r = Some u ->
  exists p, pmd_data file key = Ok p /\ shape_of p = rec_shape r /\ forall i, value_at p i = (stored r i * u)%Q.
Proof.
  intros E R U. unfold pmd_data. rewrite E. cbn [bind]. unfold rec_shape, stored. destruct (h_value r) as [v|] eqn:Ev.
  - rewrite U. eexists. split; [reflexivity|]. split; reflexivity.
  - destruct (h_array r) as [a|] eqn:Ea; [|destruct R; congruence]. rewrite U. eexists. split; [reflexivity|]. split; reflexivity.
Qed.
Lemma iadd_ok p q : (shape_of q = shape_of p \/ shape_of q = [] \/ (shape_of p = [] /\ exists a, p = PScalar a)) -> (forall a, p = PArr a -> a_shape a <> []) -> (forall a, q = PArr a -> a_shape a <> []) ->
  exists r, iadd p q = Ok r /\ forall i, value_at r i = (value_at p i + value_at q i)%Q.
Proof.
  intros H Np Nq. destruct p as [x|a], q as [y|b]; cbn [iadd].
  - eexists. split; reflexivity.
  - eexists. split; reflexivity.
  - eexists. split; reflexivity.
  - cbn in H. destruct H as [H|[H|[_ (z & H)]]]; [|exfalso; exact (Nq b eq_refl H)|discriminate].
    destruct (list_eq_dec Z.eq_dec (a_shape a) (a_shape b)); [|congruence]. eexists. split; reflexivity.
Qed.
Lemma position_ok w file sp attrib k rp ro up uo : (k < 3)%nat -> attribid attrib = Ok (Z.of_nat k) ->
  file ("particles/" ++ sp ++ "/" ++ "position/" ++ pos_axis k)%string = Ok rp -> file ("particles/" ++ sp ++ "/" ++ "positionOffset/" ++ pos_axis k)%string = Ok ro ->
  readable rp -> readable ro -> h_unit rp = Some up -> h_unit ro = Some uo ->
  (forall a, h_array rp = Some a -> a_shape a <> []) -> (forall a, h_array ro = Some a -> a_shape a <> []) ->
  (rec_shape ro = rec_shape rp \/ rec_shape ro = [] \/ rec_shape rp = []) ->
  exists p, getspecies w file sp attrib = Ok p /\ forall i, (value_at p i == stored rp i * up + stored ro i * uo)%Q.
Proof.
  intros K Ea Ep Eo Rp Ro Up Uo Np No Sh. destruct (data_ok file _ rp up Ep Rp Up) as (p & Dp & Sp & Vp). destruct (data_ok file _ ro uo Eo Ro Uo) as (q & Dq & Sq & Vq).
  assert (Hp : forall a, p = PArr a -> a_shape a <> []).
  { intros a ->. cbn in Sp. rewrite Sp. unfold rec_shape. unfold pmd_data in Dp. rewrite Ep in Dp. cbn [bind] in Dp. destruct (h_value rp); [rewrite Up in Dp; discriminate|]. destruct (h_array rp); [now apply Np|discriminate]. }
  assert (Hq : forall a, q = PArr a -> a_shape a <> []).
  { intros a ->. cbn in Sq. rewrite Sq. unfold rec_shape. unfold pmd_data in Dq. rewrite Eo in Dq. cbn [bind] in Dq. destruct (h_value ro); [rewrite Uo in Dq; discriminate|]. destruct (h_array ro); [now apply No|discriminate]. }
  destruct (iadd_ok p q) as (r & Er & Vr); [|exact Hp|exact Hq|].
  { rewrite Sp, Sq. destruct Sh as [H|[H|H]]; [now left|right; now left|]. right. right. split; [exact H|]. destruct p as [x|a]; [now exists x|]. exfalso. apply (Hp a eq_refl). cbn in Sp. now rewrite Sp. }
  exists r. split; [|intro i; rewrite Vr, Vp, Vq; reflexivity].
  unfold getspecies. rewrite Ea. cbn [bind].
  assert (Pth : species_path w sp (Z.of_nat k) = Ok (("particles/" ++ sp ++ "/" ++ "position/" ++ pos_axis k)%string, Some ("particles/" ++ sp ++ "/" ++ "positionOffset/" ++ pos_axis k)%string)).
  { unfold species_path. rewrite <- !app_assoc_s. destruct k as [|[|[|k]]]; [reflexivity..|lia]. }
  rewrite Pth. cbn [bind fst snd]. rewrite Dp. cbn [bind]. rewrite Dq. cbn [bind]. rewrite Er. reflexivity.
Qed.
Lemma other_ok w file sp attrib id nm r u : attribid attrib = Ok id -> record_name w id = Some nm -> file ("particles/" ++ sp ++ "/" ++ nm)%string = Ok r -> readable r -> h_unit r = Some u ->
  exists p, getspecies w file sp attrib = Ok p /\ shape_of p = rec_shape r /\ forall i, (value_at p i == stored r i * u)%Q.
Proof.
  intros Ea En Ef R U. destruct (data_ok file _ r u Ef R U) as (p & Dp & Sp & Vp). exists p. split; [|split; [exact Sp|intro i; rewrite Vp; reflexivity]].
  unfold getspecies. rewrite Ea. cbn [bind].
  assert (P : species_path w sp id = Ok (("particles/" ++ sp ++ "/" ++ nm)%string, None)).
  { revert En. unfold record_name. repeat (match goal with |- context [Z.eqb id ?y] => destruct (Z.eqb_spec id y); [subst id; intro En; injection En as <-; unfold species_path; cbn; now rewrite ?app_assoc_s|] end). discriminate. }
  rewrite P. cbn [bind fst snd]. rewrite Dp. reflexivity.
Qed.
Lemma missing_ok w file sp attrib : (forall k, file k = Err KeyError \/ file k = Err IndexError) -> getspecies w file sp attrib = Err KeyError.
Proof.
  intro H. unfold getspecies. destruct (attribid attrib) as [id|e] eqn:E.
  2:{ unfold attribid in E. enough (e = KeyError) by (now subst). revert E. generalize attrib_table. induction l as [|[k v] l IH]; cbn; [congruence|]. destruct (akey_eqb attrib k); [discriminate|exact IH]. }
  cbn [bind]. destruct (species_path w sp id) as [p|e] eqn:Ep.
  - cbn [bind]. unfold pmd_data at 1. destruct (H (fst p)) as [-> | ->]; reflexivity.
  - cbn [bind]. unfold species_path in Ep. repeat (match type of Ep with (if ?b then _ else _) = _ => destruct b; [discriminate|] end). congruence.
Qed.
(** equality of dumps *)
Lemma dump_equiv {I} (eqb : I -> I -> bool) str isfile samefile :
  (forall a, eqb a a = true) -> (forall a b, eqb a b = eqb b a) -> (forall a b c, eqb a b = true -> eqb b c = true -> eqb a c = true) -> (forall a b, eqb a b = true -> str a = str b) ->
  (forall a, isfile a = true -> samefile a a = true) -> (forall a b, samefile a b = samefile b a) -> (forall a b c, samefile a b = true -> samefile b c = true -> samefile a c = true) ->
  let eq := dump_eqb eqb str isfile samefile in
  (forall a, eq a a = true) /\ (forall a b, eq a b = eq b a) /\ (forall a b c, eq a b = true -> eq b c = true -> eq a c = true).
Proof.
  intros R S T St Rf Sf Tf eq. unfold eq, dump_eqb. split; [|split].
  - intro a. destruct (isfile (str a)) eqn:E; cbn; [now apply Rf|apply R].
  - intros a b. rewrite (andb_comm (isfile (str b))). destruct (isfile (str a) && isfile (str b)); [apply Sf|apply S].
  - intros a b c. destruct (isfile (str a)) eqn:Ea, (isfile (str b)) eqn:Eb, (isfile (str c)) eqn:Ec; cbn; intros H1 H2.
    all: try (exact (Tf _ _ _ H1 H2)); try (exact (T _ _ _ H1 H2)); try (apply St in H1; congruence); apply St in H2; congruence.
Qed.
(** further cases *)
Lemma twice_out {F} (files : list F) k f : nth_error files k = Some f -> Z.of_nat k - 2 * Z.of_nat (length files) < - Z.of_nat (length files).
Proof. intro E. assert (k < length files)%nat by (apply nth_error_Some; congruence). lia. Qed.
Lemma dummy_out n i : 0 < n -> i < - n -> sim_int (dummysim n) i = Err ValueError.
Proof.
  intros N H. unfold sim_int. cbn [dummysim sim_len sim_dump]. destruct (Z.ltb_spec i 0); [|lia]. destruct (Z.leb_spec n (i + n)); [lia|]. destruct (Z.ltb_spec (i + n) n); [|lia]. destruct (Z.ltb_spec (i + n) 0); [reflexivity|lia].
Qed.
Lemma iter_cut {F D} (op : F -> res D) f after : op f = Err IndexError -> forall files pre fuel, (length files < fuel)%nat -> (forall x, In x files -> op x <> Err IndexError) ->
  iter_from (series op (pre ++ files ++ f :: after)) fuel (Z.of_nat (length pre)) = mapM op files.
Proof.
  intro Ef. induction files as [|x files IH]; intros pre fuel Fl H.
  - destruct fuel as [|fuel]; [cbn in Fl; lia|]. cbn [iter_from mapM app]. assert (E : nth_error (pre ++ f :: after) (length pre) = Some f) by (rewrite nth_error_app2, Nat.sub_diag by lia; reflexivity).
    destruct (series_at op _ _ _ E) as (A & _). rewrite A, Ef. reflexivity.
  - destruct fuel as [|fuel]; [cbn in Fl; lia|]. cbn [iter_from mapM app]. assert (E : nth_error (pre ++ x :: files ++ f :: after) (length pre) = Some x) by (rewrite nth_error_app2, Nat.sub_diag by lia; reflexivity).
    destruct (series_at op _ _ _ E) as (A & _). rewrite A. destruct (op x) as [d|e] eqn:Ex.
    + cbn [bind]. assert (R := IH (pre ++ [x]) fuel). rewrite app_length in R. cbn [length] in R. replace (Z.of_nat (length pre + 1)) with (Z.of_nat (length pre) + 1) in R by lia. rewrite <- app_assoc in R. cbn [app] in R.
      rewrite R; [reflexivity|cbn in Fl; lia|]. intros y I. apply H. now right.
    + specialize (H x (or_introl eq_refl)). rewrite Ex in H. destruct e; try reflexivity. congruence.
Qed.
Lemma series_cut {F D} (op : F -> res D) before f after : (forall x, In x before -> op x <> Err IndexError) -> op f = Err IndexError -> sim_list (series op (before ++ f :: after)) = mapM op before.
Proof. intros H E. unfold sim_list. apply (iter_cut op f after E before []); [|exact H]. cbn [series sim_len]. rewrite app_length. cbn. lia. Qed.
Lemma grid_empty g key a o s : regular g key a o s 0 -> exists gr, grid g key a = Ok gr /\ length gr = 2%nat.
Proof.
  intros (E1 & E2 & E3). unfold grid, gridnode. rewrite E1, E2, E3. cbn [bind]. destruct (np_linspace_total o (o + s * inject_Z (Z.of_nat 0)) (Z.of_nat 0 + 1)) as [gn E]; [lia|]. rewrite E. cbn [bind].
  apply np_linspace_ok in E as [L _]. destruct gn as [|x [|y gn]]; [cbn in L; lia| |cbn in L; lia]. eexists. split; reflexivity.
Qed.
Lemma smilei_radius am file key r d Nx Nr o s : existsb (String.eqb key) am = true -> file (key ++ "_mode_0")%string = Ok r -> h_array r = Some d -> a_shape d = [Nx; Nr] ->
  pmd_off file (key ++ "_mode_0")%string (KI 1) = Ok o -> pmd_sp file (key ++ "_mode_0")%string (KI 1) = Ok s -> sm_gridnode am file key (KS "r") = Err TypeError.
Proof.
  intros K E1 E2 E3 E4 E5. unfold sm_gridnode, sm_off, sm_pts, sm_sp. change (axid (KS "r")) with (Ok 90). cbn [bind]. unfold sm_key. rewrite K. cbn [andb orb Z.eqb Pos.eqb fst snd]. change (90 / 90) with 1. rewrite E4. cbn [bind]. rewrite E1. cbn [bind].
  rewrite E2, E3. change (getidx [PInt Nx; PFloat (inject_Z Nr / 2)] 1) with (Ok (PFloat (inject_Z Nr / 2))). cbn [bind]. rewrite E5. reflexivity.
Qed.
Lemma epoch_derived : let m := mkmesh [0; 4]%Q [3] [[0; 2; 4]%Q] in exists file key a lo hi gn, sdf_simextent m a = Ok (lo, hi) /\ gridnode (sdf file) key a = Ok gn /\
  file key = Ok (mksdf None [2] m [[1; 3]%Q]) /\ exists x, nth_error gn 0 = Some x /\ (x < lo)%Q.
Proof.
  cbv zeta. exists (fun _ => Ok (mksdf None [2] (mkmesh [0; 4]%Q [3] [[0; 2; 4]%Q]) [[1; 3]%Q])), "Derived/Number_Density"%string, (KS "x"), 0%Q, 4%Q. eexists. split; [reflexivity|]. split; [vm_compute; reflexivity|]. split; [reflexivity|].
  eexists. split; [reflexivity|]. reflexivity.
Qed.
Lemma missing_axis : exists file a, simextent (pmd file) a = Err IndexError.
Proof. exists (fun _ => Ok (mkrec None (Some 1%Q) (Some (mkarr [2] (fun _ => 0%Q))) (mkga (Some [1]%Q) (Some [1]%Q) (Some 1%Q)) (mkga None None None))), (KS "z"). reflexivity. Qed.
Lemma dummy_grids : exists d a gn gr, dummy_gridnode d a = Ok gn /\ dummy_grid d a = Ok gr /\ dummy_simgridpoints d a = Ok gr /\
  length gn = S (length gr) /\ exists x y z, nth_error gn 0 = Some x /\ nth_error gn 1 = Some y /\ nth_error gr 0 = Some z /\ ~ (z == (x + y) / 2)%Q /\ (z == x)%Q.
Proof.
  exists 3, (KS "z"). eexists. eexists. split; [vm_compute; reflexivity|]. split; [vm_compute; reflexivity|]. split; [vm_compute; reflexivity|]. split; [reflexivity|].
  eexists. eexists. eexists. split; [reflexivity|]. split; [reflexivity|]. split; [reflexivity|]. split; [|reflexivity]. intro H. vm_compute in H. discriminate.
Qed.
Lemma last_wins avail codes : let s := chosen avail (mkst None None) codes in
  readdump s = match last_usable avail codes with Some (d, _) => Ok (D d) | None => Err BareException end /\
  readsim s = match last_usable avail codes with Some (_, k) => Ok (Sm k) | None => Err BareException end.
Proof.
  cbv zeta. rewrite (chosen_last avail codes (mkst None None) None I). fold (last_usable avail codes). destruct (last_usable avail codes) as [[d k]|]; split; reflexivity.
Qed.
Lemma choose_case avail s c c' : lower c = lower c' -> choose avail s c = choose avail s c'.
Proof. intro H. now rewrite (choose_lower avail s c), (choose_lower avail s c'), H. Qed.
Lemma plain_nil : plain "".
Proof. intros i c. destruct i; discriminate. Qed.
Lemma visit_blank dir names : (forall n, In n names -> plain n) -> visit_files dir (text_of (String lf "") names ++ String lf "") = (map (path_join dir) names ++ [path_join dir ""])%list.
Proof.
  intro H. assert (E : (text_of (String lf "") names ++ String lf "" = text_of (String lf "") (names ++ [""%string]) ++ "")%string).
  { unfold text_of. rewrite fold_right_app. cbn [fold_right append]. clear H. induction names as [|n names IH]; [reflexivity|]. cbn [fold_right]. rewrite !app_assoc_s. f_equal. cbn [append]. f_equal. exact IH. }
  rewrite E, visit_lines; [|now left| |exact plain_nil].
  - now rewrite app_nil_r, map_app.
  - intros n I. apply in_app_or in I as [I | [<- | []]]; [now apply H|exact plain_nil].
Qed.
Lemma sort_listing l m : Permutation l m -> sort_str l = sort_str m.
Proof. intro P. apply sorted_perm_eq; [apply sort_str_sorted..|]. now rewrite !sort_str_perm. Qed.
Lemma unpadded : exists n m w w', (n < m)%nat /\ (n < 10 ^ w)%nat /\ (m < 10 ^ w')%nat /\
  sort_str ["data" ++ padded w n ++ ".h5"; "data" ++ padded w' m ++ ".h5"]%string = ["data" ++ padded w' m ++ ".h5"; "data" ++ padded w n ++ ".h5"]%string.
Proof. exists 9%nat, 10%nat, 1%nat, 2%nat. repeat split; cbn; try lia. Qed.
Lemma dump_files {I} (eqb : I -> I -> bool) str isfile samefile a b : (forall a b, eqb a b = true -> str a = str b) ->
  (isfile (str a) = true -> isfile (str b) = true -> dump_eqb eqb str isfile samefile a b = samefile (str a) (str b)) /\
  (isfile (str a) <> isfile (str b) -> dump_eqb eqb str isfile samefile a b = false).
Proof.
  intro S. unfold dump_eqb. split; [intros -> ->; reflexivity|]. intro N. destruct (isfile (str a)) eqn:Ea, (isfile (str b)) eqn:Eb; cbn; try congruence; (destruct (eqb a b) eqn:E; [apply S in E; congruence|reflexivity]).
Qed.
Lemma pmd_described file key a id r off sp u o s d n : axid a = Ok id -> file key = Ok r -> described r off sp u ->
  h_array r = Some d -> nth_error off (Z.to_nat id) = Some o -> nth_error sp (Z.to_nat id) = Some s -> nth_error (a_shape d) (Z.to_nat id) = Some (Z.of_nat n) -> 0 <= id ->
  regular (pmd file) key a (o * u) (s * u) n.
Proof.
  intros Ea Ef H. assert (G : grid_attrs r = mkga (Some off) (Some sp) (Some u)) by (unfold grid_attrs; destruct H as [-> | [-> ->]]; reflexivity).
  apply (pmd_regular file key a id r off sp u o s d n Ea Ef); rewrite G; reflexivity.
Qed.
Lemma axis_key_ok spl g key a nm o s n ov : reproduces_lines spl -> In (a, nm) axis_keys -> regular g key a o s n -> (1 <= n)%nat -> ~ (s == 0)%Q -> ov nm = None ->
  exists ax, getaxisobj spl g key a ov None = Ok (inl ax) /\ axis_uniform o (o + s * inject_Z (Z.of_nat n)) n ax /\ ax_name ax = nm /\ ax_unit ax = "m"%string /\
    (exists gn, gridnode g key a = Ok gn /\ ax_node ax = gn) /\
    (exists gr, grid g key a = Ok gr /\ Forall2 Qeq (ax_grid ax) gr).
Proof.
  intros Sp I R N Ns Ov. assert (exists id, axid a = Ok id /\ axis_name id = nm) as (id & Ea & En).
  { cbn in I. repeat (destruct I as [I|I]; [injection I as <- <-; eexists; split; reflexivity|]). destruct I. }
  rewrite <- En in *. exact (axisobj_ok spl g key a id o s n ov Sp Ea R N Ns Ov).
Qed.
Lemma fbpic_rz pi file key r d Nm Nr Nz o0 o1 s0 s1 u : file key = Ok r -> h_array r = Some d -> a_shape d = [Nm; Z.of_nat Nr; Z.of_nat Nz] -> described r [o0; o1] [s0; s1] u ->
  regular (fbpic pi file) key (KS "r") (o0 * u) (s0 * u) Nr /\ regular (fbpic pi file) key (KS "z") (o1 * u) (s1 * u) Nz.
Proof.
  intros Ef Ed Es H. assert (G : grid_attrs r = mkga (Some [o0; o1]) (Some [s0; s1]) (Some u)) by (unfold grid_attrs; destruct H as [-> | [-> ->]]; reflexivity).
  assert (Po : forall k x, nth_error [o0; o1] k = Some x -> pmd_off file key (KI (Z.of_nat k)) = Ok (x * u)%Q).
  { intros k x Ek. unfold pmd_off. destruct k as [|[|k]]; [| |destruct k; discriminate]; cbn [axid lookup axes_table akey_eqb Z.of_nat Pos.of_succ_nat Z.eqb Pos.eqb bind]; rewrite Ef; cbn [bind]; rewrite G; cbn; injection Ek as ->; reflexivity. }
  assert (Ps : forall k x, nth_error [s0; s1] k = Some x -> pmd_sp file key (KI (Z.of_nat k)) = Ok (x * u)%Q).
  { intros k x Ek. unfold pmd_sp. destruct k as [|[|k]]; [| |destruct k; discriminate]; cbn [axid lookup axes_table akey_eqb Z.of_nat Pos.of_succ_nat Z.eqb Pos.eqb bind]; rewrite Ef; cbn [bind]; rewrite G; cbn; injection Ek as ->; reflexivity. }
  unfold regular. cbn [fbpic g_off g_sp g_pts]. unfold fb_off, fb_sp, fb_pts.
  change (axid (KS "r")) with (Ok 90). change (axid (KS "z")) with (Ok 2). cbn [bind]. rewrite Ef. cbn [bind]. rewrite Ed, Es.
  assert (R0 : fb_remap 90 = Ok (KI (Z.of_nat 0))) by reflexivity. assert (R1 : fb_remap 2 = Ok (KI (Z.of_nat 1))) by reflexivity. rewrite R0, R1. cbn [Z.eqb Pos.eqb bind].
  rewrite (Po 0%nat o0 eq_refl), (Ps 0%nat s0 eq_refl), (Po 1%nat o1 eq_refl), (Ps 1%nat s1 eq_refl). repeat split; reflexivity.
Qed.
Lemma epoch_stagger f c av r axis : sd_stagger r = None -> (c < 3)%nat -> (axis < 3)%nat -> Z.testbit (sdf_stagger (epoch_key f c av) r) (Z.of_nat axis) = epoch_shifted f c axis.
Proof.
  intros E Hc Ha. unfold sdf_stagger. rewrite E. destruct f, av, c as [|[|[|c]]]; try lia; destruct axis as [|[|[|axis]]]; try lia; reflexivity.
Qed.
(** * Identifiers *)
Lemma lookup_in {A} (d : list (akey * A)) k v : lookup d k = Ok v -> In (k, v) d.
Proof.
  induction d as [|[k' v'] d IH]; cbn; [discriminate|]. destruct (akey_eqb k k') eqn:E; [|auto]. intro H. injection H as ->. left. f_equal. destruct k, k'; cbn in E; try discriminate; [apply Z.eqb_eq in E|apply String.eqb_eq in E]; congruence.
Qed.
Lemma lookup_error {A} (d : list (akey * A)) k e : lookup d k = Err e -> e = KeyError.
Proof. induction d as [|[k' v'] d IH]; cbn; [congruence|]. destruct (akey_eqb k k'); [discriminate|auto]. Qed.
Lemma axis_named a id : axid a = Ok id <-> names_axis a id.
Proof.
  split.
  - intro H. apply lookup_in in H. cbn in H. repeat (destruct H as [H|H]; [injection H as <- <-; cbn; intuition (auto; lia)|]). contradiction.
  - destruct a as [z|s]; cbn [names_axis]; intro H.
    + destruct H as [-> H]. assert (C : id = 0 \/ id = 1 \/ id = 2 \/ id = 90 \/ id = 91) by lia. repeat (destruct C as [->|C]; [reflexivity|]). now subst.
    + repeat (destruct H as [H|H]); destruct H as [-> H]; repeat (destruct H as [H|H]); subst; reflexivity.
Qed.
Lemma axis_unnamed a e : axid a = Err e -> e = KeyError.
Proof. apply lookup_error. Qed.
Lemma attribute_named a id : attribid a = Ok id <-> names_attribute a id.
Proof.
  split.
  - intro H. apply lookup_in in H. unfold attrib_table in H. apply in_app_iff in H as [H|H].
    + left. cbn in H. repeat (destruct H as [H|H]; [injection H as <- <-; cbn; intuition (auto; lia)|]). contradiction.
    + right. cbn in H. repeat (destruct H as [H|H]; [injection H as <- <-; cbn; intuition (auto; lia)|]). contradiction.
  - intros [H|H].
    + destruct a as [z|s]; cbn [names_axis] in H.
      * destruct H as [-> H]. assert (C : id = 0 \/ id = 1 \/ id = 2 \/ id = 90 \/ id = 91) by lia. repeat (destruct C as [->|C]; [reflexivity|]). now subst.
      * repeat (destruct H as [H|H]); destruct H as [-> H]; repeat (destruct H as [H|H]); subst; reflexivity.
    + destruct a as [z|s].
      * destruct H as [-> H]. repeat (destruct H as [->|H]; [reflexivity|]). now subst.
      * repeat (destruct H as [H|H]); destruct H as [-> H]; repeat (destruct H as [H|H]); subst; reflexivity.
Qed.
Lemma attribute_unnamed a e : attribid a = Err e -> e = KeyError.
Proof. apply lookup_error. Qed.

(** the files of a visit file *)
Lemma last_char a c : String.get (String.length (a ++ String c "") - 1) (a ++ String c "") = Some c.
Proof. induction a as [|d a IH]; [reflexivity|]. cbn [append String.length]. destruct (String.length (a ++ String c "")) eqn:E; [destruct a; discriminate|]. cbn [Nat.sub] in *. cbn [String.get]. rewrite Nat.sub_0_r in *. exact IH. Qed.
Lemma ends_in a : a <> ""%string -> exists b c, a = (b ++ String c "")%string.
Proof. induction a as [|d a IH]; [congruence|]. intros _. destruct a as [|e a]; [exists ""%string, d; reflexivity|]. destruct IH as (b & c & E); [discriminate|]. exists (String d b), c. now rewrite E. Qed.
Lemma ends_same b c b' c' : (b ++ String c "" = b' ++ String c' "")%string -> c = c'.
Proof. intro E. pose proof (last_char b c) as H. rewrite E, last_char in H. congruence. Qed.
Lemma join_file dir n : file_in dir n (path_join dir n).
Proof.
  assert (J : forall n, (forall t, n <> String "/" t) -> path_join dir n = match dir with EmptyString => n | _ => if Ascii.eqb (match String.get (String.length dir - 1) dir with Some c => c | None => lf end) "/"%char then (dir ++ n)%string else (dir ++ "/" ++ n)%string end).
  { intros m H. unfold path_join. destruct m as [|c m]; [reflexivity|]. assert (X : c <> "/"%char) by (intros ->; now apply (H m)). destruct c as [[] [] [] [] [] [] [] []]; try reflexivity. now exfalso; apply X. }
  assert (D : (exists t, n = String "/" t) \/ forall t, n <> String "/" t).
  { destruct n as [|c n]; [now right|]. destruct (Ascii.ascii_dec c "/"%char) as [->|H]; [left; now exists n|right; congruence]. }
  destruct D as [[t ->]|D]; [left; split; [now exists t|reflexivity]|]. right. split; [exact D|]. rewrite (J _ D).
  destruct dir as [|c dir]; [left; now split|]. right. destruct (ends_in (String c dir)) as (b & d & E); [discriminate|]. rewrite E, last_char.
  destruct (Ascii.eqb_spec d "/"%char) as [->|N].
  - left. destruct (b ++ "/")%string eqn:F; [destruct b; discriminate|]. split; [exists b; now rewrite F|reflexivity].
  - right. destruct (b ++ String d "")%string eqn:F; [destruct b; discriminate|]. split; [discriminate|]. split; [|reflexivity]. intros t G. apply N. rewrite <- F in G. exact (ends_same _ _ _ _ G).
Qed.
Lemma file_in_unique dir n p q : file_in dir n p -> file_in dir n q -> p = q.
Proof.
  intros [[[t E] ->]|[N H]] [[[t' E'] ->]|[N' H']]; try congruence; try (exfalso; eapply N; eassumption); try (exfalso; eapply N'; eassumption).
  destruct H as [[D ->]|[[[u D] ->]|(D & F & ->)]], H' as [[D' ->]|[[[u' D'] ->]|(D' & F' & ->)]]; try congruence; try reflexivity; try (exfalso; now eapply F; eassumption); try (exfalso; now eapply F'; eassumption).
  all: subst dir; destruct u || destruct u'; discriminate.
Qed.
Lemma plain_split s : plain s \/ exists n c t, s = (n ++ String c t)%string /\ plain n /\ (c = lf \/ c = cr).
Proof.
  induction s as [|c s IH]; [left; apply plain_nil|].
  destruct (Ascii.ascii_dec c lf) as [->|A]; [right; exists ""%string, lf, s; split; [reflexivity|]; split; [apply plain_nil|now left]|].
  destruct (Ascii.ascii_dec c cr) as [->|B]; [right; exists ""%string, cr, s; split; [reflexivity|]; split; [apply plain_nil|now right]|].
  assert (P : forall n, plain n -> plain (String c n)) by (intros n H i d; destruct i; cbn; [intro X; injection X as <-; now split|apply H]).
  destruct IH as [H|(n & d & t & -> & H & K)]; [left; now apply P|]. right. exists (String c n), d, t. split; [reflexivity|]; split; [now apply P|exact K].
Qed.
Lemma has_lines_total s : exists ns, has_lines ns s.
Proof.
  assert (G : forall k s, (String.length s <= k)%nat -> exists ns, has_lines ns s).
  { assert (L : forall n r, String.length (n ++ r) = (String.length n + String.length r)%nat) by (intros n r; induction n as [|c n IH]; [reflexivity|]; cbn; now rewrite IH).
    induction k as [|k IH]; intros r L0.
    - destruct r; [exists []; constructor|cbn in L0; lia].
    - destruct (plain_split r) as [H|(n & c & t & -> & H & [-> | ->])].
      + destruct (string_dec r "") as [->|N]; [exists []; constructor|exists [r]; now constructor].
      + rewrite L in L0. cbn in L0. destruct (IH t) as [ns X]; [lia|]. exists (n :: ns). now constructor.
      + rewrite L in L0. cbn in L0. destruct t as [|d t].
        * destruct (IH ""%string) as [ns X]; [cbn; lia|]. exists (n :: ns). apply lines_cr; [exact H|discriminate|exact X].
        * cbn in L0. destruct (Ascii.ascii_dec d lf) as [->|N].
          -- destruct (IH t) as [ns X]; [lia|]. exists (n :: ns). now constructor.
          -- destruct (IH (String d t)) as [ns X]; [cbn; lia|]. exists (n :: ns). apply lines_cr; [exact H|congruence|exact X]. }
  now apply (G (String.length s)).
Qed.
Lemma lines_read ns s : has_lines ns s -> lines_of "" (universal_newlines s) = ns.
Proof.
  induction 1 as [|n H N|n ns t H _ IH|n ns t H _ IH|n ns t H N _ IH].
  - reflexivity.
  - assert (U : universal_newlines n = n) by (rewrite <- (app_nil_s n) at 1; rewrite newlines_plain by exact H; cbn; apply app_nil_s). rewrite U. now apply lines_last.
  - rewrite newlines_plain by exact H. cbn [universal_newlines]. replace (Ascii.eqb lf cr) with false by reflexivity. rewrite lines_plain by exact H. now rewrite IH.
  - rewrite newlines_plain by exact H. cbn [universal_newlines]. rewrite !Ascii.eqb_refl. rewrite lines_plain by exact H. now rewrite IH.
  - rewrite newlines_plain by exact H. cbn [universal_newlines]. rewrite Ascii.eqb_refl. destruct t as [|d t]; [rewrite lines_plain by exact H; cbn in IH; now rewrite <- IH|].
    rewrite (neq_eqb d lf) by (intros ->; now apply (N t)). rewrite lines_plain by exact H. now rewrite IH.
Qed.
Lemma visit_every dir text : exists ns, has_lines ns text /\ Forall2 (file_in dir) ns (visit_files dir text).
Proof.
  destruct (has_lines_total text) as [ns H]. exists ns. split; [exact H|]. unfold visit_files. rewrite (lines_read _ _ H). clear H. induction ns; constructor; [apply join_file|assumption].
Qed.
Lemma visit_unique dir text ns ps : has_lines ns text -> Forall2 (file_in dir) ns ps -> visit_files dir text = ps.
Proof.
  intros H F. unfold visit_files. rewrite (lines_read _ _ H). clear H. induction F as [|n p ns ps X _ IH]; [reflexivity|]. cbn. f_equal; [|exact IH]. exact (file_in_unique _ _ _ _ (join_file dir n) X).
Qed.

(** any sequence of calls which set readers *)
Definition after (avail : string -> bool) (l : list rcall) (s : rstate) : rstate := fold_left (fun s c => fst (do_rcall avail s c)) l s.
Lemma rcall_step avail s c : fst (do_rcall avail s c) =
  mkst (match wants_dump avail c with Some x => Some x | None => st_dump s end) (match wants_sim avail c with Some x => Some x | None => st_sim s end).
Proof.
  destruct s as [d0 k0]. destruct c as [code|[c|]|[c|]]; cbn [do_rcall wants_dump wants_sim fst st_dump st_sim]; try reflexivity.
  - rewrite choose_table. destruct (usable avail code) as [[d k]|]; reflexivity.
  - unfold setdump. destruct (c_dump c); reflexivity.
  - unfold setsim. destruct (c_sim c); reflexivity.
Qed.
Lemma latest_snoc {A B} (want : A -> option B) l c x : latest want l x -> latest want (l ++ [c])%list (match want c with Some v => Some v | None => x end).
Proof.
  intro H. destruct (want c) as [v|] eqn:E.
  - exists l, c, []. now split.
  - destruct x as [v|].
    + destruct H as (pre & d & post & -> & F & G). exists pre, d, (post ++ [c])%list. split; [now rewrite <- app_assoc|]. split; [exact F|]. intros e I. apply in_app_or in I as [I|[<-|[]]]; [now apply G|exact E].
    + intros e I. apply in_app_or in I as [I|[<-|[]]]; [now apply H|exact E].
Qed.
Lemma after_latest avail l : latest (wants_dump avail) l (st_dump (after avail l (mkst None None))) /\ latest (wants_sim avail) l (st_sim (after avail l (mkst None None))).
Proof.
  induction l as [|c l [IH1 IH2]] using rev_ind; [split; intros c []|]. unfold after. rewrite fold_left_app. cbn [fold_left]. fold (after avail l (mkst None None)). rewrite rcall_step. cbn [st_dump st_sim].
  split; now apply latest_snoc.
Qed.
Lemma read_latest avail l : let s := after avail l (mkst None None) in
  (exists x, latest (wants_dump avail) l x /\ readdump s = match x with Some c => Ok c | None => Err BareException end) /\
  exists y, latest (wants_sim avail) l y /\ readsim s = match y with Some c => Ok c | None => Err BareException end.
Proof.
  cbv zeta. destruct (after_latest avail l) as [H K]. split; [exists (st_dump (after avail l (mkst None None)))|exists (st_sim (after avail l (mkst None None)))]; split; try assumption; [unfold readdump; destruct (st_dump _)|unfold readsim; destruct (st_sim _)]; reflexivity.
Qed.
Lemma reads_its_kind avail l c : (readdump (after avail l (mkst None None)) = Ok c -> c_dump c = true) /\ (readsim (after avail l (mkst None None)) = Ok c -> c_sim c = true).
Proof.
  destruct (after_latest avail l) as [H K]. unfold readdump, readsim. split.
  - destruct (st_dump _) as [x|]; [|discriminate]. intro E. injection E as <-. destruct H as (pre & d & post & _ & F & _). destruct d as [code|[d|]|d]; cbn in F; try discriminate.
    + destruct (usable avail code) as [[u v]|]; [injection F as <-; reflexivity|discriminate].
    + destruct (c_dump d) eqn:G; [congruence|discriminate].
  - destruct (st_sim _) as [x|]; [|discriminate]. intro E. injection E as <-. destruct K as (pre & d & post & _ & F & _). destruct d as [code|d|[d|]]; cbn in F; try discriminate.
    + destruct (usable avail code) as [[u v]|]; [injection F as <-; reflexivity|discriminate].
    + destruct (c_sim d) eqn:G; [congruence|discriminate].
Qed.
Lemma refused_keeps avail s c e : snd (do_rcall avail s c) = Err e -> fst (do_rcall avail s c) = s.
Proof.
  destruct s as [d0 k0]. destruct c as [code|[c|]|[c|]]; cbn [do_rcall]; try reflexivity.
  - rewrite choose_table. destruct (usable avail code) as [[d k]|]; [discriminate|reflexivity].
  - unfold setdump. destruct (c_dump c); [discriminate|reflexivity].
  - unfold setsim. destruct (c_sim c); [discriminate|reflexivity].
Qed.
(** grids given by the caller, and the number of angles *)
Lemma key_name a nm : In (a, nm) axis_keys -> exists id, axid a = Ok id /\ axis_name id = nm.
Proof. intro I. cbn in I. repeat (destruct I as [I|I]; [injection I as <- <-; eexists; split; reflexivity|]). destruct I. Qed.
Lemma given_grid spl g key a nm ov Nt gr : In (a, nm) axis_keys -> ov nm = Some gr -> (nm = "theta"%string -> Nt = None) ->
  forall v, getaxisobj spl g key a ov Nt = Ok v <-> exists ax, v = inl ax /\ mk_axis spl nm "m" None (Some gr) None None = Ok ax.
Proof.
  intros I Ov Th v. destruct (key_name a nm I) as (id & Ea & En). unfold getaxisobj. rewrite Ea. cbn [bind]. cbv zeta. rewrite En, Ov.
  replace (match Nt with Some n => if String.eqb nm "theta" then Ok (inr n) else rmap inl (mk_axis spl nm "m" None (Some gr) None None) | None => rmap inl (mk_axis spl nm "m" None (Some gr) None None) end) with (@rmap axis (axis + Z) inl (mk_axis spl nm "m" None (Some gr) None None)).
  - destruct (mk_axis spl nm "m" None (Some gr) None None) as [ax|e]; cbn [rmap bind].
    + split; [intros [= <-]; exists ax; auto|intros (x & -> & [= ->]); reflexivity].
    + split; [discriminate|intros (x & _ & H); discriminate H].
  - destruct Nt as [n|]; [|reflexivity]. destruct (String.eqb_spec nm "theta") as [E|E]; [specialize (Th E); discriminate Th|reflexivity].
Qed.
Lemma given_grid_kept spl g key a nm ov Nt gr ax : In (a, nm) axis_keys -> ov nm = Some gr -> (nm = "theta"%string -> Nt = None) -> getaxisobj spl g key a ov Nt = Ok (inl ax) -> ax_grid ax = gr /\ ax_name ax = nm /\ ax_unit ax = "m"%string.
Proof.
  intros I Ov Th E. apply (given_grid spl g key a nm ov Nt gr I Ov Th) in E as (x & [= <-] & E). split; [exact (FieldInvFacts.mk_axis_grid _ _ _ _ _ _ _ _ E)|exact (AxisObjFacts.mk_axis_labels _ _ _ _ _ _ _ _ E)].
Qed.
Lemma given_angles spl g key a ov n : (names_axis a 91 -> getaxisobj spl g key a ov (Some n) = Ok (inr n)) /\
  forall Nt m, getaxisobj spl g key a ov Nt = Ok (inr m) -> names_axis a 91 /\ Nt = Some m.
Proof.
  split.
  - intro H. apply axis_named in H. unfold getaxisobj. rewrite H. reflexivity.
  - intros Nt m E. unfold getaxisobj in E. apply bind_ok in E as (id & Ea & E). cbv zeta in E.
    assert (No : forall r : res axis, rmap inl r <> Ok (@inr axis Z m)) by (intros [x|e]; cbn; discriminate).
    assert (Rest : (match ov (axis_name id) with Some gr => rmap inl (mk_axis spl (axis_name id) "m" None (Some gr) None None) | None => let! gn := gridnode g key a in rmap inl (mk_axis spl (axis_name id) "m" (Some gn) None None None) end) <> Ok (@inr axis Z m)).
    { destruct (ov (axis_name id)); [apply No|]. destruct (gridnode g key a); cbn [bind]; [apply No|discriminate]. }
    destruct Nt as [k|]; [|contradiction]. destruct (String.eqb_spec (axis_name id) "theta") as [T|T]; [|contradiction]. injection E as <-. split; [|reflexivity].
    apply axis_named. rewrite Ea. f_equal. apply axis_named in Ea. assert (R : id = 0 \/ id = 1 \/ id = 2 \/ id = 90 \/ id = 91).
    { destruct a as [z|st]; cbn in Ea; [destruct Ea as [_ [K|K]]; lia|]. destruct Ea as [[K _]|[[K _]|[[K _]|[[K _]|[K _]]]]]; lia. }
    destruct R as [->|[->|[->|[->| ->]]]]; try reflexivity; discriminate T.
Qed.
Lemma smilei_angle am file key a r off sp u : names_axis a 91 -> file key = Ok r -> described r off sp u -> (length sp <= 3)%nat -> sm_off am file key a = Ok 0%Q /\ sm_sp am file key a = Err IndexError.
Proof.
  intros H Ef D L. apply axis_named in H. split; [unfold sm_off; rewrite H; reflexivity|]. unfold sm_sp. rewrite H. cbn [bind]. unfold sm_key. rewrite andb_comm. cbn [Z.eqb Pos.eqb orb andb fst snd].
  unfold pmd_sp. cbn [axid]. change (axid (KI 91)) with (Ok 91). cbn [bind]. rewrite Ef. cbn [bind].
  assert (G : grid_attrs r = mkga (Some off) (Some sp) (Some u)) by (unfold grid_attrs; destruct D as [-> | [-> ->]]; reflexivity). rewrite G. cbn [ga_spacing attr bind].
  assert (E : getidx sp 91 = Err IndexError); [|now rewrite E]. unfold getidx. change (91 <? 0) with false. cbv iota zeta. destruct (Z.ltb_spec 91 (Z.of_nat (length sp))); [lia|]. rewrite andb_false_r. reflexivity.
Qed.
(** an offset with a single entry counts for all particles *)
Lemma position_single w file sp attrib k rp ro up uo : (k < 3)%nat -> attribid attrib = Ok (Z.of_nat k) ->
  file ("particles/" ++ sp ++ "/" ++ "position/" ++ pos_axis k)%string = Ok rp -> file ("particles/" ++ sp ++ "/" ++ "positionOffset/" ++ pos_axis k)%string = Ok ro ->
  readable rp -> h_unit rp = Some up -> h_unit ro = Some uo -> rec_shape rp <> [] -> rec_shape rp <> [1%Z] -> rec_shape ro = [1%Z] ->
  exists p, getspecies w file sp attrib = Ok p /\ shape_of p = rec_shape rp /\ forall i, (value_at p i == stored rp i * up + stored ro [0%Z] * uo)%Q.
Proof.
  intros K Ea Ep Eo Rp Up Uo Np N1 Sh. assert (Ro : readable ro) by (unfold readable, rec_shape in *; destruct (h_value ro); [discriminate|]; destruct (h_array ro); [right|]; discriminate).
  destruct (data_ok file _ rp up Ep Rp Up) as (p & Dp & Sp & Vp). destruct (data_ok file _ ro uo Eo Ro Uo) as (q & Dq & Sq & Vq).
  rewrite Sh in Sq. destruct p as [x|a]; [cbn in Sp; congruence|]. destruct q as [y|b]; [discriminate Sq|]. cbn [shape_of] in Sp, Sq.
  assert (Pth : species_path w sp (Z.of_nat k) = Ok (("particles/" ++ sp ++ "/" ++ "position/" ++ pos_axis k)%string, Some ("particles/" ++ sp ++ "/" ++ "positionOffset/" ++ pos_axis k)%string)).
  { unfold species_path. rewrite <- !app_assoc_s. destruct k as [|[|[|k]]]; [reflexivity..|lia]. }
  unfold getspecies. rewrite Ea. cbn [bind]. rewrite Pth. cbn [bind fst snd]. rewrite Dp. cbn [bind]. rewrite Dq. cbn [bind iadd]. rewrite Sp, Sq.
  destruct (list_eq_dec Z.eq_dec (rec_shape rp) [1]); [congruence|]. destruct (list_eq_dec Z.eq_dec [1] [1]); [|congruence].
  eexists. split; [reflexivity|]. split; [reflexivity|]. intro i. cbn [value_at a_at]. specialize (Vp i). specialize (Vq [0%Z]). cbn [value_at] in Vp, Vq. rewrite Vp, Vq. reflexivity.
Qed.
(** records without their unit, and groups *)
Lemma unreadable file key r : file key = Ok r -> (readable r -> h_unit r = None -> pmd_data file key = Err KeyError) /\ (~ readable r -> pmd_data file key = Err TypeError).
Proof.
  intro E. unfold pmd_data, readable. rewrite E. cbn [bind]. destruct (h_value r) as [v|].
  - split; [intros _ ->; reflexivity|]. intro N. destruct N. left. discriminate.
  - destruct (h_array r) as [d|]; split.
    + intros _ ->. reflexivity.
    + intro N. destruct N. right. discriminate.
    + intros [N|N]; destruct N; reflexivity.
    + reflexivity.
Qed.
Lemma unreadable_species w file sp attrib id nm r : attribid attrib = Ok id -> record_name w id = Some nm -> file ("particles/" ++ sp ++ "/" ++ nm)%string = Ok r ->
  (readable r -> h_unit r = None -> getspecies w file sp attrib = Err KeyError) /\ (~ readable r -> getspecies w file sp attrib = Err TypeError).
Proof.
  intros Ea Er Ef. destruct (unreadable file _ r Ef) as [U1 U2].
  assert (Pth : species_path w sp id = Ok (("particles/" ++ sp ++ "/" ++ nm)%string, None)).
  { revert Er. unfold record_name. repeat (match goal with |- context [Z.eqb id ?y] => destruct (Z.eqb_spec id y); [subst id; intro En; injection En as <-; unfold species_path; cbn; now rewrite ?app_assoc_s|] end). discriminate. }
  unfold getspecies. rewrite Ea. cbn [bind]. rewrite Pth. cbn [bind fst snd]. split; intro R; [intro U; rewrite (U1 R U)|rewrite (U2 R)]; reflexivity.
Qed.
(** axes which the box of an EPOCH dump does not have *)
Lemma sdf_no_axis m a : (forall id, names_axis a id -> Z.of_nat (length (m_extents m)) <= id + Z.of_nat (length (m_dims m))) -> sdf_simextent m a = Err KeyError.
Proof.
  intro H. unfold sdf_simextent. destruct (axid a) as [id|e] eqn:E; [|reflexivity]. apply axis_named, H in E. cbv zeta. destruct (Z.leb_spec (Z.of_nat (length (m_extents m))) (id + Z.of_nat (length (m_dims m)))); [reflexivity|lia].
Qed.
Lemma even_linspace a b n num : num = Z.of_nat n -> (2 <= n)%nat -> exists l, np_linspace a b num = Ok l /\ even_from a b n l.
Proof.
  intros -> H. destruct (np_linspace_total a b (Z.of_nat n)) as [l E]; [lia|]. exists l. split; [exact E|]. apply np_linspace_ok in E as [L V].
  split; [lia|]. intros i I. apply V; lia.
Qed.
Lemma dummy_axes d a i lo hi n : axid a = Ok i -> dummy_axis d i lo hi n ->
  (exists gr, dummy_grid d a = Ok gr /\ even_from lo hi n gr) /\ (exists gn, dummy_gridnode d a = Ok gn /\ even_from lo hi (S n) gn).
Proof.
  intros A D. unfold dummy_grid, dummy_gridnode, dummy_args. rewrite A. cbn [bind].
  destruct D; cbn [Z.leb Z.compare Pos.compare Pos.compare_cont];
  (split; (apply even_linspace; [reflexivity|lia])).
Qed.
Lemma dummy_absent d a i : axid a = Ok i -> d <= i -> dummy_grid d a = Err KeyError /\ dummy_gridnode d a = Err KeyError /\ dummy_simextent d a = Err KeyError.
Proof.
  intros A D. unfold dummy_simextent, dummy_grid, dummy_gridnode, dummy_args. rewrite A. cbn [bind]. apply Z.leb_le in D. rewrite D. repeat split.
Qed.
Lemma even_ends lo hi n l : (2 <= n)%nat -> even_from lo hi n l -> exists x y, getidx l 0 = Ok x /\ getidx l (-1) = Ok y /\ (x == lo)%Q /\ (y == hi)%Q.
Proof.
  intros H [L V]. exists (nth 0 l 0%Q), (nth (n - 1) l 0%Q). split; [|split; [|split]].
  - destruct l as [|x l]; [cbn in L; lia|]. unfold getidx. cbn [Z.ltb Z.compare]. destruct (Z.leb_spec 0 0); [|lia]. destruct (Z.ltb_spec 0 (Z.of_nat (length (x :: l)))); [reflexivity|lia].
  - unfold getidx. cbn [Z.ltb Z.compare]. rewrite L. destruct (Z.leb_spec 0 (-1 + Z.of_nat n)); [|lia]. destruct (Z.ltb_spec (-1 + Z.of_nat n) (Z.of_nat n)); [|lia]. cbn [andb].
    replace (Z.to_nat (-1 + Z.of_nat n)) with (n - 1)%nat by lia. rewrite (nth_error_nth' l 0%Q) by lia. reflexivity.
  - rewrite V by lia. unfold inject_Z at 1. cbn [Z.of_nat]. ring.
  - rewrite V by lia. replace (Z.of_nat (n - 1)) with (Z.of_nat n - 1) by lia. field. apply inject_Z_nz. lia.
Qed.
Lemma dummy_ends d a i lo hi n : axid a = Ok i -> dummy_axis d i lo hi n -> exists x y, dummy_simextent d a = Ok (x, y) /\ (x == lo)%Q /\ (y == hi)%Q.
Proof.
  intros A D. destruct (dummy_axes d a i lo hi n A D) as [(gr & E & V) _]. assert (N : (2 <= n)%nat) by (destruct D; lia).
  destruct (even_ends lo hi n gr N V) as (x & y & X & Y & EX & EY). exists x, y. unfold dummy_simextent. rewrite E. cbn [bind]. rewrite X. cbn [bind]. rewrite Y. repeat split; assumption.
Qed.
