(** Theorems about readers: C56, C57, C62, C63, C76, C77, C78. *)
From Coq Require Import QArith String Ascii List ZArith Bool Lia Sorted Permutation.
From Verif Require Import PyBase PyBaseFacts NumpyModel AxisModel AxisSpec NdModel FieldModel ReaderModel ReaderSpec ReaderFacts ReaderGrid ReaderLaws CaseSpec CaseFacts.
Import ListNotations.
Local Open Scope Z_scope.
Open Scope list_scope.

(** * C57: a simulation reader is a sequence of dumps *)
Theorem C57_index_partial {F D} (op : F -> res D) files k f : nth_error files k = Some f ->
  sim_int (series op files) (Z.of_nat k) = op f /\ sim_int (series op files) (Z.of_nat k - Z.of_nat (length files)) = op f.
Proof. exact (fun E => match series_at op files k f E with conj a (conj b _) => conj a b end). Qed.
Print Assumptions C57_index_partial.
Example C57_index_case : sim_int (series Ok ["a"; "b"; "c"]%string) 2 = Ok "c"%string /\ sim_int (series Ok ["a"; "b"; "c"]%string) (-3) = Ok "a"%string.
Proof. split; reflexivity. Qed.

Theorem C57_out_of_range_partial {F D} (op : F -> res D) files i : Z.of_nat (length files) <= i \/ i < - 2 * Z.of_nat (length files) -> sim_int (series op files) i = Err IndexError.
Proof. exact (series_out op files i). Qed.
Print Assumptions C57_out_of_range_partial.
Example C57_out_case : sim_int (series Ok ["a"; "b"; "c"]%string) 3 = Err IndexError /\ sim_int (series Ok ["a"; "b"; "c"]%string) (-7) = Err IndexError.
Proof. split; reflexivity. Qed.

(** indices between -2 len and -len - 1 are out of range for a sequence, yet every series of files answers them *)
Theorem C57_negative_refuted {F D} (op : F -> res D) files k f : nth_error files k = Some f ->
  let i := Z.of_nat k - 2 * Z.of_nat (length files) in i < - Z.of_nat (length files) /\ sim_int (series op files) i = op f.
Proof. exact (fun E => conj (twice_out files k f E) (proj2 (proj2 (series_at op files k f E)))). Qed.
Print Assumptions C57_negative_refuted.
Example C57_negative_case : sim_int (series Ok ["a"; "b"; "c"]%string) (-4) = Ok "c"%string.
Proof. reflexivity. Qed.

Theorem C57_dummy_partial n i : 0 <= i < n -> sim_int (dummysim n) i = Ok i /\ sim_int (dummysim n) (i - n) = Ok i.
Proof. exact (dummy_at n i). Qed.
Print Assumptions C57_dummy_partial.
Theorem C57_dummy_refuted n i : 0 < n -> i < - n -> sim_int (dummysim n) i = Err ValueError.
Proof. exact (dummy_out n i). Qed.
Print Assumptions C57_dummy_refuted.
Example C57_dummy_case : sim_int (dummysim 3) (-1) = Ok 2 /\ sim_int (dummysim 3) (-4) = Err ValueError /\ sim_int (dummysim 3) 3 = Err IndexError.
Proof. repeat split. Qed.

Theorem C57_slice {F D} (op : F -> res D) files sl : sim_slice (series op files) sl = let! l := getslice files sl in mapM op l.
Proof. exact (series_slice op files sl). Qed.
Print Assumptions C57_slice.
Example C57_slice_case : sim_slice (series Ok [10; 11; 12; 13; 14]) (mkslice None None (Some (-2))) = Ok [14; 12; 10] /\ sim_slice (series Ok [10; 11]) (mkslice None None (Some 0)) = Err ValueError.
Proof. split; reflexivity. Qed.

(** iteration visits every dump once, in order, and the times are those of the dumps in that order *)
Theorem C57_iteration_partial {F D} (op : F -> res D) files : (forall f, In f files -> op f <> Err IndexError) -> sim_list (series op files) = mapM op files.
Proof. exact (series_list op files). Qed.
Print Assumptions C57_iteration_partial.
Theorem C57_times_partial {F D T} (op : F -> res D) (time : D -> res T) files : (forall f, In f files -> op f <> Err IndexError) ->
  sim_times time (series op files) = let! l := mapM op files in mapM time l.
Proof. exact (series_times op time files). Qed.
Print Assumptions C57_times_partial.
Example C57_iteration_case : sim_list (series (fun z => if z =? 3 then Err IOError else Ok z) [1; 2; 4]) = Ok [1; 2; 4] /\ sim_list (series (fun z => if z =? 3 then Err IOError else Ok z) [1; 3; 4]) = Err IOError.
Proof. split; reflexivity. Qed.
(** a file whose opening raises IndexError ends the iteration without an error *)
Theorem C57_iteration_refuted {F D} (op : F -> res D) before f after : (forall x, In x before -> op x <> Err IndexError) -> op f = Err IndexError ->
  sim_list (series op (before ++ f :: after)) = mapM op before.
Proof. exact (series_cut op before f after). Qed.
Print Assumptions C57_iteration_refuted.
Example C57_iteration_refuted_case : sim_list (series (fun z => if z =? 3 then Err IndexError else Ok z) [1; 3; 4]) = Ok [1].
Proof. reflexivity. Qed.

(** the iterations of a Smilei directory *)
Theorem C57_smilei_partial int keys k key : nth_error keys k = Some key ->
  sim_int (smilei_series int true keys) (Z.of_nat k) = Ok (int key) /\ sim_int (smilei_series int true keys) (Z.of_nat k - Z.of_nat (length keys)) = Ok (int key).
Proof. exact (smilei_dir int keys k key). Qed.
Print Assumptions C57_smilei_partial.
(** given as a file, no dump of the series can be opened *)
Theorem C57_smilei_refuted int keys i : 0 <= i < Z.of_nat (length keys) -> sim_int (smilei_series int false keys) i = Err IOError.
Proof. exact (smilei_file int keys i). Qed.
Print Assumptions C57_smilei_refuted.
Example C57_smilei_case : let int := fun s => Z.of_nat (String.length s) in
  sim_int (smilei_series int true ["0"; "10"]%string) (-1) = Ok 2 /\ sim_int (smilei_series int false ["0"; "10"]%string) 1 = Err IOError.
Proof. split; reflexivity. Qed.

(** * C56: grids of the dumps *)
Theorem C56_nodes g key a o s n : regular g key a o s n -> (1 <= n)%nat ->
  exists gn, gridnode g key a = Ok gn /\ length gn = S n /\ forall i, (i <= n)%nat -> (nth i gn 0 == o + inject_Z (Z.of_nat i) * s)%Q.
Proof. exact (fun R N => match gridnode_ok g key a o s n R N with ex_intro _ gn (conj E (conj _ H)) => ex_intro _ gn (conj E H) end). Qed.
Print Assumptions C56_nodes.
Theorem C56_centres g key a o s n : regular g key a o s n -> (1 <= n)%nat ->
  exists gr, grid g key a = Ok gr /\ length gr = n /\ forall i, (i < n)%nat -> (nth i gr 0 == o + (inject_Z (Z.of_nat i) + (1 # 2)) * s)%Q.
Proof. exact (grid_ok g key a o s n). Qed.
Print Assumptions C56_centres.
Theorem C56_simulation_box g key a o s n : regular g key a o s n -> (1 <= n)%nat -> first_key g a key ->
  simgridpoints g a = Ok (Z.of_nat n) /\ simextent g a = Ok (o, o + s * inject_Z (Z.of_nat n))%Q /\ exists h, simgridspacing g a = Ok h /\ (h == s)%Q.
Proof. exact (sim_ok g key a o s n). Qed.
Print Assumptions C56_simulation_box.
Theorem C56_axis spl g key a nm o s n ov : reproduces_lines spl -> In (a, nm) axis_keys -> regular g key a o s n -> (1 <= n)%nat -> ~ (s == 0)%Q -> ov nm = None ->
  exists ax, getaxisobj spl g key a ov None = Ok (inl ax) /\ axis_uniform o (o + s * inject_Z (Z.of_nat n)) n ax /\ ax_name ax = nm /\ ax_unit ax = "m"%string /\
    (exists gn, gridnode g key a = Ok gn /\ ax_node ax = gn) /\
    (exists gr, grid g key a = Ok gr /\ Forall2 Qeq (ax_grid ax) gr).
Proof. exact (axis_key_ok spl g key a nm o s n ov). Qed.
Print Assumptions C56_axis.
Theorem C56_field spl g key x y z ov sh axes : reproduces_lines spl -> (1 <= length sh <= 3)%nat -> length axes = length sh -> (forall nm, ov nm = None) ->
  (forall k a, nth_error [x; y; z] k = Some a -> exists id, axid a = Ok id /\ id mod 90 = Z.of_nat k) ->
  (forall k a, (k < length sh)%nat -> nth_error [x; y; z] k = Some a -> exists o s n, regular g key a o s n /\ (1 <= n)%nat /\ ~ (s == 0)%Q /\ nth_error sh k = Some (Z.of_nat n)) ->
  exists axes', setgridtofield spl g key (x, y, z) ov None sh axes = Ok axes' /\ length axes' = length sh /\
    forall k a, (k < length sh)%nat -> nth_error [x; y; z] k = Some a -> exists ax, nth_error axes' k = Some ax /\ full_axis g key a sh k ax.
Proof. exact (setgrid_ok spl g key x y z ov sh axes). Qed.
Print Assumptions C56_field.

(** a dump of 2 x 3 cells *)
Definition demo_rec : h5rec := mkrec None (Some 1%Q) (Some (mkarr [2; 3] (fun _ => 0%Q))) (mkga (Some [1; 2]%Q) (Some [1 # 2; 3]%Q) (Some 2%Q)) (mkga None None None).
Definition demo_file : string -> res h5rec := fun k => if String.eqb k "fields/E/x" then Ok demo_rec else Err KeyError.
Example C56_regular_case : regular (pmd demo_file) "fields/E/x" (KS "y") 4 6 3 /\ first_key (pmd demo_file) (KS "y") "fields/E/x".
Proof.
  split; [repeat split; reflexivity|]. exists [], (tl (g_keys (pmd demo_file))). split; [reflexivity|]. intros k [].
Qed.
Example C56_box_case : exists l, gridnode (pmd demo_file) "fields/E/x" (KS "y") = Ok l /\ Forall2 Qeq l [4; 10; 16; 22]%Q.
Proof. eexists. split; [vm_compute; reflexivity|]. repeat (constructor; [reflexivity|]). constructor. Qed.

(** The axes have exactly these names and numbers, others raise KeyError ... *)
Theorem C56_axis_names a id : axid a = Ok id <-> names_axis a id.
Proof. exact (axis_named a id). Qed.
Print Assumptions C56_axis_names.
Theorem C56_axis_unknown a e : axid a = Err e -> e = KeyError.
Proof. exact (axis_unnamed a e). Qed.
Print Assumptions C56_axis_unknown.
Example C56_axis_case : names_axis (KS "R") 90 /\ axid (KS "px") = Err KeyError /\ axid (KI 3) = Err KeyError /\ axid (KI (-1)) = Err KeyError.
Proof. split; [cbn; intuition|]. repeat split. Qed.
(** EPOCH: the stored fields have regular grids, half a cell before their first point *)
Theorem C56_epoch_grid file key a id r lo hi nn x n : axid a = Ok (Z.of_nat id) -> file key = Ok r ->
  let m := sd_grid r in let dx := ((hi - lo) / inject_Z (nn - 1))%Q in
  length (m_extents m) = (2 * length (m_dims m))%nat -> nth_error (m_extents m) id = Some lo -> nth_error (m_extents m) (id + length (m_dims m)) = Some hi ->
  nth_error (m_dims m) id = Some nn -> 2 <= nn -> nth_error (sd_dims r) id = Some (Z.of_nat n) ->
  (exists l, nth_error (if Z.testbit (sdf_stagger key r) (Z.of_nat id) then sd_mid r else m_data m) id = Some l /\ nth_error l 0 = Some x) ->
  regular (sdf file) key a (x - dx / 2) dx n.
Proof. exact (sdf_regular file key a id r lo hi nn x n). Qed.
Print Assumptions C56_epoch_grid.
Theorem C56_epoch_box m a id lo hi nn : axid a = Ok (Z.of_nat id) -> length (m_extents m) = (2 * length (m_dims m))%nat -> nth_error (m_extents m) id = Some lo ->
  nth_error (m_extents m) (id + length (m_dims m)) = Some hi -> nth_error (m_dims m) id = Some nn -> 2 <= nn ->
  sdf_simextent m a = Ok (lo, hi) /\ sdf_simgridpoints m a = Ok (nn - 1) /\ sdf_simgridspacing m a = Ok ((hi - lo) / inject_Z (nn - 1))%Q.
Proof. exact (sdf_sim m a id lo hi nn). Qed.
Print Assumptions C56_epoch_box.
(** two cells from 0 to 4: nodes 0, 2, 4 and centres 1, 3 *)
Definition demo_mesh : mesh := mkmesh [0; 4]%Q [3] [[0; 2; 4]%Q].
Definition demo_sdf : string -> res sdfrec := fun k =>
  if String.eqb k "Electric Field/Ex" then Ok (mksdf (Some 1) [2] demo_mesh [[1; 3]%Q])
  else if String.eqb k "Electric Field/Ey" then Ok (mksdf (Some 2) [2] demo_mesh [[1; 3]%Q])
  else if String.eqb k "Derived/Number_Density" then Ok (mksdf None [2] demo_mesh [[1; 3]%Q]) else Err KeyError.
Example C56_epoch_case : regular (sdf demo_sdf) "Electric Field/Ex" (KS "x") (1 - (4 - 0) / 2 / 2) ((4 - 0) / 2) 2 /\ sdf_simextent demo_mesh (KS "x") = Ok (0, 4)%Q.
Proof. repeat split. Qed.
(** which fields are shifted, unless the file says so itself *)
Theorem C56_epoch_stagger f c av r axis : sd_stagger r = None -> (c < 3)%nat -> (axis < 3)%nat -> Z.testbit (sdf_stagger (epoch_key f c av) r) (Z.of_nat axis) = epoch_shifted f c axis.
Proof. exact (epoch_stagger f c av r axis). Qed.
Print Assumptions C56_epoch_stagger.
Example C56_epoch_stagger_case : epoch_key Magnetic 0 true = "Magnetic Field/Bx_averaged"%string /\ epoch_shifted Magnetic 0 0 = false.
Proof. split; reflexivity. Qed.
(** a cell-centred quantity is placed half a cell too low: its grid leaves the simulation box *)
Theorem C56_epoch_derived_refuted : exists file key a lo hi gn, sdf_simextent demo_mesh a = Ok (lo, hi) /\ gridnode (sdf file) key a = Ok gn /\
  file key = Ok (mksdf None [2] demo_mesh [[1; 3]%Q]) /\ exists x, nth_error gn 0 = Some x /\ (x < lo)%Q.
Proof. exact epoch_derived. Qed.
Print Assumptions C56_epoch_derived_refuted.

(** FBPIC: the angle runs once around, whatever the number of modes *)
Theorem C56_fbpic_angle pi file key r d Nm Nr Nz : file key = Ok r -> h_array r = Some d -> a_shape d = [Nm; Nr; Nz] -> 1 <= Nm ->
  regular (fbpic pi file) key (KS "theta") 0 (2 * pi / inject_Z ((Nm + 1) / 2)) (Z.to_nat ((Nm + 1) / 2)).
Proof. exact (fbpic_theta pi file key r d Nm Nr Nz). Qed.
Print Assumptions C56_fbpic_angle.
Theorem C56_fbpic_radius pi file key r d Nm Nr Nz o0 o1 s0 s1 u : file key = Ok r -> h_array r = Some d -> a_shape d = [Nm; Z.of_nat Nr; Z.of_nat Nz] -> described r [o0; o1] [s0; s1] u ->
  regular (fbpic pi file) key (KS "r") (o0 * u) (s0 * u) Nr /\ regular (fbpic pi file) key (KS "z") (o1 * u) (s1 * u) Nz.
Proof. exact (fbpic_rz pi file key r d Nm Nr Nz o0 o1 s0 s1 u). Qed.
Print Assumptions C56_fbpic_radius.
Example C56_fbpic_case : let f := fun _ : string => Ok (mkrec None (Some 1%Q) (Some (mkarr [5; 4; 7] (fun _ => 0%Q))) (mkga None None None) (mkga None None None)) in
  g_pts (fbpic 3 f) "E/r" (KS "theta") = Ok 3 /\ g_pts (fbpic 3 f) "E/r" (KS "r") = Ok 4 /\ g_pts (fbpic 3 f) "E/r" (KS "z") = Ok 7.
Proof. repeat split. Qed.

(** a file without the axis raises IndexError, not the KeyError which ends the search *)
Theorem C56_missing_axis_refuted : exists file a, simextent (pmd file) a = Err IndexError.
Proof. exact missing_axis. Qed.
Print Assumptions C56_missing_axis_refuted.
(** no cells: one node but two grid points, neither of them a centre *)
Theorem C56_empty_refuted g key a o s : regular g key a o s 0 -> exists gr, grid g key a = Ok gr /\ length gr = 2%nat.
Proof. exact (grid_empty g key a o s). Qed.
Print Assumptions C56_empty_refuted.
Example C56_empty_case : regular (mkg (fun _ _ => Ok 6%Q) (fun _ _ => Ok 1%Q) (fun _ _ => Ok 0) []) "" (KI 0) 6 1 0.
Proof. repeat split. Qed.
(** the axes of the dummy reader in one, two and three dimensions *)
Theorem C56_dummy_axes : forall d a i lo hi n, axid a = Ok i -> dummy_axis d i lo hi n ->
  (exists gr, dummy_grid d a = Ok gr /\ even_from lo hi n gr) /\ (exists gn, dummy_gridnode d a = Ok gn /\ even_from lo hi (S n) gn).
Proof. exact dummy_axes. Qed.
Print Assumptions C56_dummy_axes.
Theorem C56_dummy_extent : forall d a i lo hi n, axid a = Ok i -> dummy_axis d i lo hi n -> exists x y, dummy_simextent d a = Ok (x, y) /\ (x == lo)%Q /\ (y == hi)%Q.
Proof. exact dummy_ends. Qed.
Print Assumptions C56_dummy_extent.
Theorem C56_dummy_absent : forall d a i, axid a = Ok i -> d <= i -> dummy_grid d a = Err KeyError /\ dummy_gridnode d a = Err KeyError /\ dummy_simextent d a = Err KeyError.
Proof. exact dummy_absent. Qed.
Print Assumptions C56_dummy_absent.
Example C56_dummy_axes_case : axid (KS "y") = Ok 1 /\ dummy_axis 2 1 (-5) 5 400 /\ axid (KS "z") = Ok 2 /\ 2 <= 2.
Proof. repeat split; try constructor; discriminate. Qed.
(** the dummy reader's grid is not made of the centres of its cells, and the number of points is an array *)
Theorem C56_dummy_refuted : exists d a gn gr, dummy_gridnode d a = Ok gn /\ dummy_grid d a = Ok gr /\ dummy_simgridpoints d a = Ok gr /\
  length gn = S (length gr) /\ exists x y z, nth_error gn 0 = Some x /\ nth_error gn 1 = Some y /\ nth_error gr 0 = Some z /\ ~ (z == (x + y) / 2)%Q /\ (z == x)%Q.
Proof. exact dummy_grids. Qed.
Print Assumptions C56_dummy_refuted.
(** Smilei fields stored as modes have no grid along r *)
Theorem C56_smilei_radius_refuted am file key r d Nx Nr o s : existsb (String.eqb key) am = true -> file (key ++ "_mode_0")%string = Ok r -> h_array r = Some d -> a_shape d = [Nx; Nr] ->
  pmd_off file (key ++ "_mode_0")%string (KI 1) = Ok o -> pmd_sp file (key ++ "_mode_0")%string (KI 1) = Ok s -> sm_gridnode am file key (KS "r") = Err TypeError.
Proof. exact (smilei_radius am file key r d Nx Nr o s). Qed.
Print Assumptions C56_smilei_radius_refuted.
Example C56_smilei_case : let f := fun k => if String.eqb k "El_mode_0" then Ok demo_rec else Err KeyError in
  sm_gridnode ["El"]%string f "El" (KS "r") = Err TypeError /\ exists l, sm_gridnode ["El"]%string f "El" (KS "x") = Ok l.
Proof. split; [reflexivity|eexists; vm_compute; reflexivity]. Qed.

(** axes which are unknown or which the box of an EPOCH dump does not have raise KeyError *)
Theorem C56_epoch_no_axis m a : (forall id, names_axis a id -> Z.of_nat (length (m_extents m)) <= id + Z.of_nat (length (m_dims m))) -> sdf_simextent m a = Err KeyError.
Proof. exact (sdf_no_axis m a). Qed.
Print Assumptions C56_epoch_no_axis.
Example C56_epoch_no_axis_case : forall a id, a = KS "y" \/ a = KS "energy" -> names_axis a id -> Z.of_nat (length (m_extents demo_mesh)) <= id + Z.of_nat (length (m_dims demo_mesh)).
Proof. intros a id [-> | ->]; cbn; intuition (try discriminate; try lia). Qed.
(** grids given by the caller are used instead of those in the file, and the number of angles is
    used for the angle only *)
Theorem C56_given_grid spl g key a nm ov Nt gr : In (a, nm) axis_keys -> ov nm = Some gr -> (nm = "theta"%string -> Nt = None) ->
  forall v, getaxisobj spl g key a ov Nt = Ok v <-> exists ax, v = inl ax /\ mk_axis spl nm "m" None (Some gr) None None = Ok ax.
Proof. exact (given_grid spl g key a nm ov Nt gr). Qed.
Print Assumptions C56_given_grid.
Theorem C56_given_grid_kept spl g key a nm ov Nt gr ax : In (a, nm) axis_keys -> ov nm = Some gr -> (nm = "theta"%string -> Nt = None) -> getaxisobj spl g key a ov Nt = Ok (inl ax) -> ax_grid ax = gr /\ ax_name ax = nm /\ ax_unit ax = "m"%string.
Proof. exact (given_grid_kept spl g key a nm ov Nt gr ax). Qed.
Print Assumptions C56_given_grid_kept.
Theorem C56_angles spl g key a ov n : (names_axis a 91 -> getaxisobj spl g key a ov (Some n) = Ok (inr n)) /\
  forall Nt m, getaxisobj spl g key a ov Nt = Ok (inr m) -> names_axis a 91 /\ Nt = Some m.
Proof. exact (given_angles spl g key a ov n). Qed.
Print Assumptions C56_angles.
Example C56_given_case : let ov := fun s => if String.eqb s "y" then Some [1; 2; 3]%Q else None in
  In (KS "Y", "y"%string) axis_keys /\ (exists ax, getaxisobj (fun _ _ x => x) (pmd demo_file) "fields/E/x" (KS "Y") ov (Some 4) = Ok (inl ax) /\ length (ax_grid ax) = 3%nat) /\ names_axis (KS "t") 91.
Proof. intro ov. split; [cbn; intuition|]. split; [eexists; split; [vm_compute; reflexivity|reflexivity]|]. cbn. intuition. Qed.
(** Smilei: the angle starts at 0, but there is no spacing, hence no grid *)
Theorem C56_smilei_angle_refuted am file key a r off sp u : names_axis a 91 -> file key = Ok r -> described r off sp u -> (length sp <= 3)%nat -> sm_off am file key a = Ok 0%Q /\ sm_sp am file key a = Err IndexError.
Proof. exact (smilei_angle am file key a r off sp u). Qed.
Print Assumptions C56_smilei_angle_refuted.
Example C56_smilei_angle_case : names_axis (KS "theta") 91 /\ described demo_rec [1; 2]%Q [1 # 2; 3]%Q 2.
Proof. split; [cbn; intuition|left; reflexivity]. Qed.

(** * C62: units and offsets *)
Theorem C62_grid file key a id r off sp u o s d n : axid a = Ok id -> file key = Ok r -> described r off sp u ->
  h_array r = Some d -> nth_error off (Z.to_nat id) = Some o -> nth_error sp (Z.to_nat id) = Some s -> nth_error (a_shape d) (Z.to_nat id) = Some (Z.of_nat n) -> 0 <= id ->
  regular (pmd file) key a (o * u) (s * u) n.
Proof. exact (pmd_described file key a id r off sp u o s d n). Qed.
Print Assumptions C62_grid.
Example C62_grid_case : described demo_rec [1; 2]%Q [1 # 2; 3]%Q 2 /\ described (mkrec None (Some 1%Q) None (mkga None (Some [7]%Q) None) (mkga (Some [1]%Q) (Some [3]%Q) (Some 5%Q))) [1]%Q [3]%Q 5.
Proof. split; [left; reflexivity|right; split; reflexivity]. Qed.
Theorem C62_record file key r u : file key = Ok r -> readable r -> h_unit r = Some u ->
  exists p, pmd_data file key = Ok p /\ shape_of p = rec_shape r /\ forall i, value_at p i = (stored r i * u)%Q.
Proof. exact (data_ok file key r u). Qed.
Print Assumptions C62_record.
Theorem C62_attribute_names a id : attribid a = Ok id <-> names_attribute a id.
Proof. exact (attribute_named a id). Qed.
Print Assumptions C62_attribute_names.
Theorem C62_position w file sp attrib k rp ro up uo : (k < 3)%nat -> attribid attrib = Ok (Z.of_nat k) ->
  file ("particles/" ++ sp ++ "/" ++ "position/" ++ pos_axis k)%string = Ok rp -> file ("particles/" ++ sp ++ "/" ++ "positionOffset/" ++ pos_axis k)%string = Ok ro ->
  readable rp -> readable ro -> h_unit rp = Some up -> h_unit ro = Some uo ->
  (forall a, h_array rp = Some a -> a_shape a <> []) -> (forall a, h_array ro = Some a -> a_shape a <> []) ->
  (rec_shape ro = rec_shape rp \/ rec_shape ro = [] \/ rec_shape rp = []) ->
  exists p, getspecies w file sp attrib = Ok p /\ forall i, (value_at p i == stored rp i * up + stored ro i * uo)%Q.
Proof. exact (position_ok w file sp attrib k rp ro up uo). Qed.
Print Assumptions C62_position.
Theorem C62_attribute w file sp attrib id nm r u : attribid attrib = Ok id -> record_name w id = Some nm -> file ("particles/" ++ sp ++ "/" ++ nm)%string = Ok r -> readable r -> h_unit r = Some u ->
  exists p, getspecies w file sp attrib = Ok p /\ shape_of p = rec_shape r /\ forall i, (value_at p i == stored r i * u)%Q.
Proof. exact (other_ok w file sp attrib id nm r u). Qed.
Print Assumptions C62_attribute.
(** an offset with a single entry counts for all particles *)
Theorem C62_single_offset w file sp attrib k rp ro up uo : (k < 3)%nat -> attribid attrib = Ok (Z.of_nat k) ->
  file ("particles/" ++ sp ++ "/" ++ "position/" ++ pos_axis k)%string = Ok rp -> file ("particles/" ++ sp ++ "/" ++ "positionOffset/" ++ pos_axis k)%string = Ok ro ->
  readable rp -> h_unit rp = Some up -> h_unit ro = Some uo -> rec_shape rp <> [] -> rec_shape rp <> [1%Z] -> rec_shape ro = [1%Z] ->
  exists p, getspecies w file sp attrib = Ok p /\ shape_of p = rec_shape rp /\ forall i, (value_at p i == stored rp i * up + stored ro [0%Z] * uo)%Q.
Proof. exact (position_single w file sp attrib k rp ro up uo). Qed.
Print Assumptions C62_single_offset.
(** records without unit raise KeyError, groups raise TypeError *)
Theorem C62_no_unit w file sp attrib id nm r : attribid attrib = Ok id -> record_name w id = Some nm -> file ("particles/" ++ sp ++ "/" ++ nm)%string = Ok r ->
  (readable r -> h_unit r = None -> getspecies w file sp attrib = Err KeyError) /\ (~ readable r -> getspecies w file sp attrib = Err TypeError).
Proof. exact (unreadable_species w file sp attrib id nm r). Qed.
Print Assumptions C62_no_unit.
Example C62_single_case : let none := mkga None None None in let rp := mkrec None (Some 2%Q) (Some (mkarr [3] (fun i => inject_Z (hd 0 i)))) none none in let ro := mkrec None (Some 10%Q) (Some (mkarr [1] (fun _ => 7%Q))) none none in
  readable rp /\ rec_shape rp = [3%Z] /\ rec_shape ro = [1%Z] /\ ~ readable (mkrec None None None none none).
Proof. cbv zeta. split; [right; discriminate|]. split; [reflexivity|]. split; [reflexivity|]. intros [H|H]; apply H; reflexivity. Qed.
Theorem C62_missing w file sp attrib : (forall k, file k = Err KeyError \/ file k = Err IndexError) -> getspecies w file sp attrib = Err KeyError.
Proof. exact (missing_ok w file sp attrib). Qed.
Print Assumptions C62_missing.
Definition demo_species : string -> res h5rec := fun k =>
  let none := mkga None None None in
  if String.eqb k "particles/e/position/y" then Ok (mkrec None (Some 2%Q) (Some (mkarr [2] (fun i => inject_Z (hd 0 i + 1)))) none none)
  else if String.eqb k "particles/e/positionOffset/y" then Ok (mkrec (Some 5%Q) (Some 10%Q) None none none)
  else if String.eqb k "particles/e/momentum/z" then Ok (mkrec (Some 7%Q) (Some 3%Q) None none none) else Err KeyError.
Example C62_case : (exists p, getspecies "weighting" demo_species "e" (KS "y") = Ok p /\ (value_at p [1%Z] == 54)%Q) /\
  (exists p, getspecies "weighting" demo_species "e" (KS "Pz") = Ok p /\ (value_at p [0%Z] == 21)%Q) /\ getspecies "weighting" demo_species "e" (KS "x") = Err KeyError.
Proof. split; [eexists; split; [vm_compute; reflexivity|reflexivity]|]. split; [eexists; split; [vm_compute; reflexivity|reflexivity]|reflexivity]. Qed.
(** the numbers of the attributes: those of Px and Py are accepted, that of Pz is not *)
Theorem C62_numbers_refuted : exists file sp, (exists p, getspecies "weighting" file sp (KS "Pz") = Ok p) /\ attribid (KS "Pz") = Ok 5 /\ getspecies "weighting" file sp (KI 5) = Err KeyError.
Proof. exact (ex_intro _ demo_species (ex_intro _ "e"%string (conj (ex_intro _ _ eq_refl) (conj eq_refl eq_refl)))). Qed.
Print Assumptions C62_numbers_refuted.

(** * C63: the choice of the code *)
Theorem C63_choice avail s code : choose avail s code =
  match usable avail code with
  | Some (d, k) => (mkst (Some (D d)) (Some (Sm k)), Ok tt)
  | None => (s, Err (match preset presets (lower code) with Some _ => BareException | None => if String.eqb (lower code) "vsim" then BareException else TypeError end))
  end.
Proof. exact (choose_table avail s code). Qed.
Print Assumptions C63_choice.
Theorem C63_last avail codes : let s := chosen avail (mkst None None) codes in
  readdump s = match last_usable avail codes with Some (d, _) => Ok (D d) | None => Err BareException end /\
  readsim s = match last_usable avail codes with Some (_, k) => Ok (Sm k) | None => Err BareException end.
Proof. exact (last_wins avail codes). Qed.
Print Assumptions C63_last.
Theorem C63_case_insensitive avail s c c' : same_word c c' -> choose avail s c = choose avail s c'.
Proof. exact (choose_word avail s c c'). Qed.
Print Assumptions C63_case_insensitive.
(** lower, of which C63_choice speaks, takes capitals to their small letters and nothing else *)
Theorem C63_lower : (forall c, lower_char c = c \/ In (c, lower_char c) alphabet) /\ forall s t, lower s = lower t <-> same_word s t.
Proof. exact (conj lower_again lower_word). Qed.
Print Assumptions C63_lower.
Example C63_word_case : same_word "ePoch-Z1" "EPOCH-z1" /\ ~ same_word "epoch" "epoc" /\ ~ same_word "[" "{".
Proof.
  split; [apply lower_word; reflexivity|]. split; intro H; apply lower_word in H; discriminate H.
Qed.
Example C63_case : let av := fun m => negb (String.eqb m "smileih5") in
  readdump (chosen av (mkst None None) ["EPOCH"; "FbPic"; "vsim"; "smilei"; "nonsense"]%string) = Ok (D "FbpicReader") /\
  snd (choose av (mkst None None) "smilei") = Err BareException /\ snd (choose av (mkst None None) "nonsense") = Err TypeError.
Proof. repeat split. Qed.

(** with classes of the user, in any sequence of calls: the last call which succeeded in setting a
    reader counts, for dumps and for simulations on their own *)
Theorem C63_readers avail calls : let s := fold_left (fun s c => fst (do_rcall avail s c)) calls (mkst None None) in
  (exists x, latest (wants_dump avail) calls x /\ readdump s = match x with Some c => Ok c | None => Err BareException end) /\
  exists y, latest (wants_sim avail) calls y /\ readsim s = match y with Some c => Ok c | None => Err BareException end.
Proof. exact (read_latest avail calls). Qed.
Print Assumptions C63_readers.
Theorem C63_kinds avail calls c : let s := fold_left (fun s c => fst (do_rcall avail s c)) calls (mkst None None) in
  (readdump s = Ok c -> c_dump c = true) /\ (readsim s = Ok c -> c_sim c = true).
Proof. exact (reads_its_kind avail calls c). Qed.
Print Assumptions C63_kinds.
Theorem C63_refused avail s c e : snd (do_rcall avail s c) = Err e -> fst (do_rcall avail s c) = s.
Proof. exact (refused_keeps avail s c e). Qed.
Print Assumptions C63_refused.
Example C63_user_case : let mine := mkcls "MyReader" true false in
  let s := fold_left (fun s c => fst (do_rcall (fun _ => true) s c)) [ChooseCode "epoch"; SetDump (Some mine); SetSim (Some mine); SetDump None] (mkst None None) in
  readdump s = Ok mine /\ readsim s = Ok (Sm "Visitreader").
Proof. split; reflexivity. Qed.

(** * C76: visit files *)
Theorem C76_lines_partial e dir names last : e = String lf "" \/ e = String cr (String lf "") -> (forall n, In n names -> plain n) -> plain last ->
  visit_files dir (text_of e names ++ last) = map (path_join dir) (names ++ match last with EmptyString => [] | _ => [last] end).
Proof. exact (visit_lines e dir names last). Qed.
Print Assumptions C76_lines_partial.
Example C76_case : visit_files "run" (text_of (String cr (String lf "")) ["0000.sdf"; "0001.sdf"]%string ++ "0002.sdf") = ["run/0000.sdf"; "run/0001.sdf"; "run/0002.sdf"]%string.
Proof. reflexivity. Qed.
(** whatever the text, its lines are the names of the files, in order *)
Theorem C76_every_text dir text : exists ns, has_lines ns text /\ Forall2 (file_in dir) ns (visit_files dir text).
Proof. exact (visit_every dir text). Qed.
Print Assumptions C76_every_text.
Theorem C76_only_files dir text ns ps : has_lines ns text -> Forall2 (file_in dir) ns ps -> visit_files dir text = ps.
Proof. exact (visit_unique dir text ns ps). Qed.
Print Assumptions C76_only_files.
Example C76_places : has_lines ["a"; "b"]%string ("a" ++ String cr "b") /\ file_in "run/" "a" "run/a" /\ file_in "run" "/a" "/a" /\ file_in "" "a" "a" /\ visit_files "run" ("a" ++ String cr "b") = ["run/a"; "run/b"]%string.
Proof.
  assert (P : forall c, c <> lf -> c <> cr -> plain (String c "")) by (intros c A B i d; destruct i as [|i]; cbn; [intro X; injection X as <-; now split|destruct i; discriminate]).
  split; [apply lines_cr; [apply P; discriminate|discriminate|]; apply lines_open; [apply P; discriminate|discriminate]|].
  split; [right; split; [discriminate|]; right; left; split; [now exists "run"%string|reflexivity]|].
  split; [left; split; [now exists "a"%string|reflexivity]|]. split; [right; split; [discriminate|]; left; now split|reflexivity].
Qed.
(** an empty line stands for a dump *)
Theorem C76_empty_line_refuted dir names : (forall n, In n names -> plain n) ->
  visit_files dir (text_of (String lf "") names ++ String lf "") = map (path_join dir) names ++ [path_join dir ""].
Proof. exact (visit_blank dir names). Qed.
Print Assumptions C76_empty_line_refuted.
Example C76_empty_line_case : visit_files "run" (text_of (String lf "") ["0000.sdf"]%string ++ String lf "") = ["run/0000.sdf"; "run/"]%string.
Proof. reflexivity. Qed.

(** * C77: the order of a series of files *)
Theorem C77_order_partial pre suf w ns l : (forall n, In n ns -> (n < 10 ^ w)%nat) -> StronglySorted lt ns ->
  Permutation l (map (fun n => (pre ++ padded w n ++ suf)%string) ns) -> sort_str l = map (fun n => (pre ++ padded w n ++ suf)%string) ns.
Proof. exact (padded_order pre suf w ns l). Qed.
Print Assumptions C77_order_partial.
Example C77_case : sort_str ["data00010.h5"; "data00002.h5"; "data00100.h5"]%string = map (fun n => ("data" ++ padded 5 n ++ ".h5")%string) [2; 10; 100]%nat.
Proof. reflexivity. Qed.
(** whatever order the directory is listed in, the series is the same *)
Theorem C77_listing l m : Permutation l m -> sort_str l = sort_str m.
Proof. exact (sort_listing l m). Qed.
Print Assumptions C77_listing.
Theorem C77_listing_complete l : Permutation (sort_str l) l.
Proof. exact (sort_str_perm l). Qed.
Print Assumptions C77_listing_complete.
Theorem C77_unpadded_refuted : exists n m w w', (n < m)%nat /\ (n < 10 ^ w)%nat /\ (m < 10 ^ w')%nat /\
  sort_str ["data" ++ padded w n ++ ".h5"; "data" ++ padded w' m ++ ".h5"]%string = ["data" ++ padded w' m ++ ".h5"; "data" ++ padded w n ++ ".h5"]%string.
Proof. exact unpadded. Qed.
Print Assumptions C77_unpadded_refuted.

(** * C78: equality of dumps *)
Theorem C78_equivalence {I} (eqb : I -> I -> bool) str isfile samefile :
  (forall a, eqb a a = true) -> (forall a b, eqb a b = eqb b a) -> (forall a b c, eqb a b = true -> eqb b c = true -> eqb a c = true) -> (forall a b, eqb a b = true -> str a = str b) ->
  (forall a, isfile a = true -> samefile a a = true) -> (forall a b, samefile a b = samefile b a) -> (forall a b c, samefile a b = true -> samefile b c = true -> samefile a c = true) ->
  let eq := dump_eqb eqb str isfile samefile in
  (forall a, eq a a = true) /\ (forall a b, eq a b = eq b a) /\ (forall a b c, eq a b = true -> eq b c = true -> eq a c = true).
Proof. exact (dump_equiv eqb str isfile samefile). Qed.
Print Assumptions C78_equivalence.
(** names of the same file are equal dumps, and a file never equals something that is none *)
Theorem C78_files {I} (eqb : I -> I -> bool) str isfile samefile a b : (forall a b, eqb a b = true -> str a = str b) ->
  (isfile (str a) = true -> isfile (str b) = true -> dump_eqb eqb str isfile samefile a b = samefile (str a) (str b)) /\
  (isfile (str a) <> isfile (str b) -> dump_eqb eqb str isfile samefile a b = false).
Proof. exact (dump_files eqb str isfile samefile a b). Qed.
Print Assumptions C78_files.
Example C78_case : let eq := dump_eqb String.eqb (fun s => s) (fun s => String.eqb s "a" || String.eqb s "./a")%bool (fun _ _ => true) in
  eq "a"%string "./a"%string = true /\ eq "a"%string "b"%string = false /\ eq "b"%string "b"%string = true.
Proof. repeat split. Qed.
