(** C102: what dumps list.  C103: components of the fields.  C104: which function kspace_Ex, ... use. *)
From Coq Require Import Ascii Sorting Permutation.
From Verif Require Import PyBase NumpyModel ReaderModel IoModel ListModel ListSpec ListFacts ListLaws CaseSpec CaseFacts.
Local Open Scope string_scope.

(** The species listed are the longest names which fit after 'Particles/quantity/', each once, sorted. *)
Theorem C102_species : forall keys, increasing (list_species keys) /\ forall s, In s (list_species keys) <-> exists key, In key keys /\ named key s.
Proof. exact (fun keys => conj (list_species_increasing keys) (list_species_in keys)). Qed.
Print Assumptions C102_species.
Example C102_species_case : list_species ["Header"; "Particles/Px/proton"; "Particles/Px/electron-1"; "Particles/Py/electron-1"; "Particles/ID/subset/electron-1"; "Grid/Particles/electron-1"] = ["electron-1"; "proton"; "subset/electron-1"].
Proof. vm_compute. reflexivity. Qed.
(** The order of the keys does not matter. *)
Theorem C102_order : forall keys keys', (forall k, In k keys <-> In k keys') -> list_species keys = list_species keys'.
Proof. exact list_species_set. Qed.
Print Assumptions C102_order.
(** If names of species are made of letters, digits, _ and -, with at most one /, those of the dump are listed. *)
Theorem C102_exact_partial : forall keys species, sound_keys keys species -> forall s, In s (list_species keys) <-> In s species.
Proof. exact list_species_sound. Qed.
Print Assumptions C102_exact_partial.
Example C102_exact_case : sound_keys ["Header"; "Particles/Px/proton"; "Particles/Px/hot/electron-1"] ["proton"; "hot/electron-1"].
Proof.
  assert (W : word "Px") by (apply word_all; split; [discriminate|]; intros c I; cbn in I; repeat (destruct I as [<-|I]; [reflexivity|]); destruct I).
  split.
  - intros s [<-|[<-|[]]].
    + split; [left; apply part_all; split; [discriminate|]; intros c I; cbn in I; repeat (destruct I as [<-|I]; [reflexivity|]); destruct I|]. exists "Px". split; [exact W|]. cbn. tauto.
    + split; [right; exists "hot", "electron-1"; split; [|split; [|reflexivity]]; apply part_all; (split; [discriminate|]); intros c I; cbn in I; repeat (destruct I as [<-|I]; [reflexivity|]); destruct I|]. exists "Px". split; [exact W|]. cbn. tauto.
  - intros k I P. cbn in I. destruct I as [<-|[<-|[<-|[]]]]; [discriminate P| |]; exists "Px"; [exists "proton"|exists "hot/electron-1"]; (split; [exact W|]); (split; [cbn; tauto|reflexivity]).
Qed.
(** Full statement: every species listed can be read.  False for names with other characters, of which only
    the beginning is listed; two species become one. *)
Theorem C102_species_refuted : exists keys : list string, list_species keys = ["beam"] /\ In "Particles/Px/beam.left" keys /\ In "Particles/Px/beam.right" keys /\ forall q, ~ In (particle_key q "beam") keys.
Proof.
  exists ["Particles/Px/beam.left"; "Particles/Px/beam.right"]. split; [vm_compute; reflexivity|]. split; [cbn; tauto|]. split; [cbn; tauto|]. intros q I. unfold particle_key in I. cbn [In] in I.
  destruct I as [I|[I|[]]]; cbn [append] in I; injection I; clear I; intros I; repeat (destruct q as [|? q]; cbn [append] in I; [discriminate I|injection I; clear I; intros I _]); destruct q; discriminate I.
Qed.
Print Assumptions C102_species_refuted.
(** Data of particles is read from where EPOCH put it, by every name of the attribute; positions which
    the simulation does not have raise KeyError. *)
Theorem C102_read : forall (X : Type) scalar (grid : string -> res (list X)) s names q n x, In (names, q) quantities -> In n names -> scalar (particle_key q s) = Ok x -> get_species scalar grid s (KS n) = Ok x.
Proof. exact @get_species_scalar. Qed.
Print Assumptions C102_read.
Theorem C102_read_missing : forall (X : Type) scalar (grid : string -> res (list X)) s names q n, In (names, q) quantities -> In n names -> scalar (particle_key q s) = Err KeyError -> get_species scalar grid s (KS n) = Err KeyError.
Proof. exact @get_species_missing. Qed.
Print Assumptions C102_read_missing.
Theorem C102_position : forall (X : Type) scalar (grid : string -> res (list X)) s names i n l, In (names, i) positions -> In n names -> grid ("Grid/Particles/" ++ s) = Ok l ->
  get_species scalar grid s (KS n) = match nth_error l i with Some x => Ok x | None => Err KeyError end.
Proof. exact @get_species_position. Qed.
Print Assumptions C102_position.
Theorem C102_KeyError : forall (X : Type) scalar (grid : string -> res (list X)) s a e,
  (forall k e, scalar k = Err e -> e = KeyError) -> (forall k e, grid k = Err e -> e = KeyError) -> get_species scalar grid s a = Err e -> e = KeyError.
Proof. exact @get_species_errors. Qed.
Print Assumptions C102_KeyError.
Example C102_read_case : let scalar k := if String.eqb k "Particles/Px/e" then Ok 7 else Err KeyError in let grid k := if String.eqb k "Grid/Particles/e" then Ok [1; 2] else Err KeyError in
  map (get_species scalar grid "e") [KS "px"; KS "PX"; KS "py"; KS "x"; KS "Y"; KS "z"; KS "spin"] = [Ok 7; Ok 7; Err KeyError; Ok 1; Ok 2; Err KeyError; Err KeyError].
Proof. vm_compute. reflexivity. Qed.
(** Derived quantities: what is listed is the beginning of a key, sorted; all of them if the names are
    made of letters, digits, _, / and blanks. *)
Theorem C102_derived : forall keys, ascending (list_derived keys) /\ forall d, In d (list_derived keys) -> exists k r, In k keys /\ k = d ++ r /\ clean_derived d.
Proof. exact (fun keys => conj (list_derived_ascending keys) (list_derived_start keys)). Qed.
Print Assumptions C102_derived.
Theorem C102_derived_partial : forall keys, (forall k, In k keys -> String.prefix "Derived/" k = true -> clean_derived k) -> Permutation (list_derived keys) (filter (String.prefix "Derived/") keys).
Proof. exact list_derived_all. Qed.
Print Assumptions C102_derived_partial.
Example C102_derived_case : list_derived ["Header"; "Derived/Number_Density/electron"; "Derived/EkBar"; "Electric Field/Ex"] = ["Derived/EkBar"; "Derived/Number_Density/electron"].
Proof. vm_compute. reflexivity. Qed.
(** Full statement: every name listed is a key.  False for a species with - in its name, which listSpecies
    allows. *)
Theorem C102_derived_refuted : exists keys : list string, list_derived keys = ["Derived/Number_Density/electron"; "Derived/Number_Density/electron"] /\ ~ In "Derived/Number_Density/electron" keys /\ NoDup keys.
Proof.
  exists ["Derived/Number_Density/electron-1"; "Derived/Number_Density/electron-2"]. split; [vm_compute; reflexivity|]. split; [intros [I|[I|[]]]; discriminate I|]. constructor; [intros [I|[]]; discriminate I|]. constructor; [intros []|constructor].
Qed.
Print Assumptions C102_derived_refuted.
(** openPMD: the fields listed are those which have an attribute value and whose name starts with neither E
    nor B. *)
Theorem C102_openPMD : forall names, ascending (pmd_derived names) /\ forall x, In x (pmd_derived names) <-> exists n, In (n, true) names /\ (forall r, n <> "E" ++ r) /\ (forall r, n <> "B" ++ r) /\ x = "fields/" ++ n.
Proof. exact (fun names => conj (pmd_derived_ascending names) (pmd_derived_in names)). Qed.
Print Assumptions C102_openPMD.
(** Full statement: all fields other than E and B.  False: 'Energy' is not listed, ... *)
Theorem C102_openPMD_refuted : exists names : list (string * bool), In ("Energy", true) names /\ ~ In "fields/Energy" (pmd_derived names) /\ pmd_derived names = ["fields/rho"].
Proof. exists [("E/x", true); ("Energy", true); ("rho", true)]. split; [cbn; tauto|]. split; [|vm_compute; reflexivity]. vm_compute. intuition discriminate. Qed.
Print Assumptions C102_openPMD_refuted.
(** ... and nothing is listed with an h5py whose data sets have no attribute value. *)
Theorem C102_h5py_refuted : forall names, (forall n, In n names -> snd n = false) -> pmd_derived names = [].
Proof. exact pmd_derived_none. Qed.
Print Assumptions C102_h5py_refuted.
(** The number of dimensions is the digit in the name of the code. *)
Theorem C102_dimensions : forall name n, epoch_dimensions name = Ok n <-> exists c r, name = "Epoch" ++ String c ("d" ++ r) /\ (48 <= nat_of_ascii c <= 57)%nat /\ n = (Z.of_nat (nat_of_ascii c) - 48)%Z.
Proof. exact dimensions_ok. Qed.
Print Assumptions C102_dimensions.
Example C102_dimensions_case : map epoch_dimensions ["Epoch1d"; "Epoch2d"; "Epoch3d"; "epoch3d"; "Epochd"] = [Ok 1; Ok 2; Ok 3; Err AttributeError; Err AttributeError]%Z.
Proof. vm_compute. reflexivity. Qed.

(** Ex, ..., Btheta: the field has the data which the code stored for this component, the axes belong to
    the same key, in order, with as many points as the data, and the name is that of the component. *)
Theorem C103_component : forall (D P : Type) data (shape : D -> list Z) points r mag c (o : opts P) s, o_theta o = None -> o_Ntheta o = None -> component data shape points r mag c o = Ok s ->
  exists key, stored r mag c (match o_average o with Some true => true | _ => false end) = Some key /\ data (key, None, None) = Ok (sh_data s) /\
    sh_name s = (if mag then "B" else "E") ++ comp_name c /\
    sh_axes s = map (fun n => AxKey n key) (firstn (Nat.max 1 (length (shape (sh_data s)))) (axis_order r)) /\
    forall i n, nth_error (axis_order r) i = Some n -> (i < Nat.max 1 (length (shape (sh_data s))))%nat -> exists k, points key n = Ok k /\ nth_error (shape (sh_data s)) i = Some k.
Proof. exact @component_plain. Qed.
Print Assumptions C103_component.
Theorem C103_total : forall (D P : Type) data (shape : D -> list Z) points r mag c (o : opts P) key d, o_theta o = None -> o_Ntheta o = None -> (r <> Fbpic \/ mag = false) ->
  stored r mag c (match o_average o with Some true => true | _ => false end) = Some key -> data (key, None, None) = Ok d -> shape d <> [] ->
  (forall i n k, nth_error (axis_order r) i = Some n -> nth_error (shape d) i = Some k -> points key n = Ok k) ->
  exists s, component data shape points r mag c o = Ok s /\ sh_data s = d.
Proof. exact @component_total. Qed.
Print Assumptions C103_total.
Definition demo_points (key n : string) : res Z := if String.eqb n "x" || String.eqb n "r" then Ok 4%Z else if String.eqb n "theta" then Ok 2%Z else Ok 5%Z.
Example C103_component_case : exists s, component (fun a => if String.eqb (fst (fst a)) "Magnetic Field/Bz_averaged" then Ok "data" else Err KeyError) (fun _ => [4; 5]%Z) demo_points Epoch true Z_ (@mkopts Q (Some true) None None) = Ok s /\
  sh_axes s = [AxKey "x" "Magnetic Field/Bz_averaged"; AxKey "y" "Magnetic Field/Bz_averaged"] /\ sh_name s = "Bz" /\ sh_unit s = "T".
Proof. eexists. vm_compute. repeat split. Qed.
(** Units of the electric field and of the cartesian components of the magnetic field. *)
Theorem C103_unit_partial : forall (D P : Type) data (shape : D -> list Z) points r mag c (o : opts P) s, component data shape points r mag c o = Ok s -> mag = false \/ c = X \/ c = Y \/ c = Z_ -> sh_unit s = si_unit mag.
Proof. exact @component_unit. Qed.
Print Assumptions C103_unit_partial.
(** Full statement: units of all components.  False: Br and Btheta are given in V/m. *)
Theorem C103_unit_refuted : exists (s : shown string Q), component (fun a => Ok "data") (fun _ => [4; 5]%Z) demo_points OpenPMD true R_ (mkopts None None None) = Ok s /\ sh_unit s <> si_unit true.
Proof. eexists. split; [vm_compute; reflexivity|]. cbn. discriminate. Qed.
Print Assumptions C103_unit_refuted.
Theorem C103_unit_round_refuted : forall (D P : Type) data (shape : D -> list Z) points r c (o : opts P) s, component data shape points r true c o = Ok s -> c = R_ \/ c = Theta -> sh_unit s = "V/m".
Proof. exact @component_unit_wrong. Qed.
Print Assumptions C103_unit_round_refuted.
(** Full statement: every component stored can be read.  False: no magnetic field of FBPIC. *)
Theorem C103_fbpic_refuted : forall (D P : Type) data (shape : D -> list Z) points c (o : opts P), component data shape points Fbpic true c o = Err NameError.
Proof. exact @component_fbpic_magnetic. Qed.
Print Assumptions C103_fbpic_refuted.
Theorem C103_epoch_round : forall (D P : Type) data (shape : D -> list Z) points mag c (o : opts P), o_theta o = None -> o_Ntheta o = None -> c = R_ \/ c = Theta -> component data shape points Epoch mag c o = Err KeyError.
Proof. exact @component_epoch_round. Qed.
Print Assumptions C103_epoch_round.
(** FBPIC at given angles: the expansion at these angles, on an axis of these angles. *)
Theorem C103_angles : forall (D P : Type) data (shape : D -> list Z) points c (o : opts P) s l, o_theta o = Some l -> o_Ntheta o = None -> component data shape points Fbpic false c o = Ok s -> (1 < length (shape (sh_data s)))%nat ->
  exists key, stored Fbpic false c false = Some key /\ data (key, Some l, None) = Ok (sh_data s) /\ nth_error (sh_axes s) 1 = Some (AxPoints "theta" l) /\ nth_error (shape (sh_data s)) 1 = Some (Z.of_nat (length l)).
Proof. exact @component_angles. Qed.
Print Assumptions C103_angles.
Example C103_angles_case : exists s, component (fun a => Ok a) (fun _ => [4; 3; 5]%Z) demo_points Fbpic false R_ (mkopts None (Some [0; 1; 2]) None) = Ok s /\ sh_data s = ("fields/E/r", Some [0; 1; 2], None) /\ nth_error (sh_axes s) 1 = Some (AxPoints "theta" [0; 1; 2]).
Proof. eexists. vm_compute. repeat split. Qed.
(** Full statement: the axes of a field are Axis objects.  False with Ntheta: the second one is an array. *)
Theorem C103_Ntheta_refuted : forall (D P : Type) data (shape : D -> list Z) points c (o : opts P) s n, o_Ntheta o = Some n -> component data shape points Fbpic false c o = Ok s -> (1 < length (shape (sh_data s)))%nat -> nth_error (sh_axes s) 1 = Some (Bare n).
Proof. exact @component_bare. Qed.
Print Assumptions C103_Ntheta_refuted.
Example C103_Ntheta_case : exists s, component (fun a => Ok a) (fun _ => [4; 3; 5]%Z) demo_points Fbpic false R_ (@mkopts Q None None (Some 3%Z)) = Ok s /\ nth_error (sh_axes s) 1 = Some (Bare 3).
Proof. eexists. vm_compute. repeat split. Qed.

(** kspace_Ex, ...: documented alignments are accepted and no others. *)
Theorem C104_alignments : forall name a solver om dx t n, ((exists c, kspace_call name a solver om dx t n = Ok c) <-> known a) /\ forall e, kspace_call name a solver om dx t n = Err e -> e = ValueError /\ ~ known a.
Proof. exact (fun name a solver om dx t n => conj (kspace_known name a solver om dx t n) (kspace_unknown name a solver om dx t n)). Qed.
Print Assumptions C104_alignments.
Theorem C104_aligned : forall name solver om dx t n,
  rmap call_alignment (kspace_call name "default" solver om dx t n) = Ok InSpace /\ rmap call_alignment (kspace_call name "epoch" solver om dx t n) = Ok ToB /\ rmap call_alignment (kspace_call name "epoch-final" solver om dx t n) = Ok ToE.
Proof. exact kspace_aligned. Qed.
Print Assumptions C104_aligned.
(** auto means epoch for .sdf files, in whatever case, and default for all others. *)
Theorem C104_auto : forall name solver om dx t n, kspace_call name "auto" solver om dx t n = kspace_call name (if endswith (lower name) ".sdf" then "epoch" else "default") solver om dx t n.
Proof. exact kspace_auto. Qed.
Print Assumptions C104_auto.
Theorem C104_sdf : forall name solver om dx t n,
  (ends_as name ".sdf" -> kspace_call name "auto" solver om dx t n = kspace_call name "epoch" solver om dx t n) /\
  (~ ends_as name ".sdf" -> kspace_call name "auto" solver om dx t n = kspace_call name "default" solver om dx t n).
Proof. exact auto_sdf. Qed.
Print Assumptions C104_sdf.
Example C104_sdf_case : ends_as "run/0001.SdF" ".sdf" /\ ~ ends_as "sdf" ".sdf".
Proof. split; [apply ends_lower; reflexivity|]. intro H. apply ends_lower in H; [discriminate H|reflexivity]. Qed.
Example C104_auto_case : map (fun name => rmap call_alignment (kspace_call name "auto" None false [] 1 1)) ["/run/0012.sdf"; "0001.SDF"; "data.h5"; "sdf"] = [Ok ToB; Ok ToB; Ok InSpace; Ok InSpace].
Proof. vm_compute. reflexivity. Qed.
(** The time step is the time of the dump over its number of steps; there is none for the first dump. *)
Theorem C104_dt_partial : forall name a solver om dx t n c d, kspace_call name a solver om dx t n = Ok c -> call_dt c = Some d -> (n <> 0)%Z -> exists q, d = Some q /\ (q * inject_Z n == t)%Q.
Proof. exact kspace_dt. Qed.
Print Assumptions C104_dt_partial.
Theorem C104_dt_refuted : forall name a solver om dx t c d, kspace_call name a solver om dx t 0 = Ok c -> call_dt c = Some d -> d = None.
Proof. exact kspace_first. Qed.
Print Assumptions C104_dt_refuted.
(** The dispersion relation given wins, then that of the solver for the alignments in time, then that of free
    space. *)
Theorem C104_omega : forall name a solver om dx t n c, kspace_call name a solver om dx t n = Ok c ->
  call_omega c = (if om then Given else match solver, call_dt c with Some "yee", Some dt => Yee dx dt | _, _ => Free end).
Proof. exact kspace_omega. Qed.
Print Assumptions C104_omega.
Example C104_omega_case : exists c, kspace_call "0012.sdf" "auto" (Some "yee") false [1#4] (3#2) 12 = Ok c /\ call_omega c = Yee [1#4] (Some ((3#2) / inject_Z 12)).
Proof. eexists. split; [vm_compute; reflexivity|reflexivity]. Qed.
(** Full statement: solver='yee' uses the dispersion relation of that solver.  False for other files. *)
Theorem C104_solver_refuted : forall name dx t n, endswith (lower name) ".sdf" = false -> kspace_call name "auto" (Some "yee") false dx t n = Ok (Kspace Free).
Proof. intros name dx t n E. rewrite kspace_auto, E. reflexivity. Qed.
Print Assumptions C104_solver_refuted.
