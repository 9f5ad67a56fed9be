(** Property theorems about the access to particle properties and their labels (C114). *)
From Coq Require Import QArith Lia.
From Verif Require Import PyBase PyBaseFacts NumpyModel NdModel NdFacts AxisModel AxisSpec AxisInterpFacts FieldModel FieldSpec RegistryModel RegistrySpec RegistryFacts QSum DepModel DepSpec HistddModel CollectModel CollectSpec CollectDemo AccessModel AccessSpec AccessFacts AccessDemo RealModel.
Open Scope string_scope.

(** What ms(text) returns: the value of the property for the particles of every species, one species
    after the other; a single number stands for all particles of its species. *)
Theorem C114_values : forall V n r s (ms : list (species V)) l, call n r (GText s) ms = Ok l -> spread_all r (identify r s) ms l.
Proof. exact @call_text_sound. Qed.
Print Assumptions C114_values.
(** ... and whenever all species have a value, it is returned *)
Theorem C114_found : forall V r s (ms : list (species V)) l, spread_all r (identify r s) ms l -> exists n, forall m, (n <= m)%nat -> call m r (GText s) ms = Ok l.
Proof. exact @call_text_found. Qed.
Print Assumptions C114_found.
(** as many numbers as particles *)
Theorem C114_length_partial : forall V n r a (ms : list (species V)) l, (match a with GFunc _ _ _ => False | _ => True end) -> Forall full ms -> call n r a ms = Ok l -> length l = list_sum (map s_len ms).
Proof. exact @call_length. Qed.
Print Assumptions C114_length_partial.
(** the values of two collections added are those of the first, then those of the second *)
Theorem C114_added : forall V n r s (a b : list (species V)), call n r (GText s) (a ++ b)%list = let! x := call n r (GText s) a in let! y := call n r (GText s) b in Ok (x ++ y)%list.
Proof. exact @call_text_app. Qed.
Print Assumptions C114_added.
Example C114_values_case : Forall full pair_of_species /\ call 5 default_registry (GText "mass") pair_of_species = Ok [2; 2; 2; 1; 4]%Z /\ call 5 default_registry (GText "x") pair_of_species = Ok [7; 8; 9; 5; 6]%Z
  /\ call 5 default_registry (GText "mass") (@nil (species Z)) = Ok [] /\ call 5 default_registry (GText "angle_xy") pair_of_species = Ok [70; 80; 90; 50; 60]%Z.
Proof. split; [exact pair_full|]. split; [vm_compute; reflexivity|]. split; [vm_compute; reflexivity|]. split; [vm_compute; reflexivity|]. vm_compute. reflexivity. Qed.

(** A registered property is the same thing by its symbol and as an object: same values, same name,
    same unit. *)
Theorem C114_symbol_partial : forall V h s p, table_run h s = Some p ->
  (forall n (ms : list (species V)), call n (reg_run h []) (GText s) ms = call n (reg_run h []) (GProp p) ms) /\
  (forall k, find_attr (V := V) (reg_run h []) (GText s) k = find_attr (V := V) (reg_run h []) (GProp p) k) /\
  (forall k, find_attr (V := V) (reg_run h []) (GText s) k = known_as (Some p) k).
Proof. intros V h s p H. split; [intros; now apply same_value|]. split; [intro; now apply same_label|]. intro k. rewrite label_of, H. reflexivity. Qed.
Print Assumptions C114_symbol_partial.
Example C114_symbol_case : exists h p, reg_run h [] = default_registry /\ table_run h "m_u" = Some p /\ known_as (Some p) Name = "mass_u" /\ known_as (Some p) Unit = "amu".
Proof.
  exists (map RAdd default_scalars), (mksp "mass / atomic_mass" (Some "mass_u") (Some "amu") (Some "m_u")).
  split; [vm_compute; reflexivity|]. split; [vm_compute; reflexivity|]. split; vm_compute; reflexivity.
Qed.
(** Its expression is the same thing for the values, but not for the labels. *)
Theorem C114_text_refuted : forall V, identify default_registry "mass / atomic_mass" = identify default_registry "mass_u" /\
  find_attr (V := V) default_registry (GText "mass_u") Name = "mass_u" /\ find_attr (V := V) default_registry (GText "mass / atomic_mass") Name = "unknown".
Proof. intro V. split; [vm_compute; reflexivity|]. split; vm_compute; reflexivity. Qed.
Print Assumptions C114_text_refuted.

(** The axes of a field made from particles carry the names and the units of the registered
    properties they were asked for. *)
Theorem C114_axes_partial : forall ub spacing spl box pts m reg ms names data ws h ns d name title species wname,
  reproduces_lines spl -> (d <= 3)%nat -> h_shape h = Some (ShInt (Z.of_nat d)) -> h_simextent h = false -> h_simgrid h = false -> h_bins h = BSeq ns -> length (h_ranges h) = 3%nat ->
  Forall2 (fun s v => call m (reg_run reg []) (GText s) ms = Ok v) names data -> (1 <= length data <= 3)%nat -> length ns = length data -> ws <> [] -> (forall v, In v data -> length v = length ws) -> plottable spacing d (h_ranges h) data ns ->
  exists f, create_field ub spacing spl box pts (map (fun s => scalar_of m (reg_run reg []) ms (GText s)) names) (Ok ws) h name title species wname = Ok f /\ length (f_axes f) = length names /\
    forall i s, nth_error names i = Some s -> exists ax, nth_error (f_axes f) i = Some ax /\ ax_name ax = known_as (table_run reg s) Name /\ ax_unit ax = known_as (table_run reg s) Unit.
Proof. exact axes_labelled. Qed.
Print Assumptions C114_axes_partial.
Example C114_axes_case : reg_run (map RAdd default_scalars) [] = default_registry /\ Forall2 (fun s v => call 5 (reg_run (map RAdd default_scalars) []) (GText s) moving_pair = Ok v) ["x"; "px"] [[3 # 2; 2]; [1; 3]] /\
  plottable fine 2 (h_ranges (plain [4; 8]%Z)) [[3 # 2; 2]; [1; 3]] [4; 8]%Z /\ h_shape (plain [4; 8]%Z) = Some (ShInt (Z.of_nat 2)) /\ reproduces_lines chord_spline.
Proof.
  split; [vm_compute; reflexivity|]. split; [repeat constructor; vm_compute; reflexivity|]. split; [|split; [reflexivity|exact chord_spline_lines]].
  intros [|[|i]] r I R; [| |cbn in I; lia]; destruct r as [a b]; destruct R as [A B]; cbn in A, B; subst;
    (split; [split; [reflexivity|split; [unfold fine; cbn; discriminate|cbn; unfold int_max; lia]]|repeat (constructor; [split; [split; cbn; discriminate|discriminate]|]); constructor]).
Qed.

(** The old methods return what the property of today returns; the message of the warning names
    that property. *)
Theorem C114_methods_partial : forall V n r m t (ms : list (species V)), modern m t -> m <> "angle_yz" -> access n r m ms = call n r (GText t) ms.
Proof. exact @old_method. Qed.
Print Assumptions C114_methods_partial.
Theorem C114_advice_partial : forall m t, modern m t -> m <> "Y_um" -> advised m = Some t.
Proof. exact old_advice. Qed.
Print Assumptions C114_advice_partial.
(** no method is left out *)
Theorem C114_complete : exists l, methods = Ok l /\ forall m, In m (map m_name l) <-> exists t, modern m t.
Proof. exact all_methods. Qed.
Print Assumptions C114_complete.
Theorem C114_no_other : forall V n r m (ms : list (species V)), (forall t, ~ modern m t) -> access n r m ms = Err AttributeError.
Proof. exact @no_method. Qed.
Print Assumptions C114_no_other.
Example C114_no_other_case : forall t, ~ modern "Ekin_GeV" t.
Proof. intros t [(H & _)|(H & _)]; vm_compute in H; repeat (destruct H as [H|H]; [discriminate H|]); exact H. Qed.
Example C114_methods_case : modern "X_um" "x_um" /\ modern "Ekin_keV" "Ekin_keV" /\ access 5 default_registry "X" pair_of_species = Ok [7; 8; 9; 5; 6]%Z /\ advised "mass_u" = Some "mass_u".
Proof. split; [left; split; [vm_compute; tauto|reflexivity]|]. split; [right; split; [vm_compute; tauto|reflexivity]|]. split; vm_compute; reflexivity. Qed.
(** angle_yz asks for a property which is not there: KeyError for every collection with particles of
    any kind ... *)
Theorem C114_angle_refuted : forall V n (s : species V) ms, o_names (s_out s) "ange_yz" = ["ange_yz"] -> o_numpy (s_out s) "ange_yz" = None -> o_scipy (s_out s) "ange_yz" = None ->
  modern "angle_yz" "angle_yz" /\ access (S n) default_registry "angle_yz" (s :: ms) = Err KeyError.
Proof. intros V n s ms N P C. split; [right; split; [vm_compute; tauto|reflexivity]|]. exact (unknown_text n default_registry "ange_yz" s ms eq_refl eq_refl eq_refl N P C). Qed.
Print Assumptions C114_angle_refuted.
(** ... although the property is known *)
Example C114_angle_case : o_names (s_out (hd (mkspecies 0 demo1) pair_of_species)) "ange_yz" = ["ange_yz"] /\ access 5 default_registry "angle_yz" pair_of_species = Err KeyError /\ call 5 default_registry (GText "angle_yz") pair_of_species = Ok [0; 0; 0; 0; 0]%Z.
Proof. split; [vm_compute; reflexivity|]. split; vm_compute; reflexivity. Qed.
(** The warning of Y_um asks for a property which is not there. *)
Theorem C114_advice_refuted : forall V n (s : species V) ms, o_names (s_out s) "Y_mu" = ["Y_mu"] -> o_numpy (s_out s) "Y_mu" = None -> o_scipy (s_out s) "Y_mu" = None ->
  advised "Y_um" = Some "Y_mu" /\ call (S n) default_registry (GText "Y_mu") (s :: ms) = Err KeyError.
Proof. intros V n s ms N P C. split; [vm_compute; reflexivity|]. exact (unknown_text n default_registry "Y_mu" s ms eq_refl eq_refl eq_refl N P C). Qed.
Print Assumptions C114_advice_refuted.
(** The method charge returns coulombs and is labelled as elementary charges, charge_e is not
    labelled at all. *)
Theorem C114_unit_refuted : forall V n r, exists a b, accessor (V := V) n r "charge" = Some a /\ accessor (V := V) n r "charge_e" = Some b /\ (forall ms, call n r a ms = call n r (GText "charge") ms) /\
  find_attr (V := V) default_registry (GText "charge") Unit = "C" /\ find_attr r a Unit = "qe" /\ find_attr r b Unit = "unknown" /\ find_attr r b Name = "unknown".
Proof. intros V n r. eexists. eexists. split; [vm_compute; reflexivity|]. split; [vm_compute; reflexivity|]. split; [intro ms; reflexivity|]. split; [vm_compute; reflexivity|]. split; [reflexivity|]. split; reflexivity. Qed.
Print Assumptions C114_unit_refuted.
