(** Theorems about the names of species: C32. *)
From Coq Require Import Ascii String List Lia QArith.
From Verif Require Import PyBase SpeciesModel SpeciesSpec SpeciesFacts SpeciesTotal SpeciesLaws.
Open Scope string_scope.
Open Scope list_scope.

(** * C32 *)
(** Every word of letters and digits can be read in the grammar: an element with the digits of its
    charge, or ionm#c#, ionc#m#, or nothing; then Plus several times; then Elec, elec, Elek, elek;
    then a suffix. *)
Theorem C32_every_word : forall v, plain_word v -> exists p, spells p v.
Proof. exact spelling_exists. Qed.
Print Assumptions C32_every_word.
(** Names with any prefixes and an element, an ion or an electron get the mass, charge and kind which
    they spell out, every prefix is set, and nothing else. *)
Theorem C32_decodes_partial : forall me qe ps v p, proper_prefixes ps -> spells p v -> ~ is_default (name_of ps v) -> known_base (sp_base p) -> (sp_base p <> BNone \/ sp_electron p <> None) ->
  exists d, identifyspecies me qe (name_of ps v) = Ok d /\ decoded me qe ps v p d.
Proof. exact decodes. Qed.
Print Assumptions C32_decodes_partial.
Example C32_decodes_case :
  let ps := [(txt "ejected", false); (txt "tracer", true); (txt "left", false)] in let v := txt "Au20PlusX" in let p := mkspell (BElem (txt "Au") (txt "20")) 1 None (txt "X") in
  proper_prefixes ps /\ spells p v /\ name_of ps v = "ejected_tracer/left_Au20PlusX" /\ ~ is_default (name_of ps v) /\ known_base (sp_base p) /\ sp_base p <> BNone /\ spelled_charge p = Some 20%Z /\ spelled_mass p = Some ((196967 # 1000) * (9181 # 5)).
Proof.
  cbv zeta. split; [repeat constructor; discriminate|]. split.
  - split; [reflexivity|]. split; [repeat (constructor; [split; [reflexivity|discriminate]|]); constructor|]. split; [|split; [intros (t & E); discriminate|intros e [->|[->|[->| ->]]] (t & E); discriminate]].
    split; [repeat constructor|]. split; [intro H; discriminate|]. right. do 2 eexists. repeat split; discriminate.
  - split; [reflexivity|]. split; [intro H; apply H; vm_compute; reflexivity|]. split; [discriminate|]. split; [discriminate|]. split; reflexivity.
Qed.
Example C32_decodes_electron : exists d, identifyspecies 1 1 "ejected_tracer_electronx" = Ok d /\ dict_get "mass" d = Some (SNum 1) /\ dict_get "charge" d = Some (SNum (-1)) /\ dict_get "ision" d = Some (SBool false) /\ dict_get "ejected" d = Some (SBool true).
Proof. eexists. split; [vm_compute; reflexivity|]. repeat split. Qed.
(** the characters meant by digits, capitals, small letters and word characters *)
Theorem C32_characters : forall c, (is_digit c = true <-> In c (txt "0123456789")) /\ (is_upper c = true <-> In c (txt "ABCDEFGHIJKLMNOPQRSTUVWXYZ")) /\ (is_lower c = true <-> In c (txt "abcdefghijklmnopqrstuvwxyz")) /\
  (is_word c = true <-> is_digit c = true \/ is_upper c = true \/ is_lower c = true \/ c = "_"%char).
Proof. exact char_classes. Qed.
Print Assumptions C32_characters.
(** an element which is not in the table raises KeyError; a word without element, ion or electron is
    not recognised; names with other characters than letters, digits and underscores in their word
    are not recognised *)
Theorem C32_unknown_element : forall me qe ps v p sym ds, proper_prefixes ps -> spells p v -> ~ is_default (name_of ps v) -> sp_base p = BElem sym ds -> dict_get (str sym) masslist = None -> identifyspecies me qe (name_of ps v) = Err KeyError.
Proof. exact unknown_element. Qed.
Print Assumptions C32_unknown_element.
Theorem C32_nothing_spelled : forall me qe ps v p, proper_prefixes ps -> spells p v -> ~ is_default (name_of ps v) -> sp_base p = BNone -> sp_electron p = None -> ~ (has_prefix "mass" ps /\ has_prefix "charge" ps /\ has_prefix "ision" ps) ->
  identifyspecies me qe (name_of ps v) = Err BareException.
Proof. exact nothing. Qed.
Print Assumptions C32_nothing_spelled.
Theorem C32_other_characters : forall me qe name a x b, replace_char "/" "_" (list_ascii_of_string name) = a ++ x :: b -> is_word x = false -> no_char "_" b -> (x <> newline \/ b <> []) -> ~ is_default name -> identifyspecies me qe name = Err BareException.
Proof. exact rejects. Qed.
Print Assumptions C32_other_characters.
Example C32_failures_case : identifyspecies 1 1 "tracer_Laser" <> Err KeyError /\ identifyspecies 1 1 "Zz3" = Err KeyError /\ identifyspecies 1 1 "tracer_background" = Err BareException /\ identifyspecies 1 1 "C6 b" = Err BareException.
Proof. split; [vm_compute; discriminate|]. repeat split; vm_compute; reflexivity. Qed.
(** names in the table of defaults *)
Theorem C32_defaults : forall me qe name m q i, dict_get (string_of_list_ascii (replace_char "/" "_" (list_ascii_of_string name))) defaults = Some (m, q, i) ->
  exists d, identifyspecies me qe name = Ok d /\ dict_get "mass" d = Some (SNum (m * me)) /\ dict_get "charge" d = Some (SNum (q * qe)) /\ dict_get "ision" d = Some (SBool i) /\ dict_get "tracer" d = Some (SBool false) /\ dict_get "ejected" d = Some (SBool false) /\ dict_get "name" d = Some (SStr name).
Proof. exact default_value. Qed.
Print Assumptions C32_defaults.
Example C32_defaults_case : dict_get "gold20" defaults = Some ((9181 # 5) * 197, 20, true) /\ dict_get "electrongold" defaults = Some (1, -1, false) /\ dict_get "Photon" defaults = Some (0, 0, false).
Proof. repeat split. Qed.
(** ision: what the name spells out, the entry of the table, or the exception *)
Theorem C32_ision_partial : forall me qe ps v p, proper_prefixes ps -> spells p v -> ~ is_default (name_of ps v) -> known_base (sp_base p) -> (sp_base p <> BNone \/ sp_electron p <> None) -> ision me qe (name_of ps v) = Ok (SBool (spelled_ion p)).
Proof. exact ision_spelled. Qed.
Print Assumptions C32_ision_partial.
Theorem C32_ision_default : forall me qe name m q i, dict_get (string_of_list_ascii (replace_char "/" "_" (list_ascii_of_string name))) defaults = Some (m, q, i) -> ision me qe name = Ok (SBool i).
Proof. exact ision_default. Qed.
Print Assumptions C32_ision_default.
Theorem C32_ision_fails : forall me qe name e, identifyspecies me qe name = Err e -> ision me qe name = Err e.
Proof. exact ision_fails. Qed.
Print Assumptions C32_ision_fails.
Example C32_ision_case : ision 1 1 "ejected_tracer/left_Au20PlusX" = Ok (SBool true) /\ ision 1 1 "Electron" = Ok (SBool false) /\ ision 1 1 "gold20" = Ok (SBool true) /\ ision 1 1 "Zz3" = Err KeyError /\ identifyspecies 1 1 "Zz3" = Err KeyError.
Proof. repeat split; vm_compute; reflexivity. Qed.
(** isejected *)
Theorem C32_isejected : forall name, isejected name = true <-> begins (txt "ejected_") (remove_char "/" (list_ascii_of_string name)).
Proof. exact ejected_spec. Qed.
Print Assumptions C32_isejected.
Example C32_isejected_case : isejected "ejected_C6" = true /\ isejected "tracer_ejected_C6" = false /\ isejected "/ejected_C6" = true.
Proof. repeat split. Qed.
(** The full claim is false.  Iron, tin, rhenium and californium are not known. *)
Theorem C32_elements_refuted : exists name, In name ["Fe2"; "Sn4"; "Re1"; "Cf"] /\ forall me qe, identifyspecies me qe "Fe2" = Err KeyError /\ identifyspecies me qe "Sn4" = Err KeyError /\ identifyspecies me qe "Re1" = Err KeyError /\ identifyspecies me qe "Cf" = Err KeyError.
Proof. exact elements_missing. Qed.
Print Assumptions C32_elements_refuted.
(** three of the names which the documentation calls valid raise, and c6 has the charge 1 *)
Theorem C32_documented_refuted : forall me qe, identifyspecies me qe "ejected_c6b" = Err BareException /\ identifyspecies me qe "tracer_proton" = Err BareException /\ identifyspecies me qe "protonb" = Err BareException /\
  exists d, identifyspecies me qe "c6" = Ok d /\ dict_get "charge" d = Some (SNum (1 * qe)).
Proof. exact documented_fail. Qed.
Print Assumptions C32_documented_refuted.
(** prefixes are mixed up with the entries of the result: the name is lost, or a species is
    recognised which has no mass *)
Theorem C32_prefixes_refuted : forall me qe, (exists d, identifyspecies me qe "name_C6" = Ok d /\ dict_get "name" d = Some (SBool true)) /\ (exists d, identifyspecies me qe "mass_charge_ision_x" = Ok d /\ dict_get "mass" d = Some (SBool true)).
Proof. exact prefixes_mixed. Qed.
Print Assumptions C32_prefixes_refuted.
(** an electron after H is read as helium; isejected does not agree with identifyspecies *)
Theorem C32_helium_refuted : forall me qe, exists d, identifyspecies me qe "Helectron" = Ok d /\ dict_get "ision" d = Some (SBool true) /\ dict_get "mass" d = Some (SNum ((4003 # 1000) * (9181 # 5) * me)).
Proof. exact helium. Qed.
Print Assumptions C32_helium_refuted.
Theorem C32_isejected_refuted : forall me qe, exists d, identifyspecies me qe "ejected/electron" = Ok d /\ dict_get "ejected" d = Some (SBool true) /\ isejected "ejected/electron" = false.
Proof. exact ejected_differs. Qed.
Print Assumptions C32_isejected_refuted.
