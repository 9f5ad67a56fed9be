(** Property theorems about collections of species (C93), their simulation box (C94) and the
    fields made from them (C95). *)
From Coq Require Import Permutation Lia.
From Verif Require Import PyBase PyBaseFacts NumpyModel NdModel AxisModel AxisSpec AxisFacts FieldModel FieldSpec ParticleModel SpeciesModel SpeciesLaws QSum DepModel DepSpec DepHistFacts DepSumFacts HistddModel CollectModel CollectSpec CollectFacts CollectLaws CollectDemo AxisInterpFacts.

(** ** C93 *)
(** A reserved name adds exactly the species of the dump it stands for, in the order of the dump. *)
Theorem C93_collection_partial : forall fuel me qe m d key k want ign w f, stands_for key k want -> (forall s, In s (d_names d) -> ~ reserved s) -> (forall s, In s (d_names d) -> told me qe k s (f s)) -> nth_error (w_ms w) m <> None ->
  exists w', add_named (S (S fuel)) me qe m d key ign w = (w', Ok tt) /\ appended m d (filter (fun s => Bool.eqb (f s) want) (d_names d)) w w'.
Proof. exact add_collection. Qed.
Print Assumptions C93_collection_partial.
(** ... and every name which is understood says whether it is an ion and whether it is ejected *)
Theorem C93_told : forall me qe s k, k = "ision"%string \/ k = "ejected"%string -> understood me qe s -> exists b, told me qe k s b.
Proof. exact told_any. Qed.
Print Assumptions C93_told.
Theorem C93_all_partial : forall fuel me qe m d ign w, (forall s, In s (d_names d) -> ~ reserved s) -> nth_error (w_ms w) m <> None -> exists w', add_named (S (S fuel)) me qe m d "_all" ign w = (w', Ok tt) /\ appended m d (d_names d) w w'.
Proof. exact add_all. Qed.
Print Assumptions C93_all_partial.
Example C93_collection_case : stands_for "_ions" "ision" true /\ (forall s, In s (d_names zoo) -> ~ reserved s) /\ told 1 1 "ision" "electron" false /\ told 1 1 "ision" "C6" true /\ told 1 1 "ision" "ejected_electronx" false /\ told 1 1 "ision" "proton" true
  /\ told 1 1 "ejected" "electron" false /\ told 1 1 "ejected" "ejected_electronx" true /\ nth_error (w_ms blank) 0 <> None
  /\ map s_name (w_objs (fst (add_named 2 1 1 0 zoo "_ions" false blank))) = ["C6"; "proton"]%string /\ map s_name (w_objs (fst (add_named 2 1 1 0 zoo "_nonions" false blank))) = ["electron"; "ejected_electronx"]%string
  /\ map s_name (w_objs (fst (add_named 2 1 1 0 zoo "_ejected" false blank))) = ["ejected_electronx"]%string /\ w_ms (fst (add_named 2 1 1 0 zoo "_all" false blank)) = [[0; 1; 2; 3]%nat].
Proof.
  split; [constructor|]. split; [intros s I R; unfold reserved in R; cbn in I, R; intuition congruence|].
  repeat (split; [eexists; split; [vm_compute; reflexivity|vm_compute; reflexivity]|]). split; [discriminate|]. vm_compute. auto.
Qed.
(** a plain name *)
Theorem C93_name : forall fuel me qe m d s ign w is, ~ reserved s -> In s (d_names d) -> nth_error (w_ms w) m = Some is -> exists w', add_named (S fuel) me qe m d s ign w = (w', Ok tt) /\ appended m d [s] w w'.
Proof. exact add_plain. Qed.
Print Assumptions C93_name.
Theorem C93_missing : forall fuel me qe m d s ign w, ~ reserved s -> ~ In s (d_names d) -> add_named (S fuel) me qe m d s ign w = (w, if ign then Ok tt else Err KeyError).
Proof. exact add_missing. Qed.
Print Assumptions C93_missing.
Example C93_name_case : ~ reserved "C6" /\ In "C6"%string (d_names zoo) /\ ~ reserved "gold" /\ ~ In "gold"%string (d_names zoo).
Proof. unfold reserved. cbn. intuition congruence. Qed.
(** Names given to the constructor: those of the dump become members in this order; the others are left
    out if asked, and otherwise the first of them raises KeyError. *)
Theorem C93_constructor : forall fuel me qe d l ign w, (forall s, In s l -> ~ reserved s) -> (ign = true \/ forall s, In s l -> In s (d_names d)) ->
  exists w' m, ms_init (S fuel) me qe d l ign w = (w', Ok m) /\ members w' m (map (fun s => mksingle d s SNone []) (filter (fun s => existsb (String.eqb s) (d_names d)) l)).
Proof. exact init_named. Qed.
Print Assumptions C93_constructor.
Theorem C93_constructor_missing : forall fuel me qe d l1 s l2 w, (forall x, In x (l1 ++ [s]) -> ~ reserved x) -> (forall x, In x l1 -> In x (d_names d)) -> ~ In s (d_names d) ->
  exists w', ms_init (S fuel) me qe d (l1 ++ s :: l2) false w = (w', Err KeyError).
Proof. exact init_refused. Qed.
Print Assumptions C93_constructor_missing.
Example C93_constructor_case : (forall s, In s ["C6"; "gold"; "proton"]%string -> ~ reserved s) /\ map s_name (w_objs (fst (ms_init 1 1 1 zoo ["C6"; "gold"; "proton"]%string true blank))) = ["C6"; "proton"]%string /\ snd (ms_init 1 1 1 zoo ["C6"; "gold"; "proton"]%string false blank) = Err KeyError.
Proof. split; [unfold reserved; cbn; intuition congruence|]. vm_compute. auto. Qed.
(** Ions and nonions together, or ejected and not ejected ones, are all species. *)
Theorem C93_partition_partial : forall fuel me qe d key1 key2 k w, stands_for key1 k true -> stands_for key2 k false -> (forall s, In s (d_names d) -> ~ reserved s) -> (forall s, In s (d_names d) -> understood me qe s) ->
  exists w1 m1 l1 w2 m2 l2, ms_init (S (S fuel)) me qe d [key1; key2] false w = (w1, Ok m1) /\ members w1 m1 l1 /\ ms_init (S (S fuel)) me qe d ["_all"%string] false w = (w2, Ok m2) /\ members w2 m2 l2 /\ Permutation l1 l2.
Proof. exact init_two. Qed.
Print Assumptions C93_partition_partial.
Example C93_partition_case : stands_for "_ejected" "ejected" true /\ stands_for "_noejected" "ejected" false /\ forall s, In s (d_names zoo) -> understood 1 1 s.
Proof. split; [constructor|]. split; [constructor|]. intros s I. cbn in I. repeat (destruct I as [<-|I]; [eexists; vm_compute; reflexivity|]). destruct I. Qed.
(** One species whose name is not understood makes all four collections fail and nothing is added:
    whether a species is ejected is asked only after its mass and its charge are known. *)
Theorem C93_unknown_refuted : forall fuel me qe m d key k want ign w s, stands_for key k want -> In s (d_names d) -> ~ understood me qe s -> exists e, add_named (S fuel) me qe m d key ign w = (w, Err e).
Proof. exact add_unknown. Qed.
Print Assumptions C93_unknown_refuted.
Example C93_unknown_case : ~ understood 1 1 "ejected_photon" /\ isejected "ejected_photon" = true.
Proof. split; [|reflexivity]. intros [d E]. vm_compute in E. discriminate. Qed.
(** The names in the documentation of add, without underscore, are not reserved names. *)
Theorem C93_documented_refuted : forall fuel me qe m d s w, In s ["ions"; "nonions"; "ejected"; "noejected"; "all"]%string -> ~ In s (d_names d) -> add_named (S fuel) me qe m d s false w = (w, Err KeyError).
Proof. intros fuel me qe m d s w I N. apply add_missing; [|exact N]. unfold reserved. cbn in I. cbn. intuition congruence. Qed.
Print Assumptions C93_documented_refuted.
Example C93_documented_case : In "ions"%string ["ions"; "nonions"; "ejected"; "noejected"; "all"]%string /\ ~ In "ions"%string (d_names zoo).
Proof. cbn. intuition congruence. Qed.
(** A species which bears the name "_all": no recursion limit is enough. *)
Theorem C93_reserved_refuted : forall fuel me qe m d ign w, d_names d = ["_all"%string] -> add_named fuel me qe m d "_all" ign w = (w, Err Diverges).
Proof. exact add_loops. Qed.
Print Assumptions C93_reserved_refuted.
Example C93_reserved_case : exists d, d_names d = ["_all"%string].
Proof. now exists (mkdump ["_all"%string] 0 (fun _ _ => None) (fun _ _ => None)). Qed.

(** ** C94 *)
(** The extent of a collection along an axis is the smallest one which contains the boxes of all
    its simulations. *)
Theorem C94_hull : forall box w m l axis es, members w m l -> l <> [] -> map (fun s => box (s_dump s) axis) l = map Ok es -> exists e, ms_simextent box m axis w = (w, Ok e) /\ hull es e.
Proof. exact box_hull. Qed.
Print Assumptions C94_hull.
Example C94_hull_case : members both_in 0 (w_objs both_in) /\ map (fun s => moving (s_dump s) "x") (w_objs both_in) = map Ok [(0, 5); (2, 7)] /\ exists e, snd (ms_simextent moving 0 "x" both_in) = Ok e /\ fst e == 0 /\ snd e == 7.
Proof. split; [exists [0; 1]%nat; split; [reflexivity|repeat constructor]|]. split; [reflexivity|]. eexists. split; [vm_compute; reflexivity|]. split; reflexivity. Qed.
Theorem C94_empty : forall box w m axis, members w m [] -> ms_simextent box m axis w = (w, Err ValueError).
Proof. exact box_empty. Qed.
Print Assumptions C94_empty.
Theorem C94_fails : forall box w m l axis s e, members w m l -> In s l -> box (s_dump s) axis = Err e -> exists e', ms_simextent box m axis w = (w, Err e').
Proof. exact box_fails. Qed.
Print Assumptions C94_fails.
Example C94_fails_case : members both_in 0 (w_objs both_in) /\ moving zoo "px" = Err KeyError /\ members blank 0 [].
Proof. split; [exists [0; 1]%nat; split; [reflexivity|repeat constructor]|]. split; [reflexivity|]. exists []. split; [reflexivity|constructor]. Qed.
(** dumpreader is the common one of all species, if there is one *)
Theorem C94_dumpreader : forall same w m s l, members w m (s :: l) ->
  exists r, ms_dumpreader same m w = (w, Ok r) /\ (r = Some (s_dump s) <-> forall x, In x (s :: l) -> same (s_dump s) (s_dump x) = true) /\ (r = None <-> exists x, In x (s :: l) /\ same (s_dump s) (s_dump x) = false).
Proof. exact reader_spec. Qed.
Print Assumptions C94_dumpreader.
Theorem C94_dumpreader_empty : forall same w m, members w m [] -> ms_dumpreader same m w = (w, Ok None).
Proof. exact reader_empty. Qed.
Print Assumptions C94_dumpreader_empty.
Example C94_dumpreader_case : members both_in 0 (mksingle zoo "electron" SNone [] :: [mksingle zoo2 "electron" SNone []]) /\ snd (ms_dumpreader (fun a b => Qeq_bool (d_time a) (d_time b)) 0 both_in) = Ok None.
Proof. split; [exists [0; 1]%nat; split; [reflexivity|repeat constructor]|reflexivity]. Qed.
(** simextent=True: the ranges given are replaced by the extents of the simulation. *)
Theorem C94_simextent : forall ub spacing box pts sps w h es, map (fun sp => box (sc_symbol sp)) sps = map Ok es -> (length sps <= length (h_ranges h))%nat -> (h_simgrid h = true -> forall sp, In sp sps -> pts (sc_symbol sp) = Ok None) ->
  h_simextent h || h_simgrid h = true ->
  create_histgram ub spacing box pts sps w h = create_histgram ub spacing box pts sps w (with_ranges h (map Some es ++ skipn (length es) (h_ranges h))).
Proof. exact extent_replaces. Qed.
Print Assumptions C94_simextent.
Example C94_simextent_case : map (fun sp => moving zoo (sc_symbol sp)) [place] = map Ok [(0, 5)] /\ (length [place] <= length (h_ranges (plain [4%Z])))%nat.
Proof. split; [reflexivity|cbn; lia]. Qed.
(** simgrid=True is documented to use the grid of the simulation.  The number of grid points is
    always None, whatever the dump says, and the bins given or the default ones are used. *)
Theorem C94_simgrid_refuted : forall pts w m l axis, members w m l -> l <> [] -> (forall s, In s l -> (exists n, pts (s_dump s) axis = Ok n) \/ pts (s_dump s) axis = Err AttributeError \/ pts (s_dump s) axis = Err KeyError) ->
  ms_simgridpoints pts m axis w = (w, Ok None).
Proof. exact points_none. Qed.
Print Assumptions C94_simgrid_refuted.
Example C94_simgrid_case : members both_in 0 (w_objs both_in) /\ (fun (_ : dump) (_ : string) => Ok 128%Z) zoo "x"%string = Ok 128%Z /\ snd (ms_simgridpoints (fun _ _ => Ok 128%Z) 0 "x" both_in) = Ok None.
Proof. split; [exists [0; 1]%nat; split; [reflexivity|repeat constructor]|]. split; reflexivity. Qed.
(** A scalar which is not a coordinate has no extent in the simulation: the whole plot fails. *)
Theorem C94_scalar_refuted : forall ub spacing box pts sps w h sp e, In sp sps -> box (sc_symbol sp) = Err e -> h_simextent h = true -> exists e', create_histgram ub spacing box pts sps w h = Err e'.
Proof. exact extent_missing. Qed.
Print Assumptions C94_scalar_refuted.
Example C94_scalar_case : In speed [place; speed] /\ moving zoo (sc_symbol speed) = Err KeyError.
Proof. split; [right; now left|reflexivity]. Qed.

(** ** C95 *)
(** The field made from one to three scalars has one axis per scalar, with its name and its unit
    and equal cells over the range; its integral over all axes is the sum of the weights, if no
    shape sticks out. *)
Theorem C95_field_partial : forall ub spacing spl box pts sps data ws h ns d name title species wname,
  reproduces_lines spl -> (d <= 3)%nat -> h_shape h = Some (ShInt (Z.of_nat d)) -> h_simextent h = false -> h_simgrid h = false -> h_bins h = BSeq ns -> length (h_ranges h) = 3%nat ->
  map sc_values sps = map Ok data -> (1 <= length data <= 3)%nat -> length ns = length data -> ws <> [] -> (forall v, In v data -> length v = length ws) -> plottable spacing d (h_ranges h) data ns ->
  exists f rs, create_field ub spacing spl box pts sps (Ok ws) h name title species wname = Ok f /\ f_shape f = ns /\ consistent f /\ length rs = length data /\
    (forall i, (i < length data)%nat -> resolves_range (both (nth i (h_ranges h) None)) (nth i data []) (nth i rs (0, 0)) /\ exists ax sp, nth_error (f_axes f) i = Some ax /\ nth_error sps i = Some sp /\ plots sp (nth i rs (0, 0)) (nth i ns 0%Z) ax) /\
    integrates_to spl f (qsum ws) /\ l_name (f_top f) = match title with Some t => if String.eqb t "" then (match wname with Some n => n | None => name end ++ species)%string else t | None => (match wname with Some n => n | None => name end ++ species)%string end.
Proof. exact field_made. Qed.
Print Assumptions C95_field_partial.
Example C95_field_case : reproduces_lines chord_spline /\ h_shape (plain [4; 8]%Z) = Some (ShInt (Z.of_nat 2)) /\ map sc_values [place; speed] = map Ok [[3 # 2; 2]; [1; 3]] /\ plottable fine 2 (h_ranges (plain [4; 8]%Z)) [[3 # 2; 2]; [1; 3]] [4; 8]%Z
  /\ exists f, create_field to_int fine chord_spline (fun _ => Err KeyError) (fun _ => Ok None) [place; speed] (Ok [3; 5]) (plain [4; 8]%Z) "distfn" None "electron" None = Ok f /\ map ax_name (f_axes f) = ["x"; "$P_x$"]%string /\ map ax_unit (f_axes f) = ["m"; "kg m/s"]%string /\ l_name (f_top f) = "distfnelectron"%string.
Proof.
  split; [exact chord_spline_lines|]. split; [reflexivity|]. split; [reflexivity|]. split.
  - intros [|[|i]] r I R; [| |cbn in I; lia]; destruct r as [a b]; destruct R as [A B]; cbn in A, B; subst.
    + split; [split; [reflexivity|split; [unfold fine; cbn; discriminate|cbn; unfold int_max; lia]]|]. repeat (constructor; [split; [split; cbn; discriminate|discriminate]|]). constructor.
    + split; [split; [reflexivity|split; [unfold fine; cbn; discriminate|cbn; unfold int_max; lia]]|]. repeat (constructor; [split; [split; cbn; discriminate|discriminate]|]). constructor.
  - destruct (ok_such (create_field to_int fine chord_spline (fun _ => Err KeyError) (fun _ => Ok None) [place; speed] (Ok [3; 5]) (plain [4; 8]%Z) "distfn" None "electron" None)
      (fun f => same_texts (map ax_name (f_axes f)) ["x"; "$P_x$"] && same_texts (map ax_unit (f_axes f)) ["m"; "kg m/s"] && same_texts [l_name (f_top f)] ["distfnelectron"])) as (f & E & P); [vm_compute; reflexivity|].
    apply andb_prop in P. destruct P as [P P3]. apply andb_prop in P. destruct P as [P1 P2]. apply same_texts_eq in P1, P2, P3. injection P3 as P3. exists f. split; [exact E|]. split; [exact P1|]. split; [exact P2|exact P3].
Qed.
(** The name given is lost as soon as weights are given. *)
Theorem C95_name_refuted : forall ub spacing spl box pts sps ws h n1 n2 species wn, create_field ub spacing spl box pts sps ws h n1 None species (Some wn) = create_field ub spacing spl box pts sps ws h n2 None species (Some wn).
Proof. reflexivity. Qed.
Print Assumptions C95_name_refuted.
Example C95_name_case : exists f, create_field to_int fine chord_spline (fun _ => Err KeyError) (fun _ => Ok None) [place] (Ok [3; 5]) (plain [4%Z]) "my name" None "electron" (Some "gamma"%string) = Ok f /\ l_name (f_top f) = "gammaelectron"%string.
Proof.
  destruct (ok_such (create_field to_int fine chord_spline (fun _ => Err KeyError) (fun _ => Ok None) [place] (Ok [3; 5]) (plain [4%Z]) "my name" None "electron" (Some "gamma"%string)) (fun f => same_texts [l_name (f_top f)] ["gammaelectron"])) as (f & E & P); [vm_compute; reflexivity|].
  apply same_texts_eq in P. injection P as P. exists f. split; [exact E|exact P].
Qed.
