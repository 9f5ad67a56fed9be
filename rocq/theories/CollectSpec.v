(** Specifications for collections of species (C93), their simulation box (C94) and the fields
    made from them (C95). *)
From Coq Require Import Permutation.
From Verif Require Import PyBase NumpyModel NdModel AxisModel AxisSpec FieldModel FieldSpec ParticleModel SpeciesModel DepModel DepSpec DepHistFacts DepSumFacts HistddModel CollectModel.

(** the species l of the dump d, all their particles, are new at the end of the MultiSpecies m;
    nothing else has changed *)
Definition appended (m : nat) (d : dump) (l : list string) (w w' : world) : Prop :=
  exists is, nth_error (w_ms w) m = Some is /\
    w' = mkworld (w_bools w) (w_ids w) (w_objs w ++ map (fun s => mksingle d s SNone []) l) (upd (w_ms w) m (is ++ seq (length (w_objs w)) (length l))).
(** what the reserved names stand for: an entry of the dictionary and its value *)
Inductive stands_for : string -> string -> bool -> Prop :=
| st_ions : stands_for "_ions" "ision" true
| st_nonions : stands_for "_nonions" "ision" false
| st_ejected : stands_for "_ejected" "ejected" true
| st_noejected : stands_for "_noejected" "ejected" false.
Definition reserved (s : string) : Prop := In s ["_ions"; "_nonions"; "_ejected"; "_noejected"; "_all"]%string.
(** the name is understood, and the entry k is b *)
Definition told (me qe : Q) (k s : string) (b : bool) : Prop := exists d, identifyspecies me qe s = Ok d /\ dict_get k d = Some (SBool b).
Definition understood (me qe : Q) (s : string) : Prop := exists d, identifyspecies me qe s = Ok d.
(** the species of a MultiSpecies *)
Definition members (w : world) (m : nat) (l : list single) : Prop :=
  exists is, nth_error (w_ms w) m = Some is /\ Forall2 (fun i s => nth_error (w_objs w) i = Some s) is l.

(** the smallest interval which contains all of them *)
Definition hull (l : list (Q * Q)) (e : Q * Q) : Prop :=
  (forall x, In x l -> fst e <= fst x /\ snd x <= snd e) /\ In (fst e) (map fst l) /\ In (snd e) (map snd l).

(** the axis of a histogram: n equal cells over the range r, with the name and the unit of the scalar *)
Definition plots (sp : scalar) (r : Q * Q) (n : Z) (ax : axis) : Prop :=
  ax_name ax = sc_name sp /\ ax_unit ax = sc_unit sp /\ axis_uniform (fst r) (snd r) (Z.to_nat n) ax.
(** both ways to integrate over all dimensions give v *)
Definition integrates_to (spl : spline_fn) (f : field Q) (v : Q) : Prop :=
  let all := map Z.of_nat (seq 0 (length (f_shape f))) in
  exists g h, integrate_fast f all = Ok g /\ integrate_constant spl f all = Ok h /\ f_shape g = [] /\ f_shape h = [] /\ a_at (f_data g) [] == v /\ a_at (f_data h) [] == v.

(** the arguments with the ranges rs instead of simextent and simgrid *)
Definition with_ranges (h : hist_args) (rs : list (option (Q * Q))) : hist_args := mkha false false (h_force h) rs (h_bins h) (h_shape h).
(** every range, as it is given or found in the data, is wider than the spacing of the numbers, and
    the shapes of all particles are inside *)
Definition plottable (spacing : Q -> Q) (d : nat) (ranges : list (option (Q * Q))) (data : list (list Q)) (ns : list Z) : Prop :=
  forall i r, (i < length data)%nat -> resolves_range (both (nth i ranges None)) (nth i data []) r -> good_range spacing r (nth i ns 0%Z) /\ Forall (wholly_inside d r (nth i ns 0%Z)) (nth i data []).
