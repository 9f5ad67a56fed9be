(** Readers: datareader/__init__.py, datareader.py, dummy.py, epochsdf.py, openPMDh5.py and
    smileih5.py (without the azimuthal modes, see ModesModel), and the axes made from them in
    _field_calc.py.  No proofs in this file.

    Floats are rationals; pi is an argument.  The files are arguments: what h5py and sdf find
    under a key (a missing key is [Err KeyError]). *)
From Coq Require Import QArith String Ascii List ZArith Bool.
From Verif Require Import PyBase NumpyModel AxisModel NdModel FieldModel.
Import ListNotations.
Local Open Scope Z_scope.

(** * Identifiers, helper.py 81-94.  The key None is left out. *)
Inductive akey := KI (z : Z) | KS (s : string).
Definition akey_eqb (a b : akey) : bool :=
  match a, b with KI x, KI y => x =? y | KS x, KS y => String.eqb x y | _, _ => false end.
Fixpoint lookup {A} (d : list (akey * A)) (k : akey) : res A :=
  match d with [] => Err KeyError | (k', v) :: r => if akey_eqb k k' then Ok v else lookup r k end.
Definition axes_table : list (akey * Z) :=
  [(KS "X", 0); (KS "x", 0); (KI 0, 0); (KS "Y", 1); (KS "y", 1); (KI 1, 1); (KS "Z", 2); (KS "z", 2); (KI 2, 2);
   (KS "R", 90); (KS "r", 90); (KI 90, 90); (KS "theta", 91); (KS "t", 91); (KI 91, 91)]%string.
Definition attrib_table : list (akey * Z) :=
  axes_table ++
  [(KS "PX", 3); (KS "Px", 3); (KS "px", 3); (KI 3, 3); (KS "PY", 4); (KS "Py", 4); (KS "py", 4); (KI 4, 4);
   (KS "PZ", 5); (KS "Pz", 5); (KS "pz", 5); (KI 9, 9); (KS "weight", 9); (KS "w", 9); (KI 10, 10); (KS "id", 10); (KS "ID", 10);
   (KS "mass", 11); (KS "m", 11); (KS "Mass", 11); (KS "charge", 12); (KS "c", 12); (KS "Charge", 12); (KS "q", 12)]%string.
Definition axid (a : akey) : res Z := lookup axes_table a.
Definition attribid (a : akey) : res Z := lookup attrib_table a.

(** * A series of dumps: Simulationreader_ifc, datareader.py 306-375 *)
Record simreader (D : Type) := mksim { sim_len : Z; sim_dump : Z -> res D }.
Arguments mksim {D}. Arguments sim_len {D}. Arguments sim_dump {D}.
(** __getitem__ with an integer, 333-338 *)
Definition sim_int {D} (s : simreader D) (key : Z) : res D :=
  let key := if key <? 0 then key + sim_len s else key in
  if sim_len s <=? key then Err IndexError else sim_dump s key.
(** __getitem__ with a slice, 331-332 *)
Definition sim_slice {D} (s : simreader D) (sl : slice) : res (list D) :=
  let! sss := slice_indices sl (sim_len s) in
  let '(start, stop, step) := sss in
  mapM (sim_int s) (py_range start stop step).
(** collections.abc.Sequence.__iter__: s[0], s[1], ... until IndexError.  s[len] always raises
    it, so [len + 1] turns are enough *)
Fixpoint iter_from {D} (s : simreader D) (turns : nat) (i : Z) : res (list D) :=
  match turns with
  | O => Err Diverges
  | S t => match sim_int s i with
           | Ok d => let! r := iter_from s t (i + 1) in Ok (d :: r)
           | Err IndexError => Ok []
           | Err e => Err e
           end
  end.
Definition sim_list {D} (s : simreader D) : res (list D) := iter_from s (S (Z.to_nat (sim_len s))) 0.
(** times, 371-372, and timesteps, 374-375: [time] is the method called *)
Definition sim_times {D T} (time : D -> res T) (s : simreader D) : res (list T) :=
  let! l := sim_list s in mapM time l.

(** FileSeries and Visitreader: _getDumpreader(n) = dumpreadercls(self._dumpfiles[n]);
    openPMDh5.py 357-365, epochsdf.py 255-259 *)
Definition series {F D} (open : F -> res D) (files : list F) : simreader D :=
  mksim (Z.of_nat (length files)) (fun n => let! f := getidx files n in open f).
(** Dummysim, dummy.py 210-223: the dump is its number; making one with a negative number of
    particles raises ValueError (51) *)
Definition dummysim (n : Z) : simreader Z :=
  mksim n (fun i => if i <? n then if i <? 0 then Err ValueError else Ok i else Err IndexError).
(** SmileiSeries, smileih5.py 377-401, and SmileiReader.__init__, 124-131: of a file the keys
    are kept as strings, which are never among the numbers.  [int] is python's int(str) *)
Definition smilei_open (int : string -> Z) (keys : list string) (iteration : string + Z) : res Z :=
  match iteration with
  | inl _ => Err IOError
  | inr i => if mem_Z i (map int keys) then Ok i else Err IOError
  end.
Definition smilei_series (int : string -> Z) (is_dir : bool) (keys : list string) : simreader Z :=
  series (smilei_open int keys) (map (fun k => if is_dir then inr (int k) else inl k) keys).

(** glob.glob(...).sort(), openPMDh5.py 353-355: python orders strings by code points *)
Fixpoint insert_str (x : string) (l : list string) : list string :=
  match l with
  | [] => [x]
  | y :: r => if String.leb x y then x :: l else y :: insert_str x r
  end.
Definition sort_str (l : list string) : list string := fold_right insert_str [] l.

(** Visitreader.__init__, epochsdf.py 248-253.  Files are opened in text mode: every kind of
    line end is read as '\n' *)
Definition lf : ascii := "010"%char.
Definition cr : ascii := "013"%char.
Fixpoint universal_newlines (s : string) : string :=
  match s with
  | EmptyString => EmptyString
  | String c r =>
      if Ascii.eqb c cr
      then match r with
           | String d r' => if Ascii.eqb d lf then String lf (universal_newlines r') else String lf (universal_newlines r)
           | EmptyString => String lf EmptyString
           end
      else String c (universal_newlines r)
  end.
(** for line in f: the lines without their end *)
Fixpoint lines_of (cur s : string) : list string :=
  match s with
  | EmptyString => match cur with EmptyString => [] | _ => [cur] end
  | String c r => if Ascii.eqb c lf then cur :: lines_of EmptyString r else lines_of (cur ++ String c EmptyString)%string r
  end.
(** os.path.join *)
Definition path_join (a b : string) : string :=
  match b with
  | String "/"%char _ => b
  | _ => match a with
         | EmptyString => b
         | _ => if Ascii.eqb (match String.get (String.length a - 1) a with Some c => c | None => lf end) "/"%char then (a ++ b)%string else (a ++ "/" ++ b)%string
         end
  end.
Definition visit_files (dir text : string) : list string :=
  map (path_join dir) (lines_of EmptyString (universal_newlines text)).

(** * Grids of a dump: datareader.py 131-152 and 210-243 *)
Record greader := mkg {
  g_off : string -> akey -> res Q; g_sp : string -> akey -> res Q;
  g_pts : string -> akey -> res Z; g_keys : list string }.
(** gridnode, 140-149 *)
Definition gridnode (g : greader) (key : string) (a : akey) : res (list Q) :=
  let! offset := g_off g key a in
  let! n := g_pts g key a in
  let! sp := g_sp g key a in
  np_linspace offset (offset + sp * inject_Z n) (n + 1).
(** grid, 151-152 *)
Definition grid (g : greader) (key : string) (a : akey) : res (list Q) :=
  let! gn := gridnode g key a in convolve_valid gn.
(** for key in self._simgridkeys(): try: return ... except KeyError: pass *)
Fixpoint try_keys {A} (f : string -> res A) (keys : list string) : res A :=
  match keys with
  | [] => Err KeyError
  | k :: r => match f k with Err KeyError => try_keys f r | x => x end
  end.
Definition simgridpoints (g : greader) (a : akey) : res Z := try_keys (fun k => g_pts g k a) (g_keys g).
Definition simextent (g : greader) (a : akey) : res (Q * Q) :=
  try_keys (fun k => let! offset := g_off g k a in let! n := g_pts g k a in let! sp := g_sp g k a in
                     Ok (offset, offset + sp * inject_Z n)%Q) (g_keys g).
(** simgridspacing, 241-243; dividing by zero points gives nan, the model stops *)
Definition simgridspacing (g : greader) (a : akey) : res Q :=
  let! e := simextent g a in
  let! n := simgridpoints g a in
  if n =? 0 then Err ZeroDivisionError else Ok ((snd e - fst e) / inject_Z n)%Q.

(** * Axes, _field_calc.py 72-104 *)
Definition axis_name (id : Z) : string :=
  if id =? 0 then "x"%string else if id =? 1 then "y"%string else if id =? 2 then "z"%string else if id =? 90 then "r"%string else "theta"%string.
(** an axis, or, for theta with Ntheta, a plain array of that length *)
Definition getaxisobj (spl : spline_fn) (g : greader) (key : string) (a : akey) (override : string -> option (list Q)) (Ntheta : option Z) : res (axis + Z) :=
  let! id := axid a in
  let name := axis_name id in
  match Ntheta, String.eqb name "theta" with
  | Some n, true => Ok (inr n)
  | _, _ =>
      match override name with
      | Some gr => rmap inl (mk_axis spl name "m" None (Some gr) None None)
      | None => let! gn := gridnode g key a in rmap inl (mk_axis spl name "m" (Some gn) None None None)
      end
  end.
(** setgridtofield, 95-104, for a field of shape sh: setaxisobj compares the lengths
    (datahandling.py 914-926) *)
Definition set_axis (sh : list Z) (a : akey) (ax : axis + Z) (axes : list (axis + Z)) : res (list (axis + Z)) :=
  let! id := axid a in
  let! n := getidx sh (id mod 90) in
  if (match ax with inl x => ax_len x | inr m => m end =? n) then setidx axes (id mod 90) ax else Err ValueError.
Definition setgridtofield (spl : spline_fn) (g : greader) (key : string) (order : akey * akey * akey) (override : string -> option (list Q)) (Ntheta : option Z)
    (sh : list Z) (axes : list (axis + Z)) : res (list (axis + Z)) :=
  let '(x, y, z) := order in
  let set a axes := let! ax := getaxisobj spl g key a override Ntheta in set_axis sh a ax axes in
  let! axes := set x axes in
  let! axes := if 1 <? dims sh then set y axes else Ok axes in
  if 2 <? dims sh then set z axes else Ok axes.

(** * openPMD, openPMDh5.py 82-182 *)
Record gattrs := mkga { ga_offset : option (list Q); ga_spacing : option (list Q); ga_unit : option Q }.
(** h_value: attribute of constant records; h_array: None for groups *)
Record h5rec := mkrec { h_value : option Q; h_unit : option Q; h_array : option (nda Q); h_attrs : gattrs; h_parent : gattrs }.
Definition attr {A} (x : option A) : res A := match x with Some v => Ok v | None => Err KeyError end.
Inductive pvalue := PScalar (q : Q) | PArr (a : nda Q).
(** data, 82-96 *)
Definition pmd_data (file : string -> res h5rec) (key : string) : res pvalue :=
  let! r := file key in
  match h_value r with
  | Some v => let! u := attr (h_unit r) in Ok (PScalar (v * u))
  | None =>
      match h_array r with
      | None => Err TypeError
      | Some a => let! u := attr (h_unit r) in Ok (PArr (mkarr (a_shape a) (fun i => a_at a i * u)%Q))
      end
  end.
Definition grid_attrs (r : h5rec) : gattrs := match ga_unit (h_attrs r) with Some _ => h_attrs r | None => h_parent r end.
(** gridoffset, gridspacing, gridpoints, 98-116 *)
Definition pmd_off (file : string -> res h5rec) (key : string) (a : akey) : res Q :=
  let! i := axid a in
  let! r := file key in
  let! l := attr (ga_offset (grid_attrs r)) in
  let! x := getidx l i in
  let! u := attr (ga_unit (grid_attrs r)) in Ok (x * u)%Q.
Definition pmd_sp (file : string -> res h5rec) (key : string) (a : akey) : res Q :=
  let! i := axid a in
  let! r := file key in
  let! l := attr (ga_spacing (grid_attrs r)) in
  let! x := getidx l i in
  let! u := attr (ga_unit (grid_attrs r)) in Ok (x * u)%Q.
Definition pmd_pts (file : string -> res h5rec) (key : string) (a : akey) : res Z :=
  let! i := axid a in
  let! r := file key in
  match h_array r with None => Err AttributeError | Some d => getidx (a_shape d) i end.
Definition pmd (file : string -> res h5rec) : greader :=
  mkg (pmd_off file) (pmd_sp file) (pmd_pts file) ["fields/E/x"; "fields/E/y"; "fields/E/z"; "fields/B/x"; "fields/B/y"; "fields/B/z"]%string.
(** data += offset; the right side must have the shape of the left or a single entry.  Other
    shapes that numpy can broadcast count as failures (particle records have one dimension) *)
Definition iadd (x y : pvalue) : res pvalue :=
  match x, y with
  | PScalar a, PScalar b => Ok (PScalar (a + b))
  | PScalar a, PArr b => Ok (PArr (mkarr (a_shape b) (fun i => a + a_at b i)%Q))
  | PArr a, PScalar b => Ok (PArr (mkarr (a_shape a) (fun i => a_at a i + b)%Q))
  | PArr a, PArr b =>
      if list_eq_dec Z.eq_dec (a_shape a) (a_shape b) then Ok (PArr (mkarr (a_shape a) (fun i => a_at a i + a_at b i)%Q))
      else if list_eq_dec Z.eq_dec (a_shape b) [1] then Ok (PArr (mkarr (a_shape a) (fun i => a_at a i + a_at b [0%Z])%Q))
      else Err ValueError
  end.
Definition species_path (weighting : string) (species : string) (id : Z) : res (string * option string) :=
  let base := ("particles/" ++ species ++ "/")%string in
  let p s := Ok ((base ++ s)%string, None) in
  let o s := Ok ((base ++ "position/" ++ s)%string, Some (base ++ "positionOffset/" ++ s)%string) in
  if id =? 9 then p weighting
  else if id =? 0 then o "x"%string else if id =? 1 then o "y"%string else if id =? 2 then o "z"%string
  else if id =? 3 then p "momentum/x"%string else if id =? 4 then p "momentum/y"%string else if id =? 5 then p "momentum/z"%string
  else if id =? 10 then p "id"%string else if id =? 11 then p "mass"%string else if id =? 12 then p "charge"%string
  else Err KeyError.
(** getSpecies, 154-182; smileih5.py 319-347 with 'weight' for 'weighting' *)
Definition getspecies (weighting : string) (file : string -> res h5rec) (species : string) (attrib : akey) : res pvalue :=
  let! id := attribid attrib in
  let! p := species_path weighting species id in
  match
    (let! d := pmd_data file (fst p) in
     match snd p with
     | None => Ok d
     | Some k => let! o := pmd_data file k in iadd d o
     end)
  with Err IndexError => Err KeyError | x => x end.

(** FbpicReader, openPMDh5.py 289-321 *)
Definition fb_remap (id : Z) : res akey := if id =? 90 then Ok (KI 0) else if id =? 2 then Ok (KI 1) else Err KeyError.
Definition fb_pts (file : string -> res h5rec) (key : string) (a : akey) : res Z :=
  let! id := axid a in
  let! r := file key in
  match h_array r with
  | None => Err AttributeError
  | Some d => match a_shape d with
              | [Nm; Nr; Nz] => getidx [Nr; (Nm + 1) / 2; Nz] (id mod 90)
              | _ => Err ValueError
              end
  end.
Definition fb_off (file : string -> res h5rec) (key : string) (a : akey) : res Q :=
  let! id := axid a in
  if id =? 91 then Ok 0%Q else let! k := fb_remap id in pmd_off file key k.
Definition fb_sp (pi : Q) (file : string -> res h5rec) (key : string) (a : akey) : res Q :=
  let! id := axid a in
  if id =? 91 then let! n := fb_pts file key a in if n =? 0 then Err ZeroDivisionError else Ok (2 * pi / inject_Z n)%Q
  else let! k := fb_remap id in pmd_sp file key k.
Definition fbpic (pi : Q) (file : string -> res h5rec) : greader :=
  mkg (fb_off file) (fb_sp pi file) (fb_pts file) (g_keys (pmd file)).
Definition fb_order : akey * akey * akey := (KS "r", KS "theta", KS "z")%string.

(** SmileiReader, smileih5.py 265-299; [am]: the names of the fields stored as azimuthal modes.
    The number of points along r of such a field is half a float *)
Definition sm_key (am : list string) (key : string) (id : Z) : string * akey :=
  if existsb (String.eqb key) am && ((id =? 0) || (id =? 90)) then ((key ++ "_mode_0")%string, KI (id / 90)) else (key, KI id).
Definition sm_off (am : list string) (file : string -> res h5rec) (key : string) (a : akey) : res Q :=
  let! id := axid a in
  if id =? 91 then Ok 0%Q else pmd_off file (fst (sm_key am key id)) (snd (sm_key am key id)).
Definition sm_sp (am : list string) (file : string -> res h5rec) (key : string) (a : akey) : res Q :=
  let! id := axid a in pmd_sp file (fst (sm_key am key id)) (snd (sm_key am key id)).
Inductive pynum := PInt (z : Z) | PFloat (q : Q).
Definition sm_pts (am : list string) (file : string -> res h5rec) (key : string) (a : akey) : res pynum :=
  let! id := axid a in
  if existsb (String.eqb key) am
  then let! r := file (key ++ "_mode_0")%string in
       match h_array r with
       | None => Err AttributeError
       | Some d => match a_shape d with
                   | [Nx; Nr] => getidx [PInt Nx; PFloat (inject_Z Nr / 2)] (id / 90)
                   | _ => Err ValueError
                   end
       end
  else rmap PInt (pmd_pts file key (KI id)).
(** np.linspace with a float for the number of points raises TypeError (numpy 1.18 or newer) *)
Definition sm_gridnode (am : list string) (file : string -> res h5rec) (key : string) (a : akey) : res (list Q) :=
  let! offset := sm_off am file key a in
  let! n := sm_pts am file key a in
  let! sp := sm_sp am file key a in
  match n with
  | PInt n => np_linspace offset (offset + sp * inject_Z n) (n + 1)
  | PFloat _ => Err TypeError
  end.

(** * EPOCH, epochsdf.py 45-58 and 107-183 *)
Record mesh := mkmesh { m_extents : list Q; m_dims : list Z; m_data : list (list Q) }.
Record sdfrec := mksdf { sd_stagger : option Z; sd_dims : list Z; sd_grid : mesh; sd_mid : list (list Q) }.
Definition default_stagger : list (string * Z) :=
  [("Electric Field/Ex", 1); ("Electric Field/Ey", 2); ("Electric Field/Ez", 4); ("Magnetic Field/Bx", 6); ("Magnetic Field/By", 5);
   ("Magnetic Field/Bz", 3); ("Current/Jx", 1); ("Current/Jy", 2); ("Current/Jz", 4)]%string.
Definition stagger_table : list (akey * Z) :=
  map (fun p => (KS (fst p), snd p)) default_stagger ++ map (fun p => (KS (fst p ++ "_averaged")%string, snd p)) default_stagger.
Definition sdf_sp (file : string -> res sdfrec) (key : string) (a : akey) : res Q :=
  let! i := axid a in
  let! r := file key in
  let m := sd_grid r in
  let! hi := getidx (m_extents m) (i + Z.of_nat (length (m_dims m))) in
  let! lo := getidx (m_extents m) i in
  let! n := getidx (m_dims m) i in
  if n - 1 =? 0 then Err ZeroDivisionError else Ok ((hi - lo) / inject_Z (n - 1))%Q.
(** keys of derived quantities and unknown keys have stagger 0 (115-121) *)
Definition sdf_stagger (key : string) (r : sdfrec) : Z :=
  match sd_stagger r with Some s => s | None => match lookup stagger_table (KS key) with Ok s => s | Err _ => 0 end end.
Definition sdf_off (file : string -> res sdfrec) (key : string) (a : akey) : res Q :=
  let! i := axid a in
  let! dx := sdf_sp file key a in
  let! r := file key in
  let! l := getidx (if Z.testbit (sdf_stagger key r) i then sd_mid r else m_data (sd_grid r)) i in
  let! x := getidx l 0 in
  Ok (x - dx / 2)%Q.
Definition sdf_pts (file : string -> res sdfrec) (key : string) (a : akey) : res Z :=
  let! i := axid a in let! r := file key in getidx (sd_dims r) i.
Definition sdf (file : string -> res sdfrec) : greader := mkg (sdf_off file) (sdf_sp file) (sdf_pts file) [].
(** simextent and simgridpoints, 164-183, of the mesh under 'Grid/Grid' *)
Definition sdf_simextent (m : mesh) (a : akey) : res (Q * Q) :=
  match axid a with
  | Err _ => Err KeyError
  | Ok i => let d := Z.of_nat (length (m_dims m)) in
            if Z.of_nat (length (m_extents m)) <=? i + d then Err KeyError
            else let! lo := getidx (m_extents m) i in let! hi := getidx (m_extents m) (i + d) in Ok (lo, hi)
  end.
Definition sdf_simgridpoints (m : mesh) (a : akey) : res Z :=
  let! i := axid a in let! n := getidx (m_dims m) i in Ok (n - 1).
Definition sdf_simgridspacing (m : mesh) (a : akey) : res Q :=
  let! e := sdf_simextent m a in let! n := sdf_simgridpoints m a in
  if n =? 0 then Err ZeroDivisionError else Ok ((snd e - fst e) / inject_Z n)%Q.

(** * Dummyreader, dummy.py 130-175 *)
Definition dummy_box (d : Z) : list (Q * Q * Z) :=
  (if d =? 1 then [((- (2))%Q, 10%Q, 600)] else if d =? 2 then [((- (2))%Q, 10%Q, 300); ((- (5))%Q, 5%Q, 400)]
   else if d =? 3 then [((- (2))%Q, 10%Q, 100); ((- (5))%Q, 5%Q, 80); ((- (4))%Q, 4%Q, 60)] else []).
Definition dummy_args (d : Z) (a : akey) : res (Q * Q * Z) :=
  let! i := axid a in if d <=? i then Err KeyError else getidx (dummy_box d) i.
Definition dummy_gridnode (d : Z) (a : akey) : res (list Q) := let! b := dummy_args d a in np_linspace (fst (fst b)) (snd (fst b)) (snd b + 1).
Definition dummy_grid (d : Z) (a : akey) : res (list Q) := let! b := dummy_args d a in np_linspace (fst (fst b)) (snd (fst b)) (snd b).
Definition dummy_simextent (d : Z) (a : akey) : res (Q * Q) :=
  let! g := dummy_grid d a in let! x := getidx g 0 in let! y := getidx g (-1) in Ok (x, y).
(** the array itself, not its length *)
Definition dummy_simgridpoints (d : Z) (a : akey) : res (list Q) := dummy_grid d a.

(** * chooseCode, __init__.py 50-200 *)
Record rcls := mkcls { c_name : string; c_dump : bool; c_sim : bool }.
Record rstate := mkst { st_dump : option rcls; st_sim : option rcls }.
Definition setdump (s : rstate) (c : rcls) : rstate * res unit := if c_dump c then (mkst (Some c) (st_sim s), Ok tt) else (s, Err BareException).
Definition setsim (s : rstate) (c : rcls) : rstate * res unit := if c_sim c then (mkst (st_dump s) (Some c), Ok tt) else (s, Err BareException).
(** str.lower on ascii letters *)
Definition lower_char (c : ascii) : ascii := let n := nat_of_ascii c in if (Nat.leb 65 n && Nat.leb n 90)%bool then ascii_of_nat (n + 32) else c.
Fixpoint lower (s : string) : string := match s with EmptyString => EmptyString | String c r => String (lower_char c) (lower r) end.
Definition D (n : string) : rcls := mkcls n true false.
Definition Sm (n : string) : rcls := mkcls n false true.
Definition mem_str (x : string) (l : list string) : bool := existsb (String.eqb x) l.
(** the import of the reader's module succeeds or not: an ImportError is BareException here *)
Definition pick (avail : string -> bool) (s : rstate) (m : string) (d : rcls) (c : rcls) : rstate * res unit :=
  if negb (avail m) then (s, Err BareException)
  else let (s, r) := setdump s d in match r with Err e => (s, Err e) | Ok _ => setsim s c end.
Definition choose (avail : string -> bool) (s : rstate) (code : string) : rstate * res unit :=
  let c := lower code in
  if mem_str c ["epoch"; "epoch1d"; "epoch2d"; "epoch3d"]%string then pick avail s "epochsdf" (D "Sdfreader") (Sm "Visitreader")
  else if mem_str c ["openpmd"; "openpmdh5"; "picongpu"]%string then pick avail s "openPMDh5" (D "OpenPMDreader") (Sm "FileSeries")
  else if mem_str c ["fbpic"]%string then pick avail s "openPMDh5" (D "FbpicReader") (Sm "FbpicFileSeries")
  else if mem_str c ["vsim"]%string then (s, Err BareException)
  else if mem_str c ["smilei"]%string then pick avail s "smileih5" (D "SmileiReader") (Sm "SmileiSeries")
  else if mem_str c ["dummy"]%string then pick avail s "dummy" (D "Dummyreader") (Sm "Dummysim")
  else (s, Err TypeError).
(** the calls which set the readers, __init__.py 55-97 and 148-200; what is no class at all (None) makes
    issubclass raise a TypeError *)
Inductive rcall := ChooseCode (code : string) | SetDump (c : option rcls) | SetSim (c : option rcls).
Definition do_rcall (avail : string -> bool) (s : rstate) (c : rcall) : rstate * res unit :=
  match c with
  | ChooseCode code => choose avail s code
  | SetDump None | SetSim None => (s, Err TypeError)
  | SetDump (Some c) => setdump s c
  | SetSim (Some c) => setsim s c
  end.
(** readDump and readSim: the class that reads, or an exception *)
Definition readdump (s : rstate) : res rcls := match st_dump s with None => Err BareException | Some c => Ok c end.
Definition readsim (s : rstate) : res rcls := match st_sim s with None => Err BareException | Some c => Ok c end.

(** * Dumpreader_ifc.__eq__, datareader.py 280-303; [str], [isfile] and [samefile] are python's
    and the file system's *)
Definition dump_eqb {I} (eqb : I -> I -> bool) (str : I -> string) (isfile : string -> bool) (samefile : string -> string -> bool) (a b : I) : bool :=
  if isfile (str a) && isfile (str b) then samefile (str a) (str b) else eqb a b.
