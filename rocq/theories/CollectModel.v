(** Model of collections of species and of the fields made from them:
    postpic/particles/particles.py, MultiSpecies.add (478-516), dumpreader (382-395), simextent
    and simgridpoints (397-416), the keyword arguments of _createHistgram (1042-1102) and
    createField (1104-1166).  No proofs in this file. *)
From Verif Require Import PyBase NumpyModel NdModel AxisModel FieldModel ParticleModel SpeciesModel DepModel HistddModel.

(** * add *)
(** the truth value of a dictionary entry *)
Definition truth (v : sval) : bool :=
  match v with SBool b => b | SNum q => negb (q ==?q 0) | SStr s => negb (String.eqb s "") end.
(** identifyspecies(s)[k] as a condition *)
Definition flag (me qe : Q) (k s : string) : res bool :=
  let! d := identifyspecies me qe s in
  match dict_get k d with Some v => Ok (truth v) | None => Err KeyError end.
(** the dictionary keys, 498-502 *)
Definition collection (me qe : Q) (key : string) : option (string -> res bool) :=
  if String.eqb key "_ions" then Some (flag me qe "ision")
  else if String.eqb key "_nonions" then Some (fun s => rmap negb (flag me qe "ision" s))
  else if String.eqb key "_ejected" then Some (flag me qe "ejected")
  else if String.eqb key "_noejected" then Some (fun s => rmap negb (flag me qe "ejected" s))
  else if String.eqb key "_all" then Some (fun _ => Ok true)
  else None.
(** [s for s in ls if f(s)] *)
Fixpoint filterM {A} (f : A -> res bool) (l : list A) : res (list A) :=
  match l with
  | [] => Ok []
  | x :: r => let! b := f x in let! ys := filterM f r in Ok (if b then x :: ys else ys)
  end.
Fixpoint each {A} (f : A -> M unit) (l : list A) : M unit :=
  match l with [] => mret tt | x :: r => do! _ := f x in each f r end.
(** self._ssas.append(i) *)
Definition append (m i : nat) : M unit := do! is := get_ms m in put_ms m (is ++ [i]).
(** add, 478-516.  [fuel] is python's recursion limit, which is only reached if a species of the
    dump bears one of the reserved names *)
Fixpoint add_named (fuel : nat) (me qe : Q) (m : nat) (d : dump) (species : string) (ignore_missing : bool) : M unit :=
  match fuel with
  | O => mraise Diverges
  | S fuel =>
      match collection me qe species with
      | Some p =>
          do! toadd := mlift (filterM p (d_names d)) in                     (* 503-505 *)
          each (fun s => add_named fuel me qe m d s false) toadd
      | None => fun w =>
          match new_single d species w with
          | (w', Ok i) => append m i w'
          | (w', Err KeyError) => if ignore_missing then (w', Ok tt) else (w', Err KeyError)
          | (w', Err e) => (w', Err e)
          end
      end
  end.
(** __init__, 351-358 *)
Definition ms_init (fuel : nat) (me qe : Q) (d : dump) (names : list string) (ignore_missing : bool) : M nat :=
  do! m := new_ms [] in
  do! _ := each (fun s => add_named fuel me qe m d s ignore_missing) names in
  mret m.

(** * dumpreader, simextent, simgridpoints *)
(** the dumps of the species of a MultiSpecies *)
Definition ms_dumps (m : nat) : M (list dump) :=
  do! is := get_ms m in mmap (fun i => do! s := get_obj i in mret (s_dump s)) is.
(** dumpreader, 382-395; [same] is __eq__ of the dumpreaders (ReaderModel) *)
Definition ms_dumpreader (same : dump -> dump -> bool) (m : nat) : M (option dump) :=
  do! ds := ms_dumps m in
  mret (match ds with
        | [] => None
        | d0 :: _ => if forallb (same d0) ds then Some d0 else None
        end).
(** simextent, 397-404; [box] is what the dumpreaders return (ReaderModel): one pair, thus
    [::2] and [1::2] take the first and the second column *)
Definition ms_simextent (box : dump -> string -> res (Q * Q)) (m : nat) (axis : string) : M (Q * Q) :=
  do! ds := ms_dumps m in
  do! es := mlift (mapM (fun d => box d axis) ds) in
  do! lo := mlift (np_min (map fst es)) in
  do! hi := mlift (np_max (map snd es)) in
  mret (lo, hi).
(** simgridpoints, 406-416: the number found is not returned *)
Definition ms_simgridpoints (pts : dump -> string -> res Z) (m : nat) (axis : string) : M (option Z) :=
  do! ds := ms_dumps m in
  match ds with
  | [] => mraise IndexError
  | d :: _ =>
      match pts d axis with
      | Ok _ | Err AttributeError | Err KeyError => mret None
      | Err e => mraise e
      end
  end.

(** * _createHistgram and createField *)
(** a scalar to plot: its symbol (or the text given), the values of all particles, and what
    _findscalarattr finds for name and unit *)
Record scalar := mkscalar { sc_symbol : string; sc_values : res (list Q); sc_name : string; sc_unit : string }.
Record hist_args := mkha {
  h_simextent : bool; h_simgrid : bool; h_force : bool;
  h_ranges : list (option (Q * Q));      (* rangex, rangey, rangez *)
  h_bins : hbins; h_shape : option shapearg }.
(** 1075-1078: ranges[i] = self.simextent(symbol) for every scalar *)
Fixpoint sim_ranges (box : string -> res (Q * Q)) (sps : list scalar) (ranges : list (option (Q * Q))) : res (list (option (Q * Q))) :=
  match sps with
  | [] => Ok ranges
  | sp :: r =>
      let! e := box (sc_symbol sp) in
      match ranges with
      | [] => Err IndexError
      | _ :: rest => let! rs := sim_ranges box r rest in Ok (Some e :: rs)
      end
  end.
(** 1079-1083: bins[i] = tmp for what is not None *)
Fixpoint sim_bins (pts : string -> res (option Z)) (i : Z) (sps : list scalar) (bins : hbins) : res hbins :=
  match sps with
  | [] => Ok bins
  | sp :: r =>
      let! n := pts (sc_symbol sp) in
      let! bins := match n with
                   | None => Ok bins
                   | Some n => match bins with BSeq l => rmap BSeq (setidx l i n) | _ => Err TypeError end
                   end in
      sim_bins pts (i + 1) r bins
  end.
(** 1060-1102; [box] and [pts] are simextent and simgridpoints of the MultiSpecies, [w] the values
    of 'weight * (weights)' *)
Definition create_histgram ub spacing (box : string -> res (Q * Q)) (pts : string -> res (option Z)) (sps : list scalar) (w : res (list Q)) (h : hist_args)
    : res (nda Q * list (list Q)) :=
  let! _ := guard (Nat.leb (length sps) 3) TypeError in
  let! data := match mapM sc_values sps with
               | Err KeyError => if h_force h then Ok [[]] else Err KeyError
               | r => r
               end in
  let! ranges := if h_simextent h || h_simgrid h then sim_ranges box sps (h_ranges h) else Ok (h_ranges h) in
  let! bins := if h_simgrid h then sim_bins pts 0 sps (h_bins h) else Ok (h_bins h) in
  let! w := match data with [] | [] :: _ => Ok [] | _ => w end in
  create_hist ub spacing data w ranges bins (h_shape h).
(** 1161-1163 *)
Fixpoint name_axes (sps : list scalar) (axes : list axis) : res (list axis) :=
  match sps, axes with
  | [], _ => Ok axes
  | _ :: _, [] => Err IndexError
  | sp :: r, ax :: rest =>
      let! rs := name_axes r rest in
      Ok (mkAxis (sc_name sp) (sc_unit sp) (ax_node ax) (ax_grid ax) (ax_extent ax) (ax_n ax) :: rs)
  end.
(** createField, 1147-1166, without label and infos.  [species] is the name of the MultiSpecies,
    [wname] what _findscalarattr finds for the weights, if they are given *)
Definition create_field ub spacing spl (box : string -> res (Q * Q)) (pts : string -> res (option Z)) (sps : list scalar) (w : res (list Q)) (h : hist_args)
    (name : string) (title : option string) (species : string) (wname : option string) : res (field Q) :=
  let! he := create_histgram ub spacing box pts sps w h in
  let edges := snd he in
  let! f := field_new spl (fst he) "" "" (nth_error edges 0) (nth_error edges 1) (nth_error edges 2) in
  let name := (match wname with Some n => n | None => name end ++ species)%string in
  let name := match title with Some t => if String.eqb t "" then name else t | None => name end in
  let! axes := name_axes sps (f_axes f) in
  Ok (mkField (f_data f) (mkLayer axes (f_ats f) (f_tao f) name (l_unit (f_top f))) (f_inner f)).
