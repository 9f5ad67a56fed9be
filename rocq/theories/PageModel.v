(** Model of what is written on plots and of sessions of a plotter:
    postpic/plotting/plotter_matplotlib.py, savefig (110-114), settext_fig (117-130), settext_ax (133-146),
    annotate (149-170), annotate_fromfield (173-177), annotate_fromreader (180-188), addFields1d (237-254),
    _plotfinalize (360-362), plotFields1d (364-383), plotField2d (385-398), plotField (400-420), _skipplot
    (422-432), plotFields (434-436), plotallderived (438-449); datahandling.py, Field.label (931-939).
    The attributes of plotter and reader stay as they are during a session.  Texts are ascii.
    Not modelled: labels of the axes, legends, color bars.  No proofs in this file. *)
From Coq Require Import DecimalString Ascii NArith Qround.
From Verif Require Import PyBase NumpyModel NdModel AxisModel FieldModel HistddModel PlotModel PlotNameModel.
Local Open Scope string_scope.

(** * Texts *)
(** repr of a text: its quotes, and how a character is written *)
Definition quote_of (s : string) : ascii :=
  let has c := existsb (Ascii.eqb c) (list_ascii_of_string s) in
  if has "'"%char && negb (has """"%char) then """"%char else "'"%char.
Definition hex (n : nat) : string := match String.get n "0123456789abcdef" with Some c => String c "" | None => "" end.
Definition repr_char (q c : ascii) : string :=
  let n := nat_of_ascii c in
  if Ascii.eqb c q || Ascii.eqb c "\"%char then String "\" (String c "")
  else if (n =? 10)%nat then "\n" else if (n =? 13)%nat then "\r" else if (n =? 9)%nat then "\t"
  else if (n <? 32)%nat || (127 <=? n)%nat then "\x" ++ hex (n / 16) ++ hex (n mod 16)
  else String c "".
Fixpoint repr_body (q : ascii) (s : string) : string := match s with "" => "" | String c r => repr_char q c ++ repr_body q r end.
Definition repr (s : string) : string := let q := quote_of s in String q (repr_body q s ++ String q "").
(** str(list of texts) *)
Fixpoint joined (l : list string) : string := match l with [] => "" | [s] => repr s | s :: r => repr s ++ ", " ++ joined r end.
Definition pylist (l : list string) : string := "[" ++ joined l ++ "]".

(** ** numbers; halves are rounded to even *)
Definition round_even (q : Q) : Z :=
  let f := Qfloor q in
  let r := (q - inject_Z f)%Q in
  if r <?q (1 # 2) then f else if (1 # 2) <?q r then (f + 1)%Z else if Z.even f then f else (f + 1)%Z.
Definition digits (n : Z) : string := NilEmpty.string_of_uint (N.to_uint (Z.to_N n)).
Definition sign (q : Q) : string := if q <?q 0 then "-" else "".
(** '{:.1f}'.format(q) *)
Definition fixed1 (q : Q) : string :=
  let n := round_even (10 * qabs q) in sign q ++ digits (n / 10) ++ "." ++ digits (n mod 10).
Fixpoint blanks (n : nat) : string := match n with O => "" | S n => String " " (blanks n) end.
(** '{:6.0f}'.format(q) *)
Definition fixed6 (q : Q) : string :=
  let t := sign q ++ digits (round_even (qabs q)) in blanks (6 - String.length t) ++ t.

(** * What is written *)
Inductive place := Title | UR | UR2 | UL | UL2 | Center.
Inductive surface := OnFigure | OnAxes.
Definition note := (surface * place * string)%type.
(** if text: *)
Definition truthy (t : option string) : bool := match t with Some s => negb (String.eqb s "") | None => false end.
Definition text_of (t : option string) : string := match t with Some s => s | None => "" end.
Definition put (w : surface) (p : place) (t : option string) : list note := if truthy t then [(w, p, text_of t)] else [].
(** 117-146; matplotlib writes str(center) *)
Definition settext (w : surface) (title ur ur2 ul ul2 : option string) (center : option (list string)) : list note :=
  let c := match center with Some (x :: l) => [(w, Center, pylist (x :: l))] | _ => [] end in
  match w with
  | OnFigure => put w Title title ++ put w UR ur ++ put w UR2 ur2 ++ put w UL ul ++ put w UL2 ul2 ++ c
  | OnAxes => put w Title title ++ put w UR2 ur2 ++ put w UR ur ++ put w UL2 ul2 ++ put w UL ul ++ c
  end%list.
(** times and steps: other objects are given by bool() and str() *)
Inductive pyvalue := PNone | PFloat (q : Q) | PInt (z : Z) | POther (b : bool) (s : string).
Definition is_true (v : pyvalue) : bool :=
  match v with PNone => false | PFloat q => negb (q ==?q 0) | PInt z => negb (z =? 0)%Z | POther b _ => b end.
(** str(z) *)
Definition str_int (z : Z) : string := (if (z <? 0)%Z then "-" else "") ++ digits (Z.abs z).
Definition femto : Q := 1000000000000000.
(** 151-162 *)
Definition upper_right (time step : pyvalue) : string :=
  (if is_true time then match time with
                        | PFloat t => fixed1 (femto * t) ++ " fs"
                        | PInt z => str_int z
                        | POther _ s => s
                        | PNone => ""
                        end else "") ++
  (if is_true step then match step with
                        | PFloat q => ", step: " ++ fixed6 q
                        | PInt z => ", step: " ++ fixed6 (inject_Z z)
                        | POther _ s => " " ++ s
                        | PNone => ""
                        end else "").
(** 149-170 *)
Record args := mkargs { a_title : option string; a_time : pyvalue; a_step : pyvalue; a_project : option string; a_dump : option string; a_info : option string; a_infos : option (list string) }.
Definition no_args : args := mkargs None PNone PNone None None None None.
Definition annotate (w : surface) (a : args) : list note :=
  let center := match a_infos a with Some [] => None | Some [s] => if String.eqb s "" then None else a_infos a | x => x end in
  settext w (a_title a) (Some (upper_right (a_time a) (a_step a))) (a_info a) (a_project a) (a_dump a) center.
(** the attributes of a Field which are written *)
Record meta := mkmeta { m_name : string; m_unit : string; m_label : option string; m_infostring : string; m_infos : list string }.
(** datahandling.py 931-939 *)
Definition label (m : meta) : string :=
  if truthy (m_label m) then text_of (m_label m)
  else if String.eqb (m_unit m) "" then m_name m else m_name m ++ " [" ++ m_unit m ++ "]".
Definition annotate_field (w : surface) (m : meta) : list note :=
  annotate w (mkargs (Some (label m)) PNone PNone None None (Some (m_infostring m)) (Some (m_infos m))).
(** reader.time(), reader.timestep(), reader.name *)
Record reader := mkreader { r_time : res pyvalue; r_step : res pyvalue; r_name : string }.
Definition annotate_reader (w : surface) (r : reader) : res (list note) :=
  match (let! t := r_time r in let! s := r_step r in Ok (annotate w (mkargs None t s None (Some (r_name r)) None None))) with
  | Err AttributeError => Ok (annotate w no_args)
  | x => x
  end.

(** * Plotting *)
Record plotter := mkplotter { p_attrs : attrs; p_autosave : bool; p_rd : reader }.
Definition the_project (P : plotter) : string := project (p_attrs P).
Definition info (s : string) : args := mkargs None PNone PNone None None (Some s) None.
(** 370-371 and 390-391: what the reader and the project have to say *)
Definition from_reader (P : plotter) : res (list note) :=
  rmap (fun l => (l ++ annotate OnFigure (mkargs None PNone PNone (Some (the_project P)) None None None))%list) (annotate_reader OnFigure (p_rd P)).
(** 237-254 and 364-372; [b]: the field has dimensions, so that it is drawn *)
Definition texts_1d (P : plotter) (fs : list (bool * meta)) : res (list note) :=
  match fs with
  | [] => Err IndexError
  | (_, m0) :: _ =>
      let clear := negb (forallb (fun p => infos_eqb (m_infos (snd p)) (m_infos m0)) fs) in
      let (drawn, m) := last fs (false, m0) in
      let m := if clear && drawn then mkmeta (m_name m) (m_unit m) (m_label m) (m_infostring m) [] else m in
      let! rd := from_reader P in
      Ok (annotate_field OnAxes m ++ annotate OnAxes (info (pylist (map (fun p => m_infostring (snd p)) (filter fst fs)))) ++
          rd ++ annotate OnAxes (info (pylist (map (fun p => m_infostring (snd p)) fs))))%list
  end.
(** 356-357 and 385-392.  A color image is divided by its maximum (293-294), what is left of the attributes
    is name and unit *)
Definition texts_2d (P : plotter) (color : bool) (m : meta) : res (list note) :=
  let! rd := from_reader P in
  Ok (annotate_field OnAxes (if color then mkmeta (m_name m) (m_unit m) None "" [] else m) ++ rd ++ annotate OnAxes (info (m_infostring m)))%list.
Definition page := (list drawing * list note)%type.
(** the names used and the files written *)
Record session := mksession { s_used : list string; s_files : list (string * page) }.
Definition fresh : session := mksession [] [].
(** 374-377 and 394-397: savefig, or the figure is handed back *)
Definition finish (P : plotter) (key : string) (pg : page) (st : session) : session * res (option page) :=
  if p_autosave P then
    let (used, r) := savename (p_attrs P) key None (s_used st) in
    match r with
    | Ok f => (mksession used (s_files st ++ [(f, pg)])%list, Ok None)
    | Err e => (mksession used (s_files st), Err e)
    end
  else (st, Ok (Some pg)).
Record pfield := mkpf { pf_field : field Q; pf_meta : meta }.
(** what plotField makes, 400-420 *)
Definition page_of (P : plotter) (fuel : nat) (spl : spline_fn) (autoreduce : bool) (maxlen : Z) (k : kwargs) (f : pfield) : res page :=
  let! ds := plot_field fuel spl autoreduce maxlen k (Some (pf_field f)) in
  let! g := field_squeeze spl (pf_field f) in
  if (dims (f_shape g) <=? 0)%Z then Ok (ds, [])
  else if (dims (f_shape g) =? 1)%Z then rmap (pair ds) (texts_1d P [(true, pf_meta f)])
  else rmap (pair ds) (texts_2d P (is_color (f_shape g)) (pf_meta f)).
Definition key_of (name : option string) (f : pfield) : string := if truthy name then text_of name else m_name (pf_meta f).
Definition plotField (P : plotter) (fuel : nat) (spl : spline_fn) (autoreduce : bool) (maxlen : Z) (k : kwargs) (name : option string) (f : pfield) (st : session) : session * res (option page) :=
  match page_of P fuel spl autoreduce maxlen k f with
  | Err e => (st, Err e)
  | Ok pg => finish P (key_of name f) pg st
  end.
(** one call after the other, until one raises *)
Fixpoint until_error {A B} (call : A -> session -> session * res B) (l : list A) (st : session) : session * res (list B) :=
  match l with
  | [] => (st, Ok [])
  | x :: r => let (st, y) := call x st in
              match y with
              | Err e => (st, Err e)
              | Ok y => let (st, ys) := until_error call r st in (st, rmap (cons y) ys)
              end
  end.
(** 434-436 *)
Definition plotFields (P : plotter) fuel spl autoreduce maxlen k name (fs : list pfield) (st : session) : session * res (list (option page)) :=
  until_error (plotField P fuel spl autoreduce maxlen k name) fs st.
(** 438-449; [create]: createfieldfromkey, called when the field is due *)
Definition plotallderived (P : plotter) fuel spl (getderived : res (list string)) (create : string -> res pfield) (st : session) : session * res unit :=
  match getderived with
  | Err AttributeError => (st, Ok tt)
  | Err e => (st, Err e)
  | Ok keys =>
      let (st, r) := until_error (fun key st => match create key with Err e => (st, Err e) | Ok f => plotField P fuel spl true 6000 no_kwargs None f st end) keys st in
      (st, rmap (fun _ => tt) r)
  end.
(** calls of plotField by a user, who goes on after exceptions *)
Record call := mkcall { c_fuel : nat; c_reduce : bool; c_maxlen : Z; c_kw : kwargs; c_name : option string; c_field : pfield }.
Definition do_call (P : plotter) (spl : spline_fn) (c : call) (st : session) : session * res (option page) :=
  plotField P (c_fuel c) spl (c_reduce c) (c_maxlen c) (c_kw c) (c_name c) (c_field c) st.
Fixpoint run (P : plotter) (spl : spline_fn) (cs : list call) (st : session) : session * list (res (option page)) :=
  match cs with
  | [] => (st, [])
  | c :: r => let (st, y) := do_call P spl c st in let (st, ys) := run P spl r st in (st, y :: ys)
  end.
