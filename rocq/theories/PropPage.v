(** Property theorems about what is written on plots (C118) and about sessions of a plotter (C119). *)
From Coq Require Import Lia.
From Verif Require Import PyBase NumpyModel NdModel AxisModel AxisSpec FieldModel IoSpec IoDemo HistddModel PlotModel PlotSpec PlotDemo PlotNameModel PlotNameSpec PageModel PageSpec PageFacts PageRun.
Local Open Scope string_scope.

(** ** C118 *)
(** A plot of a field of a dump shows the time of the dump in femtoseconds, rounded to a tenth, and its
    step ... *)
Theorem C118_time_partial : forall P fuel spl reduce maxlen k f ds notes t s, tells (p_rd P) t s -> ~ t == 0 -> s <> 0%Z -> page_of P fuel spl reduce maxlen k f = Ok (ds, notes) -> ds <> [NoData] ->
  exists a b v, texts_at OnFigure UR notes [a ++ " fs, step: " ++ b] /\ shows_tenths a v /\ Qabs.Qabs (v - 1000000000000000 * t) <= 1 # 20 /\ shows_integer b s.
Proof. exact written. Qed.
Print Assumptions C118_time_partial.
Example C118_time_case : exists ds notes, page_of (my_plotter at_2_5_fs) 1 chord_spline false 6000 no_kwargs a_line = Ok (ds, notes) /\ ds <> [NoData] /\ tells at_2_5_fs (5 # 2000000000000000) 120 /\ texts_at OnFigure UR notes ["2.5 fs, step:    120"] /\ texts_at OnAxes UR2 notes ["500 nm"; "['500 nm']"; "['500 nm']"] /\ texts_at OnAxes Title notes ["Ex [V/m]"].
Proof. exact line_shows. Qed.
(** ... unless one of them is zero.  Full statement: the same without t <> 0 and s <> 0.  The first dump
    has neither, ... *)
Theorem C118_first : forall P fuel spl reduce maxlen k f ds notes t, tells (p_rd P) t 0 -> t == 0 -> page_of P fuel spl reduce maxlen k f = Ok (ds, notes) -> ds <> [NoData] -> texts_at OnFigure UR notes [].
Proof. exact at_zero. Qed.
Print Assumptions C118_first.
Theorem C118_first_refuted : exists ds notes, page_of (my_plotter first_dump) 1 chord_spline false 6000 no_kwargs a_line = Ok (ds, notes) /\ ds <> [NoData] /\ tells first_dump 0 0 /\ texts_at OnFigure UR notes [].
Proof. exact first_shows. Qed.
Print Assumptions C118_first_refuted.
(** ... without a time the text begins with a comma, without a step this is left out. *)
Theorem C118_no_time : forall P fuel spl reduce maxlen k f ds notes t s, tells (p_rd P) t s -> t == 0 -> s <> 0%Z -> page_of P fuel spl reduce maxlen k f = Ok (ds, notes) -> ds <> [NoData] -> exists b, texts_at OnFigure UR notes [", step: " ++ b] /\ shows_integer b s.
Proof. exact at_start. Qed.
Print Assumptions C118_no_time.
Example C118_no_time_case : exists ds notes, page_of (my_plotter (mkreader (Ok (PFloat 0)) (Ok (PInt 5)) "x")) 1 chord_spline false 6000 no_kwargs a_line = Ok (ds, notes) /\ ds <> [NoData] /\ texts_at OnFigure UR notes [", step:      5"].
Proof. exact comma_ok. Qed.
Theorem C118_no_step : forall P fuel spl reduce maxlen k f ds notes t, tells (p_rd P) t 0 -> ~ t == 0 -> page_of P fuel spl reduce maxlen k f = Ok (ds, notes) -> ds <> [NoData] -> exists a v, texts_at OnFigure UR notes [a ++ " fs"] /\ shows_tenths a v /\ Qabs.Qabs (v - 1000000000000000 * t) <= 1 # 20.
Proof. exact at_step0. Qed.
Print Assumptions C118_no_step.
(** The name of the dump and the project are on the plot, ... *)
Theorem C118_names : forall P fuel spl reduce maxlen k f ds notes t s, r_time (p_rd P) = Ok t -> r_step (p_rd P) = Ok s -> page_of P fuel spl reduce maxlen k f = Ok (ds, notes) -> ds <> [NoData] ->
  (r_name (p_rd P) <> "" -> texts_at OnFigure UL2 notes [r_name (p_rd P)]) /\ (the_project P <> "" -> texts_at OnFigure UL notes [the_project P]).
Proof. exact named. Qed.
Print Assumptions C118_names.
(** ... if the reader knows its time and step.  If one of them raises AttributeError, the plot is made
    without all of these but the project. *)
Theorem C118_silent : forall P fuel spl reduce maxlen k f ds notes, (let! t := r_time (p_rd P) in r_step (p_rd P)) = Err AttributeError -> page_of P fuel spl reduce maxlen k f = Ok (ds, notes) -> ds <> [NoData] ->
  texts_at OnFigure UR notes [] /\ texts_at OnFigure UL2 notes [] /\ (the_project P <> "" -> texts_at OnFigure UL notes [the_project P]).
Proof. exact silent. Qed.
Print Assumptions C118_silent.
Example C118_silent_case : let P := my_plotter (mkreader (Ok (PFloat 1)) (Err AttributeError) "x") in (let! t := r_time (p_rd P) in r_step (p_rd P)) = Err AttributeError /\ exists pg, page_of P 1 chord_spline false 6000 no_kwargs a_line = Ok pg /\ fst pg <> [NoData].
Proof. split; [reflexivity|]. eexists. split; [vm_compute; reflexivity|discriminate]. Qed.
(** Any other exception is passed on and nothing is plotted. *)
Theorem C118_raised : forall P fuel spl reduce maxlen k f ds e, (let! t := r_time (p_rd P) in r_step (p_rd P)) = Err e -> e <> AttributeError -> plot_field fuel spl reduce maxlen k (Some (pf_field f)) = Ok ds -> ds <> [NoData] -> page_of P fuel spl reduce maxlen k f = Err e.
Proof. exact reader_fails. Qed.
Print Assumptions C118_raised.
Example C118_raised_case : page_of (my_plotter (mkreader (Err KeyError) (Ok (PInt 1)) "x")) 1 chord_spline false 6000 no_kwargs a_line = Err KeyError.
Proof. vm_compute. reflexivity. Qed.
(** The title is the label of the field if it has one, else its name and unit, ... *)
Theorem C118_label_partial : forall P fuel spl reduce maxlen k f ds notes g l, page_of P fuel spl reduce maxlen k f = Ok (ds, notes) -> ds <> [NoData] -> field_squeeze spl (pf_field f) = Ok g -> is_color (f_shape g) = false -> m_label (pf_meta f) = Some l -> l <> "" -> texts_at OnAxes Title notes [l].
Proof. exact title_own. Qed.
Print Assumptions C118_label_partial.
Theorem C118_unit : forall P fuel spl reduce maxlen k f ds notes g, page_of P fuel spl reduce maxlen k f = Ok (ds, notes) -> ds <> [NoData] -> field_squeeze spl (pf_field f) = Ok g -> is_color (f_shape g) = false -> m_label (pf_meta f) = None -> m_unit (pf_meta f) <> "" -> texts_at OnAxes Title notes [m_name (pf_meta f) ++ " [" ++ m_unit (pf_meta f) ++ "]"].
Proof. exact title_unit. Qed.
Print Assumptions C118_unit.
Theorem C118_name : forall P fuel spl reduce maxlen k f ds notes g, page_of P fuel spl reduce maxlen k f = Ok (ds, notes) -> ds <> [NoData] -> field_squeeze spl (pf_field f) = Ok g -> is_color (f_shape g) = false -> m_label (pf_meta f) = None -> m_unit (pf_meta f) = "" -> m_name (pf_meta f) <> "" -> texts_at OnAxes Title notes [m_name (pf_meta f)].
Proof. exact title_plain. Qed.
Print Assumptions C118_name.
(** ... but not for color images, whose label is lost. *)
Theorem C118_label_refuted : exists ds notes, page_of (my_plotter at_2_5_fs) 1 chord_spline false 6000 no_kwargs a_photo = Ok (ds, notes) /\ ds <> [NoData] /\ m_label (pf_meta a_photo) = Some "my photo" /\ texts_at OnAxes Title notes ["photo"].
Proof. exact photo_shows. Qed.
Print Assumptions C118_label_refuted.
(** Several lines have the title of the last. *)
Theorem C118_lines : forall P pre b m notes, texts_1d P (pre ++ [(b, m)])%list = Ok notes -> label m <> "" -> texts_at OnAxes Title notes [label m].
Proof. exact last_title. Qed.
Print Assumptions C118_lines.
Example C118_lines_case : exists notes, texts_1d (my_plotter at_2_5_fs) [(true, my_meta); (true, mkmeta "Ey" "" None "" [])] = Ok notes /\ texts_at OnAxes Title notes ["Ey"].
Proof. eexists. split; [vm_compute; reflexivity|]. apply (last_title (my_plotter at_2_5_fs) [(true, my_meta)] true (mkmeta "Ey" "" None "" [])); [vm_compute; reflexivity|discriminate]. Qed.
(** The infostring is on the plot, ... *)
Theorem C118_info : forall P fuel spl reduce maxlen k f ds notes g, page_of P fuel spl reduce maxlen k f = Ok (ds, notes) -> ds <> [NoData] -> field_squeeze spl (pf_field f) = Ok g -> m_infostring (pf_meta f) <> "" -> exists ts, texts_at OnAxes UR2 notes ts /\ In (m_infostring (pf_meta f)) ts.
Proof. exact one_info_shown. Qed.
Print Assumptions C118_info.
(** ... and nothing else is written over it, if this is not a line.  Full statement: for all plots. *)
Theorem C118_info_partial : forall P fuel spl reduce maxlen k f ds notes g ts t, page_of P fuel spl reduce maxlen k f = Ok (ds, notes) -> ds <> [NoData] -> field_squeeze spl (pf_field f) = Ok g -> dims (f_shape g) <> 1%Z -> texts_at OnAxes UR2 notes ts -> In t ts -> t = m_infostring (pf_meta f).
Proof. exact one_info. Qed.
Print Assumptions C118_info_partial.
(** False for every line with an infostring: another text is written over it, twice. *)
Theorem C118_info_refuted : forall P fuel spl reduce maxlen k f ds notes g, page_of P fuel spl reduce maxlen k f = Ok (ds, notes) -> ds <> [NoData] -> field_squeeze spl (pf_field f) = Ok g -> dims (f_shape g) = 1%Z -> m_infostring (pf_meta f) <> "" ->
  exists t, texts_at OnAxes UR2 notes [m_infostring (pf_meta f); t; t] /\ t <> m_infostring (pf_meta f).
Proof. exact overlap. Qed.
Print Assumptions C118_info_refuted.

(** ** C119 *)
(** After any calls of plotField, with exceptions or not, a plotter which saves its plots has saved
    exactly the plots of the calls which raised nothing, in this order, each in a file of its own in its
    directory. *)
Theorem C119_history : forall P spl cs st rs, p_autosave P = true -> run P spl cs fresh = (st, rs) ->
  exists pgs, pages_made P spl cs pgs /\ map snd (s_files st) = pgs /\ tidy P st /\
    Forall2 (fun c r => match page_of P (c_fuel c) spl (c_reduce c) (c_maxlen c) (c_kw c) (c_field c) with Ok _ => r = Ok None | Err e => r = Err e end) cs rs.
Proof. exact history. Qed.
Print Assumptions C119_history.
Example C119_history_case : exists st rs, run (my_plotter at_2_5_fs) chord_spline my_calls fresh = (st, rs) /\ map fst (s_files st) = ["out/run7_0120.sdf_0_Ex.png"; "out/run7_0120.sdf_1_Ex.png"; "out/run7_0120.sdf_2_again.png"] /\ rs = [Ok None; Err BareException; Ok None; Ok None].
Proof. exact calls_ok. Qed.
(** Otherwise nothing is saved and every call gives its plot. *)
Theorem C119_shown : forall P spl cs st, p_autosave P = false -> run P spl cs st = (st, map (fun c => rmap Some (page_of P (c_fuel c) spl (c_reduce c) (c_maxlen c) (c_kw c) (c_field c))) cs).
Proof. exact shown. Qed.
Print Assumptions C119_shown.
(** plotFields saves in addition the plots before the first exception, and passes this on. *)
Theorem C119_fields_partial : forall P spl cs st rs fuel reduce maxlen k name fs st' r, p_autosave P = true -> run P spl cs fresh = (st, rs) -> plotFields P fuel spl reduce maxlen k name fs st = (st', r) ->
  exists pgs e, pages_until (page_of P fuel spl reduce maxlen k) fs pgs e /\ adds st st' pgs /\ tidy P st' /\ r = match e with None => Ok (map (fun _ => None) fs) | Some e => Err e end.
Proof. exact fields_plotted. Qed.
Print Assumptions C119_fields_partial.
(** So does plotallderived ... *)
Theorem C119_derived_partial : forall P spl cs st rs fuel keys create st' r, p_autosave P = true -> run P spl cs fresh = (st, rs) -> plotallderived P fuel spl (Ok keys) create st = (st', r) ->
  exists pgs e, pages_until (fun key => let! f := create key in page_of P fuel spl true 6000 no_kwargs f) keys pgs e /\ adds st st' pgs /\ tidy P st' /\ r = match e with None => Ok tt | Some e => Err e end.
Proof. exact derived_plotted. Qed.
Print Assumptions C119_derived_partial.
(** ... with the fields the reader has, if it has any. *)
Theorem C119_none : forall P fuel spl create st, plotallderived P fuel spl (Err AttributeError) create st = (st, Ok tt).
Proof. exact none_derived. Qed.
Print Assumptions C119_none.
(** Full statement: all derived fields which can be plotted are plotted.  False if one in front of them
    has three dimensions: *)
Theorem C119_derived_refuted : exists st, plotallderived (my_plotter at_2_5_fs) 3 chord_spline (Ok ["rho"; "Ex"]) (fun k => if String.eqb k "rho" then Ok a_cube else Ok a_line) fresh = (st, Err BareException) /\ s_files st = [] /\
  exists pg, page_of (my_plotter at_2_5_fs) 3 chord_spline true 6000 no_kwargs a_line = Ok pg.
Proof. exact cube_first. Qed.
Print Assumptions C119_derived_refuted.
