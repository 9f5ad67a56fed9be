(** Sessions of a plotter, and examples. *)
From Coq Require Import Lia Lqa.
From Verif Require Import PyBase PyBaseFacts NumpyModel NumpyFacts NdModel AxisModel AxisSpec FieldModel IoSpec IoDemo HistddModel PlotModel PlotSpec PlotDemo PlotNameModel PlotNameSpec PlotNameFacts PageModel PageSpec PageFacts.
Local Open Scope string_scope.

Lemma good_tidy P st : good P st -> tidy P st.
Proof. intro G. split; [exact (good_distinct P st G)|apply G]. Qed.
Lemma plotField_on P fuel spl reduce maxlen k name f st : p_autosave P = true -> good P st ->
  (exists pg st' n, page_of P fuel spl reduce maxlen k f = Ok pg /\ plotField P fuel spl reduce maxlen k name f st = (st', Ok None) /\ good P st' /\ s_files st' = (s_files st ++ [(n, pg)])%list)
  \/ (exists e, page_of P fuel spl reduce maxlen k f = Err e /\ plotField P fuel spl reduce maxlen k name f st = (st, Err e)).
Proof.
  intros A G. unfold plotField. destruct (page_of P fuel spl reduce maxlen k f) as [pg|e]; [left|right; now exists e].
  destruct (finish_on P (key_of name f) pg st A G) as (st' & n & E & G' & F). exists pg, st', n. auto.
Qed.
Lemma run_on P spl cs st : p_autosave P = true -> good P st -> exists st' pgs, fst (run P spl cs st) = st' /\ good P st' /\ pages_made P spl cs pgs /\ adds st st' pgs /\
  Forall2 (fun c r => match page_of P (c_fuel c) spl (c_reduce c) (c_maxlen c) (c_kw c) (c_field c) with Ok _ => r = Ok None | Err e => r = Err e end) cs (snd (run P spl cs st)).
Proof.
  intro A. revert st. induction cs as [|c cs IH]; intros st G; cbn [run].
  - exists st, []. split; [reflexivity|]. split; [exact G|]. split; [constructor|]. split; [exists []; split; [now rewrite app_nil_r|reflexivity]|constructor].
  - unfold do_call. destruct (plotField_on P (c_fuel c) spl (c_reduce c) (c_maxlen c) (c_kw c) (c_name c) (c_field c) st A G) as [(pg & st1 & n & E & R & G1 & F)|(e & E & R)]; rewrite R.
    + destruct (IH st1 G1) as (st2 & pgs & R2 & G2 & M & (new & N1 & N2) & V). destruct (run P spl cs st1) as [s ys]. cbn [fst snd] in *. subst s. exists st2, (pg :: pgs). split; [reflexivity|]. split; [exact G2|]. split; [now constructor|].
      split; [exists ((n, pg) :: new); split; [rewrite N1, F, <- app_assoc; reflexivity|cbn; now rewrite N2]|]. constructor; [now rewrite E|exact V].
    + destruct (IH st G) as (st2 & pgs & R2 & G2 & M & D & V). destruct (run P spl cs st) as [s ys]. cbn [fst snd] in *. subst s. exists st2, pgs. split; [reflexivity|]. split; [exact G2|]. split; [econstructor 3; eauto|]. split; [exact D|]. constructor; [now rewrite E|exact V].
Qed.
Lemma history P spl cs st rs : p_autosave P = true -> run P spl cs fresh = (st, rs) ->
  exists pgs, pages_made P spl cs pgs /\ map snd (s_files st) = pgs /\ tidy P st /\ Forall2 (fun c r => match page_of P (c_fuel c) spl (c_reduce c) (c_maxlen c) (c_kw c) (c_field c) with Ok _ => r = Ok None | Err e => r = Err e end) cs rs.
Proof.
  intros A R. destruct (run_on P spl cs fresh A (good_fresh P)) as (st' & pgs & E & G & M & (new & N1 & N2) & V). rewrite R in E, V. cbn [fst snd] in *. subst st'. exists pgs. split; [exact M|]. split; [|split; [now apply good_tidy|exact V]]. rewrite N1. exact N2.
Qed.
Lemma made_fun P spl cs pgs pgs' : pages_made P spl cs pgs -> pages_made P spl cs pgs' -> pgs = pgs'.
Proof. intro H. revert pgs'. induction H; intros pgs' K; inversion K; subst; try congruence; [f_equal; [congruence|auto]|auto]. Qed.
Lemma shown P spl cs st : p_autosave P = false -> run P spl cs st = (st, map (fun c => rmap Some (page_of P (c_fuel c) spl (c_reduce c) (c_maxlen c) (c_kw c) (c_field c))) cs).
Proof.
  intro A. induction cs as [|c cs IH]; [reflexivity|]. cbn [run map]. unfold do_call, plotField. destruct (page_of P (c_fuel c) spl (c_reduce c) (c_maxlen c) (c_kw c) (c_field c)) as [pg|e]; [unfold finish; rewrite A|]; rewrite IH; reflexivity.
Qed.
Lemma until_on {A B} P (call : A -> session -> session * res (option page)) (make : A -> res page) (g : list (option page) -> B) l st : p_autosave P = true -> good P st ->
  (forall x st, good P st -> (exists pg st' n, make x = Ok pg /\ call x st = (st', Ok None) /\ good P st' /\ s_files st' = (s_files st ++ [(n, pg)])%list) \/ (exists e, make x = Err e /\ call x st = (st, Err e))) ->
  exists st' pgs e, until_error call l st = (st', match e with None => Ok (map (fun _ => None) l) | Some e => Err e end) /\ good P st' /\ pages_until make l pgs e /\ adds st st' pgs.
Proof.
  intros AU G S. revert st G. induction l as [|x l IH]; intros st G; cbn [until_error].
  - exists st, [], None. split; [reflexivity|]. split; [exact G|]. split; [constructor|]. exists []. split; [now rewrite app_nil_r|reflexivity].
  - destruct (S x st G) as [(pg & st1 & n & E & R & G1 & F)|(e & E & R)]; rewrite R.
    + destruct (IH st1 G1) as (st2 & pgs & e & R2 & G2 & M & (new & N1 & N2)). rewrite R2. exists st2, (pg :: pgs), e. split; [destruct e; reflexivity|]. split; [exact G2|]. split; [now constructor|]. exists ((n, pg) :: new). split; [rewrite N1, F, <- app_assoc; reflexivity|cbn; now rewrite N2].
    + exists st, [], (Some e). split; [reflexivity|]. split; [exact G|]. split; [now constructor|]. exists []. split; [now rewrite app_nil_r|reflexivity].
Qed.
Lemma after_calls P spl cs st rs : p_autosave P = true -> run P spl cs fresh = (st, rs) -> good P st.
Proof. intros A R. destruct (run_on P spl cs fresh A (good_fresh P)) as (st' & pgs & E & G & _). rewrite R in E. cbn in E. now subst. Qed.
Lemma fields_plotted P spl cs st rs fuel reduce maxlen k name fs st' r : p_autosave P = true -> run P spl cs fresh = (st, rs) -> plotFields P fuel spl reduce maxlen k name fs st = (st', r) ->
  exists pgs e, pages_until (page_of P fuel spl reduce maxlen k) fs pgs e /\ adds st st' pgs /\ tidy P st' /\ r = match e with None => Ok (map (fun _ => None) fs) | Some e => Err e end.
Proof.
  intros A R H. pose proof (after_calls _ _ _ _ _ A R) as G. unfold plotFields in H.
  destruct (until_on P (plotField P fuel spl reduce maxlen k name) (page_of P fuel spl reduce maxlen k) (fun _ => tt) fs st A G (fun x s Gs => plotField_on P fuel spl reduce maxlen k name x s A Gs)) as (s & pgs & e & E & G' & U & D).
  rewrite E in H. injection H as <- <-. exists pgs, e. split; [exact U|]. split; [exact D|]. split; [now apply good_tidy|reflexivity].
Qed.
Lemma derived_plotted P spl cs st rs fuel keys create st' r : p_autosave P = true -> run P spl cs fresh = (st, rs) -> plotallderived P fuel spl (Ok keys) create st = (st', r) ->
  exists pgs e, pages_until (fun key => let! f := create key in page_of P fuel spl true 6000 no_kwargs f) keys pgs e /\ adds st st' pgs /\ tidy P st' /\ r = match e with None => Ok tt | Some e => Err e end.
Proof.
  intros A R H. pose proof (after_calls _ _ _ _ _ A R) as G. unfold plotallderived in H.
  destruct (until_on P (fun key st => match create key with Err e => (st, Err e) | Ok f => plotField P fuel spl true 6000 no_kwargs None f st end) (fun key => let! f := create key in page_of P fuel spl true 6000 no_kwargs f) (fun _ => tt) keys st A G) as (s & pgs & e & E & G' & U & D).
  { intros key s Gs. destruct (create key) as [f|e]; cbn [bind]; [exact (plotField_on P fuel spl true 6000 no_kwargs None f s A Gs)|right; now exists e]. }
  rewrite E in H. destruct e as [e|]; cbn [rmap] in H; injection H as <- <-; eexists; eexists; (split; [exact U|]); split; try exact D; (split; [now apply good_tidy|reflexivity]).
Qed.
Lemma none_derived P fuel spl create st : plotallderived P fuel spl (Err AttributeError) create st = (st, Ok tt).
Proof. reflexivity. Qed.

(** * Examples *)
Definition at_2_5_fs : reader := mkreader (Ok (PFloat (5 # 2000000000000000))) (Ok (PInt 120)) "0120.sdf".
Definition first_dump : reader := mkreader (Ok (PFloat 0)) (Ok (PInt 0)) "0000.sdf".
Definition my_attrs : attrs := mkattrs "out/" (Some "run 7") "0120.sdf" "png".
Definition my_plotter (r : reader) : plotter := mkplotter my_attrs true r.
Definition my_meta : meta := mkmeta "Ex" "V/m" None "500 nm" ["a"].
Definition a_line : pfield := mkpf (demo_field [up3 "x"]) my_meta.
Definition a_cube : pfield := mkpf (demo_field [up3 "x"; up3 "y"; up2 "z"]) my_meta.
Definition a_photo : pfield := mkpf (demo_field [up3 "x"; up3 "y"; up3 "z"]) (mkmeta "photo" "" (Some "my photo") "" []).
Definition ok_pages (r : res page) : list note := match r with Ok p => snd p | Err _ => [] end.
Lemma line_ok : exists ds notes, page_of (my_plotter at_2_5_fs) 1 chord_spline false 6000 no_kwargs a_line = Ok (ds, notes) /\ ds <> [NoData] /\ texts OnFigure UR notes = ["2.5 fs, step:    120"] /\ texts OnAxes UR2 notes = ["500 nm"; "['500 nm']"; "['500 nm']"] /\ texts OnAxes Title notes = ["Ex [V/m]"].
Proof. eexists. eexists. split; [vm_compute; reflexivity|]. split; [discriminate|]. repeat split; vm_compute; reflexivity. Qed.
Lemma first_ok : exists ds notes, page_of (my_plotter first_dump) 1 chord_spline false 6000 no_kwargs a_line = Ok (ds, notes) /\ ds <> [NoData] /\ texts OnFigure UR notes = [].
Proof. eexists. eexists. split; [vm_compute; reflexivity|]. split; [discriminate|]. vm_compute. reflexivity. Qed.
Lemma photo_ok : exists ds notes, page_of (my_plotter at_2_5_fs) 1 chord_spline false 6000 no_kwargs a_photo = Ok (ds, notes) /\ ds <> [NoData] /\ texts OnAxes Title notes = ["photo"].
Proof. eexists. eexists. split; [vm_compute; reflexivity|]. split; [discriminate|]. vm_compute. reflexivity. Qed.
Lemma cube_first : exists st, plotallderived (my_plotter at_2_5_fs) 3 chord_spline (Ok ["rho"; "Ex"]) (fun k => if String.eqb k "rho" then Ok a_cube else Ok a_line) fresh = (st, Err BareException) /\ s_files st = [] /\
  exists pg, page_of (my_plotter at_2_5_fs) 3 chord_spline true 6000 no_kwargs a_line = Ok pg.
Proof. eexists. split; [vm_compute; reflexivity|]. split; [reflexivity|]. eexists. vm_compute. reflexivity. Qed.
Definition my_calls : list call := [mkcall 3 true 6000 no_kwargs None a_line; mkcall 3 true 6000 no_kwargs None a_cube; mkcall 3 true 6000 no_kwargs None a_line; mkcall 3 true 6000 no_kwargs (Some "again") a_photo].
Lemma calls_ok : exists st rs, run (my_plotter at_2_5_fs) chord_spline my_calls fresh = (st, rs) /\ map fst (s_files st) = ["out/run7_0120.sdf_0_Ex.png"; "out/run7_0120.sdf_1_Ex.png"; "out/run7_0120.sdf_2_again.png"] /\ rs = [Ok None; Err BareException; Ok None; Ok None].
Proof. eexists. eexists. split; [vm_compute; reflexivity|]. split; reflexivity. Qed.
Lemma last_title P pre b m notes : texts_1d P (pre ++ [(b, m)])%list = Ok notes -> label m <> "" -> texts_at OnAxes Title notes [label m].
Proof.
  intros H N. unfold texts_1d in H. destruct (pre ++ [(b, m)])%list as [|[b0 m0] fs] eqn:E; [discriminate|]. assert (L : last ((b0, m0) :: fs) (false, m0) = (b, m)) by (rewrite <- E; apply last_last). rewrite L in H.
  apply bind_ok in H as (rd & R & H). set (m' := if _ && b then _ else m) in H. assert (LB : label m' = label m) by (unfold m'; destruct (_ && b); reflexivity). clearbody m'. assert (OI : forall A (a b : A), Ok a = Ok b -> a = b) by congruence. apply OI in H. subst notes. pose proof (axes_silent P rd Title R ltac:(discriminate)) as Z.
  match goal with |- texts_at _ _ ?l _ => assert (T : texts OnAxes Title l = [label m]) end; [|rewrite <- T; apply texts_spec].
  unfold annotate_field. rewrite !texts_app, !texts_annotate, Z by discriminate. cbn [surface_eqb a_title info app]. rewrite truthy_opt, LB, (opt_text_some _ N). reflexivity.
Qed.
Lemma title_is P fuel spl reduce maxlen k f ds notes g : page_of P fuel spl reduce maxlen k f = Ok (ds, notes) -> ds <> [NoData] -> field_squeeze spl (pf_field f) = Ok g -> is_color (f_shape g) = false -> label (pf_meta f) <> "" -> texts_at OnAxes Title notes [label (pf_meta f)].
Proof. intros H N G C L. rewrite <- (opt_text_some _ L). pose proof (titled _ _ _ _ _ _ _ _ _ _ H N G) as T. rewrite C, andb_false_r in T. rewrite <- T. apply texts_spec. Qed.
Lemma title_own P fuel spl reduce maxlen k f ds notes g l : page_of P fuel spl reduce maxlen k f = Ok (ds, notes) -> ds <> [NoData] -> field_squeeze spl (pf_field f) = Ok g -> is_color (f_shape g) = false -> m_label (pf_meta f) = Some l -> l <> "" -> texts_at OnAxes Title notes [l].
Proof. intros H N G C M L. assert (E : label (pf_meta f) = l). { unfold label. rewrite M, (truthy_some _ L). reflexivity. } rewrite <- E. eapply title_is; eauto. now rewrite E. Qed.
Lemma title_unit P fuel spl reduce maxlen k f ds notes g : page_of P fuel spl reduce maxlen k f = Ok (ds, notes) -> ds <> [NoData] -> field_squeeze spl (pf_field f) = Ok g -> is_color (f_shape g) = false -> m_label (pf_meta f) = None -> m_unit (pf_meta f) <> "" -> texts_at OnAxes Title notes [m_name (pf_meta f) ++ " [" ++ m_unit (pf_meta f) ++ "]"].
Proof.
  intros H N G C M L. assert (E : label (pf_meta f) = m_name (pf_meta f) ++ " [" ++ m_unit (pf_meta f) ++ "]"). { unfold label. rewrite M. cbn [truthy]. destruct (String.eqb_spec (m_unit (pf_meta f)) ""); [contradiction|reflexivity]. }
  rewrite <- E. eapply title_is; eauto. rewrite E. intro X. apply (f_equal String.length) in X. rewrite !app_length_s in X. cbn in X. lia.
Qed.
Lemma title_plain P fuel spl reduce maxlen k f ds notes g : page_of P fuel spl reduce maxlen k f = Ok (ds, notes) -> ds <> [NoData] -> field_squeeze spl (pf_field f) = Ok g -> is_color (f_shape g) = false -> m_label (pf_meta f) = None -> m_unit (pf_meta f) = "" -> m_name (pf_meta f) <> "" -> texts_at OnAxes Title notes [m_name (pf_meta f)].
Proof. intros H N G C M U L. assert (E : label (pf_meta f) = m_name (pf_meta f)). { unfold label. rewrite M, U. reflexivity. } rewrite <- E. eapply title_is; eauto. now rewrite E. Qed.
Lemma overlap P fuel spl reduce maxlen k f ds notes g : page_of P fuel spl reduce maxlen k f = Ok (ds, notes) -> ds <> [NoData] -> field_squeeze spl (pf_field f) = Ok g -> dims (f_shape g) = 1%Z -> m_infostring (pf_meta f) <> "" ->
  exists t, texts_at OnAxes UR2 notes [m_infostring (pf_meta f); t; t] /\ t <> m_infostring (pf_meta f).
Proof. intros H N G D M. exists (pylist [m_infostring (pf_meta f)]). split; [|apply listed_differs]. rewrite <- (infos_1d _ _ _ _ _ _ _ _ _ _ H N G D M). apply texts_spec. Qed.
Lemma one_info P fuel spl reduce maxlen k f ds notes g ts t : page_of P fuel spl reduce maxlen k f = Ok (ds, notes) -> ds <> [NoData] -> field_squeeze spl (pf_field f) = Ok g -> dims (f_shape g) <> 1%Z -> texts_at OnAxes UR2 notes ts -> In t ts -> t = m_infostring (pf_meta f).
Proof. intros H N G D T I. apply texts_fun in T. subst ts. exact (infos_2d _ _ _ _ _ _ _ _ _ _ H N G D t I). Qed.
Lemma one_info_shown P fuel spl reduce maxlen k f ds notes g : page_of P fuel spl reduce maxlen k f = Ok (ds, notes) -> ds <> [NoData] -> field_squeeze spl (pf_field f) = Ok g -> m_infostring (pf_meta f) <> "" -> exists ts, texts_at OnAxes UR2 notes ts /\ In (m_infostring (pf_meta f)) ts.
Proof.
  intros H N G M. exists (texts OnAxes UR2 notes). split; [apply texts_spec|]. destruct (page_cases _ _ _ _ _ _ _ _ _ H N) as (_ & g' & rd & G' & R & K). rewrite G in G'. injection G' as <-.
  destruct K as [(_ & ->)|(_ & ->)]; unfold annotate_field; rewrite !texts_app, !texts_annotate by discriminate; cbn [surface_eqb a_info info]; rewrite !truthy_opt, (opt_text_some _ M); rewrite !in_app_iff; cbn [In]; auto.
Qed.
Lemma comma_ok : exists ds notes, page_of (my_plotter (mkreader (Ok (PFloat 0)) (Ok (PInt 5)) "x")) 1 chord_spline false 6000 no_kwargs a_line = Ok (ds, notes) /\ ds <> [NoData] /\ texts_at OnFigure UR notes [", step:      5"].
Proof. eexists. eexists. split; [vm_compute; reflexivity|]. split; [discriminate|]. match goal with |- texts_at ?w ?p ?l _ => assert (T : texts w p l = [", step:      5"]) by (vm_compute; reflexivity) end. rewrite <- T. apply texts_spec. Qed.
Lemma first_shows : exists ds notes, page_of (my_plotter first_dump) 1 chord_spline false 6000 no_kwargs a_line = Ok (ds, notes) /\ ds <> [NoData] /\ tells first_dump 0 0 /\ texts_at OnFigure UR notes [].
Proof. destruct first_ok as (ds & notes & A & B & C). exists ds, notes. split; [exact A|]. split; [exact B|]. split; [split; reflexivity|]. rewrite <- C. apply texts_spec. Qed.
Lemma line_shows : exists ds notes, page_of (my_plotter at_2_5_fs) 1 chord_spline false 6000 no_kwargs a_line = Ok (ds, notes) /\ ds <> [NoData] /\ tells at_2_5_fs (5 # 2000000000000000) 120 /\ texts_at OnFigure UR notes ["2.5 fs, step:    120"] /\ texts_at OnAxes UR2 notes ["500 nm"; "['500 nm']"; "['500 nm']"] /\ texts_at OnAxes Title notes ["Ex [V/m]"].
Proof. destruct line_ok as (ds & notes & A & B & C & D & E). exists ds, notes. split; [exact A|]. split; [exact B|]. split; [split; reflexivity|]. rewrite <- C, <- D, <- E. repeat split; apply texts_spec. Qed.
Lemma photo_shows : exists ds notes, page_of (my_plotter at_2_5_fs) 1 chord_spline false 6000 no_kwargs a_photo = Ok (ds, notes) /\ ds <> [NoData] /\ m_label (pf_meta a_photo) = Some "my photo" /\ texts_at OnAxes Title notes ["photo"].
Proof. destruct photo_ok as (ds & notes & A & B & C). exists ds, notes. split; [exact A|]. split; [exact B|]. split; [reflexivity|]. rewrite <- C. apply texts_spec. Qed.
