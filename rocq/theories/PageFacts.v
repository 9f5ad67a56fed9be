(** Lemmas on the texts of plots and on sessions of a plotter. *)
From Coq Require Import DecimalString DecimalN Decimal Ascii NArith Qround Lia Lqa.
From Verif Require Import PyBase PyBaseFacts NumpyModel NumpyFacts NdModel AxisModel FieldModel HistddModel PlotModel PlotNameModel PlotNameSpec PlotNameFacts PageModel PageSpec.
Local Open Scope string_scope.

(** * Numbers *)
Lemma round_near q : Qabs.Qabs (inject_Z (round_even q) - q) <= 1 # 2.
Proof.
  unfold round_even. pose proof (Qfloor_le q) as H1. pose proof (Qlt_floor q) as H2. rewrite inject_Z_plus in H2. change (inject_Z 1) with 1 in H2.
  apply Qabs.Qabs_Qle_condition. destruct (q - inject_Z (Qfloor q) <?q (1 # 2)) eqn:A; [apply Qltb_lt in A; split; lra|]. apply Qltb_nlt in A.
  assert (U : - (1 # 2) <= inject_Z (Qfloor q + 1) - q <= 1 # 2) by (rewrite inject_Z_plus; change (inject_Z 1) with 1; split; lra).
  destruct ((1 # 2) <?q q - inject_Z (Qfloor q)) eqn:B; [exact U|]. apply Qltb_nlt in B. destruct (Z.even (Qfloor q)); [split; lra|exact U].
Qed.
Lemma round_int z : round_even (inject_Z z) = z.
Proof. unfold round_even. rewrite Qfloor_Z. assert (E : (inject_Z z - inject_Z z <?q 1 # 2) = true) by (apply Qltb_lt; lra). now rewrite E. Qed.
Lemma round_comp p q : p == q -> round_even p = round_even q.
Proof.
  intro E. unfold round_even. rewrite (Qfloor_comp p q E). assert (F : p - inject_Z (Qfloor q) == q - inject_Z (Qfloor q)) by now rewrite E.
  assert (L : forall a b x, a == b -> (a <?q x) = (b <?q x)) by (intros a b x H; apply eq_true_iff_eq; rewrite !Qltb_lt; now rewrite H).
  assert (G : forall a b x, a == b -> (x <?q a) = (x <?q b)) by (intros a b x H; apply eq_true_iff_eq; rewrite !Qltb_lt; now rewrite H).
  now rewrite (L _ _ _ F), (G _ _ _ F).
Qed.
Lemma round_nonneg q : 0 <= q -> (0 <= round_even q)%Z.
Proof.
  intro H. pose proof (Qfloor_resp_le _ _ H) as F. change (Qfloor 0) with 0%Z in F. unfold round_even.
  destruct (q - inject_Z (Qfloor q) <?q (1 # 2)); [exact F|]. destruct ((1 # 2) <?q q - inject_Z (Qfloor q)); [lia|]. destruct (Z.even (Qfloor q)); lia.
Qed.
Lemma string_nonempty u : NilEmpty.string_of_uint u = "" -> u = Nil.
Proof. destruct u; cbn; try discriminate. reflexivity. Qed.
Lemma to_uint_nonnil n : N.to_uint n <> Nil.
Proof. intro E. pose proof (DecimalN.Unsigned.of_to n) as H. destruct n as [|p]; [discriminate E|]. rewrite E in H. discriminate H. Qed.
Lemma digits_read z : (0 <= z)%Z -> reads (digits z) (Z.to_N z).
Proof.
  intro H. unfold digits. split.
  - intro E. apply string_nonempty in E. now apply to_uint_nonnil in E.
  - exists (N.to_uint (Z.to_N z)). split; [apply NilEmpty.usu|apply DecimalN.Unsigned.of_to].
Qed.
Lemma digit_one z : (0 <= z < 10)%Z -> String.length (digits z) = 1%nat.
Proof. intro H. assert (C : z = 0%Z \/ z = 1%Z \/ z = 2%Z \/ z = 3%Z \/ z = 4%Z \/ z = 5%Z \/ z = 6%Z \/ z = 7%Z \/ z = 8%Z \/ z = 9%Z) by lia. repeat (destruct C as [->|C]; [reflexivity|]). now subst. Qed.
Lemma sign_minus q : sign q = minus (q <?q 0).
Proof. reflexivity. Qed.
Lemma signed_abs q : signed (q <?q 0) (qabs q) == q.
Proof.
  unfold qabs, signed. destruct (q <?q 0) eqn:A.
  - apply Qltb_lt in A. destruct (0 <=?q q) eqn:B; [apply Qle_bool_iff in B; lra|lra].
  - apply Qltb_nlt in A. destruct (0 <=?q q) eqn:B; [lra|]. apply Qleb_nle in B. lra.
Qed.
Lemma tenths q : exists v, shows_tenths (fixed1 q) v /\ Qabs.Qabs (v - q) <= 1 # 20.
Proof.
  assert (P : 0 <= 10 * qabs q) by (pose proof (qabs_nonneg q); lra). pose proof (round_nonneg _ P) as N0. pose proof (round_near (10 * qabs q)) as NE.
  set (n := round_even (10 * qabs q)) in *. set (v := signed (q <?q 0) (inject_Z (n / 10) + inject_Z (n mod 10) / 10)).
  assert (M : inject_Z n == 10 * inject_Z (n / 10) + inject_Z (n mod 10)).
  { pose proof (Z.div_mod n 10 ltac:(lia)) as D. rewrite D at 1. rewrite inject_Z_plus, inject_Z_mult. reflexivity. }
  exists v. split.
  - exists (q <?q 0), (digits (n / 10)), (digits (n mod 10)), (Z.to_N (n / 10)), (Z.to_N (n mod 10)).
    pose proof (Z.div_pos n 10 N0 ltac:(lia)) as D1. pose proof (Z.mod_pos_bound n 10 ltac:(lia)) as D2.
    split; [unfold fixed1; fold n; now rewrite sign_minus|]. split; [apply digit_one; lia|]. split; [now apply digits_read|]. split; [apply digits_read; lia|].
    unfold v. rewrite !Z2N.id by lia. reflexivity.
  - pose proof (signed_abs q) as S. apply Qabs.Qabs_Qle_condition. apply Qabs.Qabs_Qle_condition in NE. unfold v, signed in *. destruct (q <?q 0).
    + split; [|]; (assert (E : inject_Z (n mod 10) / 10 == inject_Z (n mod 10) * (1 # 10)) by (unfold Qdiv; reflexivity)); rewrite E; lra.
    + split; [|]; (assert (E : inject_Z (n mod 10) / 10 == inject_Z (n mod 10) * (1 # 10)) by (unfold Qdiv; reflexivity)); rewrite E; lra.
Qed.
Lemma blanks_length k : String.length (blanks k) = k.
Proof. induction k; cbn; congruence. Qed.
Lemma whole z : shows_integer (fixed6 (inject_Z z)) z.
Proof.
  set (t := minus (z <? 0)%Z ++ digits (Z.abs z)). assert (E : sign (inject_Z z) ++ digits (round_even (qabs (inject_Z z))) = t).
  { unfold t, sign. assert (B : (inject_Z z <?q 0) = (z <? 0)%Z). { apply eq_true_iff_eq. rewrite Qltb_lt, Z.ltb_lt. change 0 with (inject_Z 0). now rewrite <- Zlt_Qlt. }
    rewrite B. f_equal. f_equal. rewrite (round_comp _ (inject_Z (Z.abs z))); [apply round_int|]. unfold qabs. destruct (0 <=?q inject_Z z) eqn:C.
    - apply Qle_bool_iff in C. change 0 with (inject_Z 0) in C. rewrite <- Zle_Qle in C. rewrite Z.abs_eq by lia. reflexivity.
    - apply Qleb_nle in C. change 0 with (inject_Z 0) in C. rewrite <- Zlt_Qlt in C. rewrite Z.abs_neq, inject_Z_opp by lia. reflexivity. }
  unfold fixed6. rewrite E. exists (6 - String.length t)%nat, (z <? 0)%Z, (digits (Z.abs z)), (Z.to_N (Z.abs z)).
  split; [reflexivity|]. split; [apply digits_read; lia|]. split; [rewrite Z2N.id by lia; destruct (z <? 0)%Z eqn:B; [apply Z.ltb_lt in B|apply Z.ltb_ge in B]; lia|].
  rewrite app_length_s, blanks_length. lia.
Qed.

(** * Texts at a place *)
Definition place_eqb (p q : place) : bool := match p, q with Title, Title | UR, UR | UR2, UR2 | UL, UL | UL2, UL2 | Center, Center => true | _, _ => false end.
Definition surface_eqb (v w : surface) : bool := match v, w with OnFigure, OnFigure | OnAxes, OnAxes => true | _, _ => false end.
Definition texts (w : surface) (p : place) (l : list note) : list string := map snd (filter (fun n => surface_eqb (fst (fst n)) w && place_eqb (snd (fst n)) p) l).
Lemma texts_spec w p l : texts_at w p l (texts w p l).
Proof.
  induction l as [|[[v q] t] l IH]; [constructor|]. unfold texts in *. cbn [filter fst snd]. destruct (surface_eqb v w && place_eqb q p) eqn:E.
  - apply andb_true_iff in E as [A B]. assert (v = w) by (destruct v, w; congruence || discriminate A). assert (q = p) by (destruct q, p; congruence || discriminate B). subst. cbn. now constructor.
  - constructor; [|exact IH]. intros [A B]. cbn in A, B. subst. destruct w, p; discriminate E.
Qed.
Lemma texts_fun w p l ts : texts_at w p l ts -> ts = texts w p l.
Proof.
  intro H. induction H as [|t l ts H IH|n l ts N H IH]; [reflexivity| |].
  - unfold texts. cbn [filter fst snd]. replace (surface_eqb w w && place_eqb p p) with true by (destruct w, p; reflexivity). cbn. now rewrite IH.
  - unfold texts. cbn [filter]. destruct n as [[v q] t]. cbn [fst snd] in *. destruct (surface_eqb v w && place_eqb q p) eqn:E; [|exact IH].
    exfalso. apply N. apply andb_true_iff in E as [A B]. split; cbn; [destruct v, w|destruct q, p]; congruence || discriminate.
Qed.
Lemma texts_app w p a b : texts w p (a ++ b)%list = (texts w p a ++ texts w p b)%list.
Proof. unfold texts. now rewrite filter_app, map_app. Qed.
Lemma texts_put w p v q t : texts w p (put v q t) = if surface_eqb v w && place_eqb q p && truthy t then [text_of t] else [].
Proof. unfold put, texts. destruct (truthy t); cbn; [|now rewrite andb_false_r]. destruct (surface_eqb v w && place_eqb q p); reflexivity. Qed.
Lemma texts_settext w v p title ur ur2 ul ul2 c : p <> Center -> texts w p (settext v title ur ur2 ul ul2 c) =
  if surface_eqb v w then (let t := match p with Title => title | UR => ur | UR2 => ur2 | UL => ul | UL2 => ul2 | Center => None end in if truthy t then [text_of t] else []) else [].
Proof.
  intro NC. set (cl := match c with Some (x :: l) => [(v, Center, pylist (x :: l))] | _ => [] end : list note). assert (Z : texts w p cl = []).
  { unfold cl. destruct c as [[|x l]|]; try reflexivity. unfold texts. cbn [filter fst snd]. destruct p; try congruence; now destruct v, w. }
  assert (E : settext v title ur ur2 ul ul2 c = match v with
    | OnFigure => put v Title title ++ put v UR ur ++ put v UR2 ur2 ++ put v UL ul ++ put v UL2 ul2 ++ cl
    | OnAxes => put v Title title ++ put v UR2 ur2 ++ put v UR ur ++ put v UL2 ul2 ++ put v UL ul ++ cl end%list) by reflexivity.
  rewrite E. clear E. clearbody cl.
  destruct v; rewrite !texts_app, !texts_put, Z; destruct w, p; try congruence; cbn; try reflexivity;
    repeat match goal with |- context [truthy ?t] => destruct (truthy t) end; reflexivity.
Qed.
Lemma texts_annotate w v p a : p <> Center -> texts w p (annotate v a) =
  if surface_eqb v w then (let t := match p with Title => a_title a | UR => Some (upper_right (a_time a) (a_step a)) | UR2 => a_info a | UL => a_project a | UL2 => a_dump a | Center => None end in if truthy t then [text_of t] else []) else [].
Proof. intro NC. unfold annotate. now rewrite texts_settext. Qed.

(** * The texts of the reader *)
Lemma truthy_some s : s <> "" -> truthy (Some s) = true.
Proof. intro H. cbn. destruct (String.eqb_spec s ""); [contradiction|reflexivity]. Qed.
Definition opt_text (s : string) : list string := if String.eqb s "" then [] else [s].
Lemma truthy_opt s : (if truthy (Some s) then [text_of (Some s)] else []) = opt_text s.
Proof. unfold opt_text. cbn. now destruct (String.eqb s ""). Qed.
Lemma from_reader_ok P t s : r_time (p_rd P) = Ok t -> r_step (p_rd P) = Ok s -> exists l, from_reader P = Ok l /\
  (forall p, p <> Center -> texts OnAxes p l = []) /\ texts OnFigure UR l = opt_text (upper_right t s) /\ texts OnFigure UL2 l = opt_text (r_name (p_rd P)) /\ texts OnFigure UL l = opt_text (the_project P) /\ texts OnFigure Title l = [] /\ texts OnFigure UR2 l = [].
Proof.
  intros Ht Hs. unfold from_reader, annotate_reader. rewrite Ht, Hs. cbn [bind rmap]. eexists. split; [reflexivity|].
  split; [intros p Np; now rewrite texts_app, !texts_annotate by exact Np|].
  rewrite !texts_app, !texts_annotate by discriminate. cbn [surface_eqb a_title a_time a_step a_project a_dump a_info a_infos upper_right is_true].
  rewrite !truthy_opt. cbn [truthy app]. rewrite !app_nil_r. repeat split; reflexivity.
Qed.
Lemma from_reader_silent P : (let! t := r_time (p_rd P) in r_step (p_rd P)) = Err AttributeError -> exists l, from_reader P = Ok l /\
  (forall p, p <> Center -> texts OnAxes p l = []) /\ texts OnFigure UR l = [] /\ texts OnFigure UL2 l = [] /\ texts OnFigure UL l = opt_text (the_project P).
Proof.
  intros H. unfold from_reader, annotate_reader.
  assert (E' : (let! t := r_time (p_rd P) in let! s := r_step (p_rd P) in Ok (annotate OnFigure (mkargs None t s None (Some (r_name (p_rd P))) None None))) = Err AttributeError).
  { destruct (r_time (p_rd P)); cbn in *; [|congruence]. destruct (r_step (p_rd P)); cbn in *; congruence. }
  rewrite E'. cbn [rmap]. eexists. split; [reflexivity|].
  split; [intros p Np; now rewrite texts_app, !texts_annotate by exact Np|].
  rewrite !texts_app, !texts_annotate by discriminate. cbn [surface_eqb a_title a_time a_step a_project a_dump a_info a_infos upper_right is_true].
  rewrite !truthy_opt. cbn [truthy app]. repeat split; reflexivity.
Qed.
Lemma from_reader_err P e : (let! t := r_time (p_rd P) in r_step (p_rd P)) = Err e -> e <> AttributeError -> from_reader P = Err e.
Proof.
  intros H N. unfold from_reader, annotate_reader. destruct (r_time (p_rd P)); cbn in *; [destruct (r_step (p_rd P)); cbn in *; [congruence|]|]; injection H as ->; destruct e; cbn; congruence.
Qed.

(** * Pages *)
Lemma page_cases P fuel spl reduce maxlen k f ds notes : page_of P fuel spl reduce maxlen k f = Ok (ds, notes) -> ds <> [NoData] ->
  plot_field fuel spl reduce maxlen k (Some (pf_field f)) = Ok ds /\ exists g rd, field_squeeze spl (pf_field f) = Ok g /\ from_reader P = Ok rd /\
  (dims (f_shape g) = 1%Z /\ notes = (annotate_field OnAxes (pf_meta f) ++ annotate OnAxes (info (pylist [m_infostring (pf_meta f)])) ++ rd ++ annotate OnAxes (info (pylist [m_infostring (pf_meta f)])))%list
   \/ (1 < dims (f_shape g))%Z /\ notes = (annotate_field OnAxes (if is_color (f_shape g) then mkmeta (m_name (pf_meta f)) (m_unit (pf_meta f)) None "" [] else pf_meta f) ++ rd ++ annotate OnAxes (info (m_infostring (pf_meta f))))%list).
Proof.
  unfold page_of. intros H N. apply bind_ok in H as (ds' & A & H). apply bind_ok in H as (g & B & H).
  destruct (dims (f_shape g) <=? 0)%Z eqn:C.
  { exfalso. injection H as -> <-. apply N. cbn in A. rewrite B in A. cbn [bind] in A. apply bind_ok in A as (u & _ & A). rewrite C in A. now injection A. }
  apply Z.leb_gt in C. destruct (dims (f_shape g) =? 1)%Z eqn:D.
  - apply Z.eqb_eq in D. unfold texts_1d in H. cbn [forallb snd last andb] in H.
    assert (I : infos_eqb (m_infos (pf_meta f)) (m_infos (pf_meta f)) = true). { clear. induction (m_infos (pf_meta f)) as [|x l IH]; [reflexivity|]. cbn. now rewrite String.eqb_refl, IH. }
    rewrite I in H. cbn [andb negb] in H. destruct (from_reader P) as [rd|] eqn:R; [|discriminate]. cbn in H. injection H as -> <-. split; [exact A|]. exists g, rd. split; [exact B|]. split; [reflexivity|]. left. split; [exact D|]. reflexivity.
  - apply Z.eqb_neq in D. unfold texts_2d in H. destruct (from_reader P) as [rd|] eqn:R; [|discriminate]. cbn [bind rmap] in H. injection H as -> <-. split; [exact A|]. exists g, rd. split; [exact B|]. split; [reflexivity|]. right. split; [lia|]. reflexivity.
Qed.
(** what stands on the figure comes from the reader and the project *)
Lemma figure_texts P fuel spl reduce maxlen k f ds notes p : page_of P fuel spl reduce maxlen k f = Ok (ds, notes) -> ds <> [NoData] -> p <> Center -> exists rd, from_reader P = Ok rd /\ texts OnFigure p notes = texts OnFigure p rd.
Proof.
  intros H N C. destruct (page_cases _ _ _ _ _ _ _ _ _ H N) as (_ & g & rd & _ & R & [(_ & E)|(_ & E)]); exists rd; (split; [exact R|]); rewrite E; unfold annotate_field; rewrite !texts_app, !texts_annotate by exact C; cbn [surface_eqb app]; now rewrite ?app_nil_r.
Qed.
Lemma axes_silent P rd p : from_reader P = Ok rd -> p <> Center -> texts OnAxes p rd = [].
Proof.
  intros E N. destruct (let! t := r_time (p_rd P) in r_step (p_rd P)) as [x|e] eqn:A.
  - apply bind_ok in A as (t & T & S). destruct (from_reader_ok P _ _ T S) as (l & L & Z & _). rewrite E in L. injection L as <-. now apply Z.
  - assert (D : e = AttributeError \/ e <> AttributeError) by (destruct e; (now left) || (right; discriminate)). destruct D as [->|D].
    + destruct (from_reader_silent P A) as (l & L & Z & _). rewrite E in L. injection L as <-. now apply Z.
    + rewrite (from_reader_err P e A D) in E. discriminate.
Qed.
Lemma opt_text_some s : s <> "" -> opt_text s = [s].
Proof. intro H. unfold opt_text. destruct (String.eqb_spec s ""); [contradiction|reflexivity]. Qed.
Lemma upper_full t s : ~ t == 0 -> s <> 0%Z -> upper_right (PFloat t) (PInt s) = fixed1 (femto * t) ++ " fs, step: " ++ fixed6 (inject_Z s).
Proof.
  intros T S. unfold upper_right. cbn [is_true]. destruct (Qeqb_spec t 0); [contradiction|]. destruct (Z.eqb_spec s 0); [contradiction|]. cbn [negb]. rewrite app_assoc_s. reflexivity.
Qed.
Lemma written P fuel spl reduce maxlen k f ds notes t s : tells (p_rd P) t s -> ~ t == 0 -> s <> 0%Z -> page_of P fuel spl reduce maxlen k f = Ok (ds, notes) -> ds <> [NoData] ->
  exists a b v, texts_at OnFigure UR notes [a ++ " fs, step: " ++ b] /\ shows_tenths a v /\ Qabs.Qabs (v - femto * t) <= 1 # 20 /\ shows_integer b s.
Proof.
  intros [Ht Hs] T S H N. destruct (figure_texts _ _ _ _ _ _ _ _ _ UR H N ltac:(discriminate)) as (rd & R & E). destruct (from_reader_ok P _ _ Ht Hs) as (l & L & _ & U & _). rewrite R in L. injection L as <-.
  destruct (tenths (femto * t)) as (v & V1 & V2). exists (fixed1 (femto * t)), (fixed6 (inject_Z s)), v. split; [|split; [exact V1|split; [exact V2|apply whole]]].
  rewrite <- upper_full by assumption. rewrite <- (opt_text_some (upper_right _ _)); [rewrite <- U, <- E; apply texts_spec|]. rewrite upper_full by assumption. intro Z. apply (f_equal String.length) in Z. rewrite !app_length_s in Z. cbn in Z. lia.
Qed.
Lemma named P fuel spl reduce maxlen k f ds notes t s : r_time (p_rd P) = Ok t -> r_step (p_rd P) = Ok s -> page_of P fuel spl reduce maxlen k f = Ok (ds, notes) -> ds <> [NoData] ->
  (r_name (p_rd P) <> "" -> texts_at OnFigure UL2 notes [r_name (p_rd P)]) /\ (the_project P <> "" -> texts_at OnFigure UL notes [the_project P]).
Proof.
  intros Ht Hs H N. destruct (from_reader_ok P _ _ Ht Hs) as (l & L & _ & _ & U2 & U & _).
  destruct (figure_texts _ _ _ _ _ _ _ _ _ UL2 H N ltac:(discriminate)) as (rd & R & E2). destruct (figure_texts _ _ _ _ _ _ _ _ _ UL H N ltac:(discriminate)) as (rd' & R' & E1).
  rewrite L in R, R'. injection R as <-. injection R' as <-. split; intro M; rewrite <- (opt_text_some _ M); [rewrite <- U2, <- E2|rewrite <- U, <- E1]; apply texts_spec.
Qed.
Lemma at_zero P fuel spl reduce maxlen k f ds notes t : tells (p_rd P) t 0 -> t == 0 -> page_of P fuel spl reduce maxlen k f = Ok (ds, notes) -> ds <> [NoData] -> texts_at OnFigure UR notes [].
Proof.
  intros [Ht Hs] T H N. destruct (figure_texts _ _ _ _ _ _ _ _ _ UR H N ltac:(discriminate)) as (rd & R & E). destruct (from_reader_ok P _ _ Ht Hs) as (l & L & _ & U & _). rewrite R in L. injection L as <-.
  assert (Z : upper_right (PFloat t) (PInt 0) = ""). { unfold upper_right. cbn [is_true]. destruct (Qeqb_spec t 0); [|contradiction]. reflexivity. }
  rewrite Z in U. cbn in U. rewrite <- U, <- E. apply texts_spec.
Qed.
Lemma at_start P fuel spl reduce maxlen k f ds notes t s : tells (p_rd P) t s -> t == 0 -> s <> 0%Z -> page_of P fuel spl reduce maxlen k f = Ok (ds, notes) -> ds <> [NoData] -> exists b, texts_at OnFigure UR notes [", step: " ++ b] /\ shows_integer b s.
Proof.
  intros [Ht Hs] T S H N. destruct (figure_texts _ _ _ _ _ _ _ _ _ UR H N ltac:(discriminate)) as (rd & R & E). destruct (from_reader_ok P _ _ Ht Hs) as (l & L & _ & U & _). rewrite R in L. injection L as <-.
  assert (Z : upper_right (PFloat t) (PInt s) = ", step: " ++ fixed6 (inject_Z s)). { unfold upper_right. cbn [is_true]. destruct (Qeqb_spec t 0); [|contradiction]. destruct (Z.eqb_spec s 0); [contradiction|]. reflexivity. }
  exists (fixed6 (inject_Z s)). split; [|apply whole]. rewrite <- Z. rewrite <- (opt_text_some (upper_right _ _)); [rewrite <- U, <- E; apply texts_spec|]. rewrite Z. discriminate.
Qed.
Lemma at_step0 P fuel spl reduce maxlen k f ds notes t : tells (p_rd P) t 0 -> ~ t == 0 -> page_of P fuel spl reduce maxlen k f = Ok (ds, notes) -> ds <> [NoData] -> exists a v, texts_at OnFigure UR notes [a ++ " fs"] /\ shows_tenths a v /\ Qabs.Qabs (v - femto * t) <= 1 # 20.
Proof.
  intros [Ht Hs] T H N. destruct (figure_texts _ _ _ _ _ _ _ _ _ UR H N ltac:(discriminate)) as (rd & R & E). destruct (from_reader_ok P _ _ Ht Hs) as (l & L & _ & U & _). rewrite R in L. injection L as <-.
  assert (Z : upper_right (PFloat t) (PInt 0) = fixed1 (femto * t) ++ " fs"). { unfold upper_right. cbn [is_true]. destruct (Qeqb_spec t 0); [contradiction|]. cbn [Z.eqb negb]. now rewrite app_nil_s. }
  destruct (tenths (femto * t)) as (v & V1 & V2). exists (fixed1 (femto * t)), v. split; [|auto]. rewrite <- Z. rewrite <- (opt_text_some (upper_right _ _)); [rewrite <- U, <- E; apply texts_spec|]. rewrite Z. intro A. apply (f_equal String.length) in A. rewrite app_length_s in A. cbn in A. lia.
Qed.
Lemma silent P fuel spl reduce maxlen k f ds notes : (let! t := r_time (p_rd P) in r_step (p_rd P)) = Err AttributeError -> page_of P fuel spl reduce maxlen k f = Ok (ds, notes) -> ds <> [NoData] ->
  texts_at OnFigure UR notes [] /\ texts_at OnFigure UL2 notes [] /\ (the_project P <> "" -> texts_at OnFigure UL notes [the_project P]).
Proof.
  intros A H N. destruct (from_reader_silent P A) as (l & L & _ & U & U2 & U3).
  assert (K : forall p, p <> Center -> texts OnFigure p notes = texts OnFigure p l). { intros p C. destruct (figure_texts _ _ _ _ _ _ _ _ _ p H N C) as (rd & R & E). rewrite L in R. injection R as <-. exact E. }
  repeat split; [rewrite <- U, <- K by discriminate; apply texts_spec|rewrite <- U2, <- K by discriminate; apply texts_spec|].
  intro M. rewrite <- (opt_text_some _ M), <- U3, <- K by discriminate. apply texts_spec.
Qed.
Lemma reader_fails P fuel spl reduce maxlen k f ds e : (let! t := r_time (p_rd P) in r_step (p_rd P)) = Err e -> e <> AttributeError -> plot_field fuel spl reduce maxlen k (Some (pf_field f)) = Ok ds -> ds <> [NoData] -> page_of P fuel spl reduce maxlen k f = Err e.
Proof.
  intros A M H N. pose proof (from_reader_err P e A M) as R. unfold page_of. rewrite H. cbn [bind]. cbn in H. apply bind_ok in H as (g & B & H). rewrite B. cbn [bind]. apply bind_ok in H as (u & _ & H).
  destruct (dims (f_shape g) <=? 0)%Z; [exfalso; apply N; now injection H|]. destruct (dims (f_shape g) =? 1)%Z.
  - unfold texts_1d. cbn [last]. destruct (negb (forallb _ _) && true); rewrite R; reflexivity.
  - unfold texts_2d. rewrite R. reflexivity.
Qed.
(** the titles *)
Lemma titled P fuel spl reduce maxlen k f ds notes g : page_of P fuel spl reduce maxlen k f = Ok (ds, notes) -> ds <> [NoData] -> field_squeeze spl (pf_field f) = Ok g ->
  texts OnAxes Title notes = opt_text (label (if (1 <? dims (f_shape g))%Z && is_color (f_shape g) then mkmeta (m_name (pf_meta f)) (m_unit (pf_meta f)) None "" [] else pf_meta f)).
Proof.
  intros H N G. destruct (page_cases _ _ _ _ _ _ _ _ _ H N) as (_ & g' & rd & G' & R & K). rewrite G in G'. injection G' as <-. pose proof (axes_silent P rd Title R ltac:(discriminate)) as Z.
  destruct K as [(D & ->)|(D & ->)]; unfold annotate_field; rewrite !texts_app, !texts_annotate, Z by discriminate; cbn [surface_eqb a_title info app]; rewrite !truthy_opt; cbn [truthy app]; rewrite ?app_nil_r.
  - rewrite D. reflexivity.
  - destruct (1 <? dims (f_shape g))%Z eqn:L; [|apply Z.ltb_ge in L; lia]. reflexivity.
Qed.
Lemma infos_1d P fuel spl reduce maxlen k f ds notes g : page_of P fuel spl reduce maxlen k f = Ok (ds, notes) -> ds <> [NoData] -> field_squeeze spl (pf_field f) = Ok g -> dims (f_shape g) = 1%Z -> let s := m_infostring (pf_meta f) in s <> "" ->
  texts OnAxes UR2 notes = [s; pylist [s]; pylist [s]].
Proof.
  intros H N G D s M. destruct (page_cases _ _ _ _ _ _ _ _ _ H N) as (_ & g' & rd & G' & R & K). rewrite G in G'. injection G' as <-. pose proof (axes_silent P rd UR2 R ltac:(discriminate)) as Z.
  destruct K as [(_ & ->)|(D' & _)]; [|lia]. unfold annotate_field; rewrite !texts_app, !texts_annotate, Z by discriminate; cbn [surface_eqb a_info info]; rewrite !truthy_opt. fold s. rewrite (opt_text_some _ M). cbn [app]. rewrite (opt_text_some (pylist _)) by discriminate. reflexivity.
Qed.
Lemma infos_2d P fuel spl reduce maxlen k f ds notes g : page_of P fuel spl reduce maxlen k f = Ok (ds, notes) -> ds <> [NoData] -> field_squeeze spl (pf_field f) = Ok g -> dims (f_shape g) <> 1%Z ->
  let s := m_infostring (pf_meta f) in forall t, In t (texts OnAxes UR2 notes) -> t = s.
Proof.
  intros H N G D s t I. destruct (page_cases _ _ _ _ _ _ _ _ _ H N) as (_ & g' & rd & G' & R & K). rewrite G in G'. injection G' as <-. pose proof (axes_silent P rd UR2 R ltac:(discriminate)) as Z.
  destruct K as [(D' & _)|(_ & ->)]; [congruence|]. revert I. unfold annotate_field; rewrite !texts_app, !texts_annotate, Z by discriminate; cbn [surface_eqb a_info info]; rewrite !truthy_opt. fold s.
  destruct (is_color (f_shape g)); cbn [m_infostring]; unfold opt_text; cbn [String.eqb]; fold s; destruct (String.eqb s ""); cbn; intuition.
Qed.
Lemma repr_longer s : (2 + String.length s <= String.length (repr s))%nat.
Proof.
  unfold repr. cbn [String.length]. rewrite app_length_s. cbn [String.length]. assert (B : forall q r, (String.length r <= String.length (repr_body q r))%nat); [|pose proof (B (quote_of s) s); lia].
  intros q r. induction r as [|c r IH]; [cbn; lia|]. cbn [repr_body String.length]. rewrite app_length_s. assert (1 <= String.length (repr_char q c))%nat; [|lia].
  unfold repr_char. destruct (Ascii.eqb c q || Ascii.eqb c "\"%char); [cbn; lia|]. repeat match goal with |- context [if ?b then _ else _] => destruct b end; cbn; lia.
Qed.
Lemma listed_differs s : pylist [s] <> s.
Proof. intro E. apply (f_equal String.length) in E. unfold pylist in E. cbn [joined] in E. rewrite !app_length_s in E. pose proof (repr_longer s). cbn [String.length] in E. lia. Qed.

(** * Sessions *)
Definition good (P : plotter) (st : session) : Prop :=
  counted (p_attrs P) (s_used st) /\ map fst (s_files st) = map (fun n => n ++ "." ++ p_ext (p_attrs P)) (s_used st) /\ Forall (file_in (p_outdir (p_attrs P)) (p_ext (p_attrs P))) (map fst (s_files st)).
Lemma good_fresh P : good P fresh.
Proof. split; [apply counted_nil|]. split; [reflexivity|constructor]. Qed.
Lemma finish_on P key pg st : p_autosave P = true -> good P st -> exists st' f, finish P key pg st = (st', Ok None) /\ good P st' /\ s_files st' = (s_files st ++ [(f, pg)])%list.
Proof.
  intros A (C & F & D). unfold finish. rewrite A. rewrite (savename_fixed _ key None _ C). cbn [extension]. eexists. eexists. split; [reflexivity|]. split; [|reflexivity]. split; cbn [s_used s_files].
  - now apply counted_next.
  - split; [now rewrite !map_app, F|]. rewrite map_app. apply Forall_app. split; [exact D|]. constructor; [|constructor]. cbn [fst]. rewrite base_form. unfold stem.
    exists (clean (project (p_attrs P)) ++ "_" ++ clean (p_reader (p_attrs P)) ++ "_" ++ dec (length (s_used st)) ++ "_" ++ clean key). split; [now rewrite !app_assoc_s|].
    split; rewrite !without_app; repeat split; try apply clean_no_slash; try apply clean_no_blank; try (cbn; repeat split; discriminate); apply only_without; try apply dec_only; apply no_dig; reflexivity.
Qed.
Lemma app_tail_inj (a b e : string) : a ++ e = b ++ e -> a = b.
Proof.
  revert b. induction a as [|c a IH]; intros [|d b] E; cbn in E; [reflexivity| | |injection E as -> E; f_equal; now apply IH];
    apply (f_equal String.length) in E; cbn in E; rewrite ?app_length_s in E; cbn in E; rewrite ?app_length_s in E; lia.
Qed.
Lemma good_distinct P st : good P st -> NoDup (map fst (s_files st)).
Proof.
  intros (C & F & _). rewrite F. assert (D : NoDup (s_used st)).
  { apply NoDup_nth_error. intros i j L E. destruct (nth_error (s_used st) i) as [n|] eqn:I; [|apply nth_error_None in I; lia]. symmetry in E. destruct (C _ _ I) as (x & X). destruct (C _ _ E) as (y & Y). rewrite X in Y. apply app_head in Y. apply split_at in Y; try apply dec_only. now apply dec_inj. }
  induction D as [|n l N D IH]; [constructor|]. cbn. constructor.
  - intro I. apply in_map_iff in I as (m & E & I). apply app_tail_inj in E. now subst.
  - clear -D. induction D as [|m l N D IH]; [constructor|]. cbn. constructor; [|exact IH]. intro I. apply in_map_iff in I as (x & E & I). apply app_tail_inj in E. now subst.
Qed.
