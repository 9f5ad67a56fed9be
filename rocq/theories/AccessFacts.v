(** Proofs about the access to particle properties (C114). *)
From Coq Require Import QArith Lia.
From Verif Require Import PyBase PyBaseFacts NumpyModel NdModel NdFacts AxisModel AxisSpec FieldModel FieldSpec RegistryModel RegistrySpec RegistryFacts QSum DepModel DepSpec HistddModel CollectModel CollectSpec CollectLaws AccessModel AccessSpec RealModel.
Open Scope string_scope.

(** ** one collection *)
Lemma ssdata_sound {V} n r p (s : species V) l : ssdata n r p s = Ok l -> exists x, has_value (s_out s) r p x /\ spread s x l.
Proof.
  unfold ssdata. intro H. apply bind_ok in H. destruct H as ([x vs] & H & K). injection K as <-. cbn [fst].
  exists x. split; [exact (proj1 (eval_sound (s_out s) r n _ _ _ _ (good_nil _ _) H))|]. destruct x as [v|l]; cbn [spread]; [|reflexivity].
  split; [apply repeat_length|]. intros k y Y. apply nth_error_In in Y. exact (repeat_spec _ _ _ Y).
Qed.
Lemma call_sp_cons {V} n r p (s : species V) ms : call_sp n r p (s :: ms) = let! l := ssdata n r p s in let! rest := call_sp n r p ms in Ok (l ++ rest)%list.
Proof.
  unfold call_sp. cbn [mapM]. destruct (ssdata n r p s) as [l|e]; [|reflexivity]. cbn [bind].
  destruct ms as [|s' ms]; [reflexivity|]. destruct (mapM (ssdata n r p) (s' :: ms)) as [d|e]; reflexivity.
Qed.
Lemma call_sp_sound {V} n r p (ms : list (species V)) : forall l, call_sp n r p ms = Ok l -> spread_all r p ms l.
Proof.
  induction ms as [|s ms IH]; intros l H.
  - injection H as <-. constructor.
  - rewrite call_sp_cons in H. apply bind_ok in H. destruct H as (l1 & H1 & H). apply bind_ok in H. destruct H as (l2 & H2 & H). injection H as <-.
    destruct (ssdata_sound _ _ _ _ _ H1) as (x & X & S). exact (sa_cons r p s ms x l1 l2 X S (IH _ H2)).
Qed.
Lemma eval_found {V} (E : outside V) r p v : has_value E r p v -> exists n, forall m, (n <= m)%nat -> exists vs, eval_sp m E r p [] = Ok (v, vs).
Proof.
  intros (us & M & O). destruct (means_all_depth E r _ _ M) as [n H]. exists (S n). intros m L. destruct m as [|m]; [lia|].
  assert (C : complete E r (eval_sp (S m) E r) p).
  { apply (eval_complete E r m _ us v M O). intros name q I T R. apply (H name I m q); [lia|exact T|exact R]. }
  destruct (C [] (good_nil _ _)) as (u & vs & EV). exists vs. rewrite EV. do 2 f_equal.
  apply (value_fun E r p); [exact (proj1 (eval_sound E r _ _ _ _ _ (good_nil _ _) EV))|exists us; auto].
Qed.
Lemma spread_one {V} (s : species V) v l : spread s (One v) l -> repeat v (s_len s) = l.
Proof.
  cbn [spread]. intros (L & A). rewrite <- L. clear L. induction l as [|y l IH]; [reflexivity|]. cbn [length repeat]. rewrite IH by (intros k z Z; exact (A (S k) z Z)).
  f_equal. symmetry. exact (A 0%nat y eq_refl).
Qed.
Lemma call_sp_found {V} r p (ms : list (species V)) l : spread_all r p ms l -> exists n, forall m, (n <= m)%nat -> call_sp m r p ms = Ok l.
Proof.
  induction 1 as [|s ms x l rest X S _ [k IH]]; [exists 0%nat; intros; reflexivity|].
  destruct (eval_found _ _ _ _ X) as [n H]. exists (Nat.max n k). intros m L. rewrite call_sp_cons.
  destruct (H m ltac:(lia)) as (vs & EV). unfold ssdata. rewrite EV. cbn [bind fst]. rewrite IH by lia. cbn [bind]. f_equal. f_equal.
  destruct x as [v|l']; [apply spread_one, S|symmetry; exact S].
Qed.
Lemma call_app {V} n r p (a b : list (species V)) : call_sp n r p (a ++ b)%list = let! x := call_sp n r p a in let! y := call_sp n r p b in Ok (x ++ y)%list.
Proof.
  induction a as [|s a IH]; [change ([] ++ b)%list with b; cbn [call_sp bind]; destruct (call_sp n r p b); reflexivity|].
  change ((s :: a) ++ b)%list with (s :: (a ++ b))%list. rewrite !call_sp_cons, IH. destruct (ssdata n r p s) as [l|e]; [|reflexivity]. cbn [bind].
  destruct (call_sp n r p a) as [x|e]; [|reflexivity]. cbn [bind]. destruct (call_sp n r p b) as [y|e]; [|reflexivity]. cbn [bind]. now rewrite app_assoc.
Qed.
Lemma call_text_app {V} n r (s : string) (a b : list (species V)) : call n r (GText s) (a ++ b)%list = let! x := call n r (GText s) a in let! y := call n r (GText s) b in Ok (x ++ y)%list.
Proof. exact (call_app n r (identify r s) a b). Qed.
Lemma call_text_sound {V} n r s (ms : list (species V)) l : call n r (GText s) ms = Ok l -> spread_all r (identify r s) ms l.
Proof. exact (call_sp_sound n r _ ms l). Qed.
Lemma call_text_found {V} r s (ms : list (species V)) l : spread_all r (identify r s) ms l -> exists n, forall m, (n <= m)%nat -> call m r (GText s) ms = Ok l.
Proof. exact (call_sp_found r _ ms l). Qed.
Lemma call_length {V} n r a (ms : list (species V)) l : (match a with GFunc _ _ _ => False | _ => True end) -> Forall full ms -> call n r a ms = Ok l -> length l = list_sum (map s_len ms).
Proof.
  intros A F H. assert (X : exists p, call_sp n r p ms = Ok l) by (destruct a as [s|p|]; [eexists; exact H|eexists; exact H|destruct A]).
  destruct X as (p & X). apply call_sp_sound in X. clear H A. revert F. induction X as [|s ms x l rest (us & _ & O) S _ IH]; intro F; [reflexivity|].
  inversion F as [|? ? F1 F2]; subst. rewrite app_length. change (map s_len (s :: ms)) with (s_len s :: map s_len ms). change (list_sum (s_len s :: map s_len ms)) with (s_len s + list_sum (map s_len ms))%nat.
  rewrite <- (IH F2). f_equal. destruct x as [v|l']; [exact (proj1 S)|]. cbn [spread] in S. subst. exact (F1 _ _ _ O).
Qed.

(** ** labels *)
Lemma same_label {V} h s p k : table_run h s = Some p ->
  find_attr (V := V) (reg_run h []) (GText s) k = find_attr (V := V) (reg_run h []) (GProp p) k.
Proof.
  intro H. unfold find_attr. assert (L := lookup_ok h s). rewrite H in L. unfold getitem in L. destruct (reg_get (reg_run h []) (Some s)) as [q|]; [|discriminate L]. injection L as <-. reflexivity.
Qed.
Lemma same_value {V} h s p n (ms : list (species V)) : table_run h s = Some p -> call n (reg_run h []) (GText s) ms = call n (reg_run h []) (GProp p) ms.
Proof. intro H. assert (L := identify_ok h s). rewrite H in L. cbn [call]. now rewrite L. Qed.
Lemma label_of {V} h s k : find_attr (V := V) (reg_run h []) (GText s) k =
  match table_run h s with Some p => match (match k with Name => sp_name p | Unit => sp_unit p end) with Some x => x | None => "unknown" end | None => "unknown" end.
Proof.
  unfold find_attr. assert (L := lookup_ok h s). unfold getitem in L. destruct (reg_get (reg_run h []) (Some s)) as [q|], (table_run h s) as [p|]; try discriminate L; [injection L as <-|]; destruct k; reflexivity.
Qed.

(** ** the old methods *)
Definition all_old : list string := (capitals ++ kept_names)%list.
Definition text_is (m : string) : bool :=
  match find_method m with Some x => String.eqb (m_text x) (if existsb (String.eqb m) capitals then lower m else m) | None => false end.
Lemma texts : forallb (fun m => orb (String.eqb m "angle_yz") (text_is m)) all_old = true.
Proof. vm_compute. reflexivity. Qed.
Lemma modern_text m t : modern m t -> m <> "angle_yz" -> exists x, find_method m = Some x /\ m_text x = t.
Proof.
  intros M N. assert (T := proj1 (forallb_forall _ _) texts m). cbv beta in T.
  assert (I : In m all_old) by (apply in_or_app; destruct M as [(I & _)|(I & _)]; auto). specialize (T I).
  apply Bool.orb_true_iff in T. destruct T as [T|T]; [apply String.eqb_eq in T; contradiction|]. unfold text_is in T. destruct (find_method m) as [x|]; [|discriminate T].
  apply String.eqb_eq in T. exists x. split; [reflexivity|]. rewrite T. destruct M as [(C & ->)|(K & ->)].
  - assert (E : existsb (String.eqb m) capitals = true) by (apply existsb_exists; exists m; split; [exact C|apply String.eqb_refl]). now rewrite E.
  - assert (E : existsb (String.eqb m) capitals = false).
    { assert (X : forallb (fun k => negb (existsb (String.eqb k) capitals)) kept_names = true) by (vm_compute; reflexivity).
      assert (Y := proj1 (forallb_forall _ _) X m K). cbv beta in Y. now apply Bool.negb_true_iff in Y. }
    now rewrite E.
Qed.
Lemma old_method {V} n r m t (ms : list (species V)) : modern m t -> m <> "angle_yz" -> access n r m ms = call n r (GText t) ms.
Proof.
  intros M N. destruct (modern_text m t M N) as (x & F & <-). unfold access, accessor. rewrite F. reflexivity.
Qed.
Definition advice_is (m : string) : bool :=
  match advised m with Some t => String.eqb t (if existsb (String.eqb m) capitals then lower m else m) | None => false end.
Lemma advices : forallb (fun m => orb (String.eqb m "Y_um") (advice_is m)) all_old = true.
Proof. vm_compute. reflexivity. Qed.
Lemma old_advice m t : modern m t -> m <> "Y_um" -> advised m = Some t.
Proof.
  intros M N. assert (T := proj1 (forallb_forall _ _) advices m). cbv beta in T.
  assert (I : In m all_old) by (apply in_or_app; destruct M as [(I & _)|(I & _)]; auto). specialize (T I).
  apply Bool.orb_true_iff in T. destruct T as [T|T]; [apply String.eqb_eq in T; contradiction|]. unfold advice_is in T. destruct (advised m) as [u|]; [|discriminate T].
  apply String.eqb_eq in T. rewrite T. f_equal. destruct M as [(C & ->)|(K & ->)].
  - assert (E : existsb (String.eqb m) capitals = true) by (apply existsb_exists; exists m; split; [exact C|apply String.eqb_refl]). now rewrite E.
  - assert (E : existsb (String.eqb m) capitals = false).
    { assert (X : forallb (fun k => negb (existsb (String.eqb k) capitals)) kept_names = true) by (vm_compute; reflexivity).
      assert (Y := proj1 (forallb_forall _ _) X m K). cbv beta in Y. now apply Bool.negb_true_iff in Y. }
    now rewrite E.
Qed.
(** only the names listed are methods of this kind *)
Lemma method_names : rmap (map m_name) methods = Ok
  ["time"; "weight"; "ID"; "mass"; "mass_u"; "charge"; "charge_e"; "Eruhe"; "Px"; "Py"; "Pz"; "P"; "X"; "X_um"; "Y"; "Y_um"; "Z"; "Z_um";
   "beta"; "betax"; "betay"; "betaz"; "V"; "Vx"; "Vy"; "Vz"; "gamma"; "gamma_m1"; "Ekin"; "Ekin_MeV"; "Ekin_MeV_amu"; "Ekin_MeV_qm"; "Ekin_keV"; "Ekin_keV_amu"; "Ekin_keV_qm";
   "angle_xy"; "angle_yz"; "angle_zx"; "angle_yx"; "angle_zy"; "angle_xz"; "angle_xaxis"; "r_xy"; "r_yz"; "r_zx"; "r_xyz"].
Proof. vm_compute. reflexivity. Qed.
Lemma unknown_text {V} n r t (s : species V) ms : identify r t = anonymous t -> reg_get r (Some t) = None -> atom_of t = None ->
  o_names (s_out s) t = [t] -> o_numpy (s_out s) t = None -> o_scipy (s_out s) t = None -> call (S n) r (GText t) (s :: ms) = Err KeyError.
Proof.
  intros I G A N P S. cbn [call]. rewrite I, call_sp_cons. unfold ssdata. cbn [eval_sp anonymous sp_expr]. rewrite N. cbn [load sget].
  assert (X := atom_synonym t). rewrite A in X. destruct X as (X & Y). rewrite X, G, S, P. reflexivity.
Qed.

(** ** the axes of fields made from particles *)
Lemma axes_labelled ub spacing spl box pts m reg ms names data ws h ns d name title species wname :
  reproduces_lines spl -> (d <= 3)%nat -> h_shape h = Some (ShInt (Z.of_nat d)) -> h_simextent h = false -> h_simgrid h = false -> h_bins h = BSeq ns -> length (h_ranges h) = 3%nat ->
  Forall2 (fun s v => call m (reg_run reg []) (GText s) ms = Ok v) names data -> (1 <= length data <= 3)%nat -> length ns = length data -> ws <> [] -> (forall v, In v data -> length v = length ws) -> plottable spacing d (h_ranges h) data ns ->
  exists f, create_field ub spacing spl box pts (map (fun s => scalar_of m (reg_run reg []) ms (GText s)) names) (Ok ws) h name title species wname = Ok f /\ length (f_axes f) = length names /\
    forall i s, nth_error names i = Some s -> exists ax, nth_error (f_axes f) i = Some ax /\ ax_name ax = known_as (table_run reg s) Name /\ ax_unit ax = known_as (table_run reg s) Unit.
Proof.
  intros RL D HS H1 H2 HB HR CA LD LN W LW PL.
  assert (VS : map sc_values (map (fun s => scalar_of m (reg_run reg []) ms (GText s)) names) = map Ok data).
  { rewrite map_map. clear LD LN LW PL. induction CA as [|s v names data C _ IH]; [reflexivity|]. cbn [map]. f_equal; [exact C|exact IH]. }
  destruct (field_made ub spacing spl box pts _ data ws h ns d name title species wname RL D HS H1 H2 HB HR VS LD LN W LW PL) as (f & rs & F & SH & CO & LR & AX & _).
  assert (LL : length names = length data) by (clear -CA; induction CA; cbn [length]; congruence).
  exists f. split; [exact F|]. split.
  - destruct CO as (A & _). rewrite A, SH. congruence.
  - intros i s Hs. assert (Hi : (i < length data)%nat) by (rewrite <- LL; apply nth_error_Some; congruence).
    destruct (AX i Hi) as (_ & ax & sp & NA & NS & (PN & PU & _)). rewrite nth_error_map, Hs in NS. injection NS as <-.
    exists ax. split; [exact NA|]. split; [rewrite PN|rewrite PU]; unfold scalar_of; cbn [sc_name sc_unit]; rewrite label_of; reflexivity.
Qed.
Lemma all_methods : exists l, methods = Ok l /\ forall m, In m (map m_name l) <-> exists t, modern m t.
Proof.
  assert (N := method_names). destruct methods as [l|e]; [|discriminate N]. exists l. split; [reflexivity|]. cbn [rmap] in N. injection N as N. rewrite N. clear N. intro m. split.
  - intro I. destruct (existsb (String.eqb m) capitals) eqn:C.
    + apply existsb_exists in C. destruct C as (x & C & E). apply String.eqb_eq in E. subst x. exists (lower m). left. auto.
    + exists m. right. split; [|reflexivity]. revert C. repeat (destruct I as [<-|I]; [vm_compute; first [discriminate|intros _; tauto]|]). destruct I.
  - intros (t & [(I & _)|(I & _)]); repeat (destruct I as [<-|I]; [vm_compute; tauto|]); destruct I.
Qed.
Lemma no_method {V} n r m (ms : list (species V)) : (forall t, ~ modern m t) -> access n r m ms = Err AttributeError.
Proof.
  intro N. destruct all_methods as (l & L & A). unfold access, accessor, find_method. rewrite L. destruct (find (fun x => String.eqb (m_name x) m) l) as [x|] eqn:F; [|reflexivity].
  apply find_some in F as (I & E). apply String.eqb_eq in E. exfalso. destruct (proj1 (A m)) as (t & T); [rewrite <- E; now apply in_map|]. exact (N t T).
Qed.
