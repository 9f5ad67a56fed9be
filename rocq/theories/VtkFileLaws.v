(** What is read from exported VTK files. *)
From Coq Require Import String Ascii List ZArith QArith Lia Bool.
From Verif Require Import PyBase PyBaseFacts NumpyModel NumpyFacts AxisModel AxisSpec AxisFacts NdModel NdFacts FieldModel FieldSpec FieldInvFacts FieldReduceFacts FieldRearrFacts FieldIndexFacts ReaderFacts IoModel IoSpec IoFacts IoText IoVtk VtkFileModel VtkFileSpec VtkFileFacts.
Import ListNotations.
Local Close Scope Q_scope.
Local Open Scope string_scope.

(** names *)
Lemma array_name_wanted given field_name : array_name given field_name = underscores (wanted given field_name).
Proof. unfold array_name, wanted. destruct given as [[|c n]|]; reflexivity. Qed.
Lemma underscored_unique s t : underscored s t -> t = underscores s.
Proof.
  revert t. induction s as [|c s IH]; intros [|d t]; cbn; try tauto. intros [H U]. rewrite (IH t U). destruct (Ascii.eqb_spec c " ") as [E|E]; destruct H as [[E1 E2]|[E1 E2]]; congruence.
Qed.
Lemma plain_word s : s <> "" -> plain_name s -> is_word (underscores s).
Proof.
  intros N P. split; [destruct s; [congruence|discriminate]|]. clear N. induction s as [|c s IH]; [exact I|]. destruct P as (B & L & P). cbn [underscores no_blank]. split; [|split; [|now apply IH]].
  - destruct (Ascii.eqb_spec c " "); [reflexivity|]. destruct B as [B|B]; [congruence|exact B].
  - destruct (Ascii.eqb_spec c " "); [cbn; lia|exact L].
Qed.
Lemma words_free w0 s w : ~ has_char blank w0 -> In w (words_from w0 s) -> ~ has_char blank w.
Proof.
  revert w0. induction s as [|c s IH]; intros w0 H; cbn.
  - destruct (String.eqb w0 ""); [intros []|]. intros [<-|[]]. exact H.
  - destruct (blank c) eqn:B.
    + assert (K : ~ has_char blank "") by (intros []). destruct (String.eqb w0 ""); [now apply IH|]. intros [<-|I]; [exact H|now apply (IH "")].
    + apply IH. clear -H B. induction w0 as [|d w0 IH]; cbn; [rewrite B; intros [X|[]]; discriminate|]. intros [X|X]; [apply H; now left|]. revert X. apply IH. intro X. apply H. now right.
Qed.
Lemma line_words_free s ws r w : word_line s = Some (ws, r) -> In w ws -> ~ has_char blank w.
Proof. unfold word_line. destruct (line s) as [[a b]|]; [|discriminate]. intros E. injection E as <- <-. apply words_free. intros []. Qed.
Lemma attribute_name_free number n s k name c l : read_attribute number n s = Some (k, name, c, l) -> ~ has_char blank name.
Proof.
  unfold read_attribute. destruct (word_line s) as [[ws r]|] eqn:E; [|discriminate]. assert (F := line_words_free s ws r). specialize (F name E).
  destruct ws as [|w1 [|w2 [|w3 [|w4 [|? ?]]]]]; try discriminate.
  - destruct (String.eqb w1 "VECTORS"); [|discriminate]. destruct (number_size w3); [|discriminate]. destruct (block _ _ _ _) as [[x y]|]; [|discriminate]. destruct (String.eqb y ""); [|discriminate]. intro X. injection X as _ X _ _. subst. apply F. right. now left.
  - destruct (String.eqb w1 "SCALARS"); [|discriminate]. destruct (number_size w3); [|discriminate]. destruct (integer w4); [|discriminate]. destruct (_ || _); [discriminate|]. destruct (word_line r) as [[[|t1 [|t2 [|? ?]]] r']|]; try discriminate. destruct (String.eqb t1 _); [|discriminate].
    destruct (block _ _ _ _) as [[x y]|]; [|discriminate]. destruct (String.eqb y ""); [|discriminate]. intro X. injection X as _ X _ _. subst. apply F. right. now left.
Qed.
Lemma read_name_free real number s name v : read_vtk real number s = Some (name, v) -> ~ has_char blank name.
Proof.
  unfold read_vtk. destruct (line s) as [[l1 s1]|]; [|discriminate]. destruct (negb _); [discriminate|]. destruct (line s1) as [[l2 s2]|]; [|discriminate]. destruct (word_line s2) as [[[|m [|? ?]] s3]|]; try discriminate. destruct (negb _); [discriminate|].
  destruct (read_set _ _ _) as [[[n ds] s4]|]; [|discriminate]. destruct (word_line s4) as [[[|k [|p [|? ?]]] s5]|]; try discriminate. destruct (negb _); [discriminate|]. destruct (integer p) as [p'|]; [|discriminate]. destruct (negb _); [discriminate|].
  destruct (read_attribute _ _ _) as [[[[kind nm] c] l]|] eqn:E; [|discriminate]. intro X. injection X as <- _. eapply attribute_name_free. exact E.
Qed.

(** exported fields *)
Lemma rest_fits spl kind (f0 : field Q) rest : (forall f, In f (f0 :: rest) -> ready f /\ f_shape f = f_shape f0) -> nonempty (f_shape f0) -> 2 <= length (f_shape f0) <= 3 ->
  (match kind with Vectors => length rest = 2 | Scalars => length rest <= 3 end) -> forall v, rest_export spl kind (f0 :: rest) = Ok v -> fits v.
Proof.
  intros H Hne Hl Hk v E. destruct (export_rest_ok spl kind f0 rest H Hne Hl Hk) as (v' & g0 & E' & Ek & Ec & Ep & Ev & _ & W & D & P). rewrite E in E'. injection E' as <-.
  destruct (H f0 (or_introl eq_refl)) as [((La & Ca & _) & Pf & _) _]. destruct W as (_ & (axs & Ea & Lx & Px) & _).
  assert (L3 : length (f_axes g0) = 3) by (rewrite Ea, app_length, Lx, La; lia).
  assert (Pr : zprod (f_shape f0) = fold_right Z.mul 1%Z (map ax_len (f_axes g0))).
  { assert (M : map ax_len (f_axes f0) = f_shape f0).
    { clear -La Ca. revert La Ca. generalize (f_axes f0) (f_shape f0). induction l as [|ax l IH]; intros [|n sh] L C; try discriminate; [reflexivity|]. cbn. rewrite (C 0 ax n eq_refl eq_refl). f_equal. apply IH; [now injection L|]. intros k a m E1 E2. exact (C (S k) a m E1 E2). }
    rewrite Ea, map_app, fold_right_app, M. assert (O : fold_right Z.mul 1%Z (map ax_len axs) = 1%Z). { clear -Px. induction Px as [|ax l Hx Px IH]; [reflexivity|]. cbn. rewrite IH. destruct Hx as (_ & _ & -> & _). reflexivity. } rewrite O. reflexivity. }
  assert (Na : forall ax, In ax (f_axes g0) -> ax_len ax = Z.of_nat (length (ax_grid ax))).
  { intros ax I. rewrite Forall_forall in P. destruct (proper_describes _ (P ax I)) as (_ & _ & X). exact X. }
  split; [|split].
  - destruct D as [[_ (o & sp & -> & Fo & Fs)]|[_ ->]].
    + rewrite map_length. split; [exact L3|]. split; [apply F2_length in Fo; lia|]. split; [apply F2_length in Fs; lia|]. split; [|now rewrite Ep]. intros n I. apply in_map_iff in I as (ax & <- & I). rewrite (Na ax I). lia.
    + rewrite map_length. split; [exact L3|]. rewrite Ep, Pr, map_map. f_equal. apply map_ext_in. exact Na.
  - exact Ev.
  - rewrite Ek, Ec. destruct kind; lia.
Qed.

Lemma even_islinear ax : axis_proper ax -> ascending_even ax -> islinear ax = Ok true.
Proof.
  intros P (x & h & Hh & _ & Hn). unfold islinear. destruct (Z.ltb_spec (ax_n ax) 3) as [H3|H3]; [reflexivity|]. assert (Lp := proper_length _ P). destruct (proper_describes _ P) as (_ & _ & D).
  unfold h_islinear. destruct (ax_node ax) as [|g0 gr] eqn:E; [discriminate|]. rewrite <- E in *.
  destruct (np_linspace_total g0 (last (ax_node ax) g0) (Z.of_nat (length (ax_node ax)))) as [l Hl]; [lia|]. rewrite Hl. cbn [bind]. f_equal. destruct (np_linspace_ok _ _ _ _ Hl) as [Hll Hlv]. rewrite Nat2Z.id in Hll.
  apply np_all_map2_iff; [now symmetry|]. intros i Hi. apply isclose_refl. rewrite Hlv by lia. rewrite Hn by lia.
  assert (E0 : (g0 == x - (1 # 2) * h)%Q). { replace g0 with (nth 0 (ax_node ax) 0%Q) by (rewrite E; reflexivity). rewrite Hn by lia. change (inject_Z (Z.of_nat 0)) with 0%Q. ring. }
  set (m := (length (ax_node ax) - 1)%nat). assert (E1 : (last (ax_node ax) g0 == x - (1 # 2) * h + inject_Z (Z.of_nat m) * h)%Q). { rewrite last_nth. rewrite (nth_indep _ g0 0%Q) by lia. apply Hn. unfold m. lia. }
  rewrite E1, E0. replace (Z.of_nat (length (ax_node ax)) - 1)%Z with (Z.of_nat m) by (unfold m; lia). assert (Nz : ~ (inject_Z (Z.of_nat m) == 0)%Q). { unfold m, Qeq. cbn. lia. } field. exact Nz.
Qed.
Lemma rest_set spl kind (f0 : field Q) rest : (forall f, In f (f0 :: rest) -> ready f /\ f_shape f = f_shape f0) -> nonempty (f_shape f0) -> 2 <= length (f_shape f0) <= 3 ->
  (match kind with Vectors => length rest = 2 | Scalars => length rest <= 3 end) -> forall v, rest_export spl kind (f0 :: rest) = Ok v ->
  (Forall ascending_even (f_axes f0) -> exists d o s, v_set v = Structured d o s) /\ (Exists (fun ax => islinear ax = Ok false) (f_axes f0) -> exists g, v_set v = Rectilinear g).
Proof.
  intros H Hne Hl Hk v E. destruct (export_rest_ok spl kind f0 rest H Hne Hl Hk) as (v' & g0 & E' & _ & _ & _ & _ & _ & W & D & P). rewrite E in E'. injection E' as <-.
  destruct (H f0 (or_introl eq_refl)) as [(_ & Pf & _) _]. destruct W as (_ & (axs & Ea & Lx & Px) & _). rewrite Ea in D. split.
  - intro Ev. destruct D as [[_ (o & sp & -> & _)]|[X _]]; [eauto|]. exfalso. apply Exists_exists in X as (ax & I & X). rewrite Forall_forall in Pf, Ev, Px. apply in_app_or in I as [I|I].
    + rewrite even_islinear in X by auto. discriminate.
    + destruct (point_even ax (Px ax I)) as (Q1 & Q2 & _). rewrite even_islinear in X by assumption. discriminate.
  - intro X. destruct D as [[A _]|[_ ->]]; [|eauto]. exfalso. apply Exists_exists in X as (ax & I & X). rewrite Forall_forall in A. rewrite (A ax) in X by (apply in_or_app; now left). discriminate.
Qed.

Lemma word_line_gap w l r : is_word w -> Forall is_word l -> word_line (w ++ " " ++ " " ++ join l ++ nl ++ r) = Some (w :: l, r).
Proof.
  intros W H. unfold word_line. replace (w ++ " " ++ " " ++ join l ++ nl ++ r) with ((w ++ " " ++ " " ++ join l) ++ nl ++ r) by (now rewrite !sapp_assoc). rewrite line_nl.
  - unfold words at 1. rewrite words_from_sep by apply W. cbn [append]. destruct W as [N _]. apply String.eqb_neq in N. rewrite N. change (words (String " " (join l))) with (words (join l)). now rewrite words_join.
  - apply no_newline_app; [now apply is_word_newline|]. cbn [append no_newline]. repeat split. apply join_newline. rewrite Forall_forall in H. intros x I. now apply is_word_newline, H.
Qed.
Section files.
Variables (text : Q -> string) (bin : nat -> Q -> string) (real : string -> option Q) (number : nat -> string -> option Q) (round : nat -> Q -> Q).
Hypotheses (Ht : reads_text text real) (Hb : reads_bytes bin number round).

Lemma export_read old type size given field_name v shown : number_size type = Some size -> wanted given field_name <> "" -> plain_name (wanted given field_name) -> underscored (wanted given field_name) shown -> fits v ->
  exists s, export_file text bin old type given field_name (Ok v) = (Some s, Ok tt) /\ read_vtk real number s = Some (shown, rounded (round size) v).
Proof.
  intros S N P U F. assert (Hs : size_of type = Ok size). { unfold number_size in S. unfold size_of. destruct (String.eqb_spec type "float") as [->|_]; [injection S as <-; reflexivity|]. destruct (String.eqb type "double"); [injection S as <-; reflexivity|discriminate]. }
  rewrite (underscored_unique _ _ U), <- array_name_wanted. destruct (write_read text bin real number round Ht Hb size type Hs (array_name given field_name) v) as (s & E & R); [rewrite array_name_wanted; now apply plain_word|exact F|]. exists s. unfold export_file. rewrite E. now split.
Qed.
Lemma located_rounded r v a i : located (v_set (rounded r v)) a i = match v_set v with Structured _ _ _ => located (v_set v) a i | Rectilinear _ => option_map r (located (v_set v) a i) end.
Proof. unfold rounded. cbn [v_set]. destruct (v_set v) as [d o s|g]; [reflexivity|]. cbn [located]. rewrite nth_error_map. destruct (nth_error g a); cbn; [|reflexivity]. now rewrite nth_error_map. Qed.
Lemma lists_round r fields n sh v : lists_values 0%Q fields n sh v -> lists_rounded r fields n sh (rounded r v).
Proof.
  intros (A & B & C & D). unfold lists_rounded, rounded. cbn [v_comps v_points v_values]. rewrite map_length. split; [exact A|]. split; [exact B|]. split; [exact C|]. intros nx ny nz c i j k E Hc Hi Hj Hk. rewrite nth_error_map, (D nx ny nz c i j k E Hc Hi Hj Hk). reflexivity.
Qed.
Lemma locates_even r f0 v : (exists d o s, v_set v = Structured d o s) -> locates_points f0 v -> locates_points f0 (rounded r v).
Proof. intros (d & o & s & E) L a i Ha. rewrite located_rounded. rewrite E at 1. now apply L. Qed.
Lemma locates_bent r f0 v : (exists g, v_set v = Rectilinear g) -> locates_points f0 v -> locates_rounded r f0 (rounded r v).
Proof. intros (g & E) L a i Ha. exists (located (v_set v) a i). split; [now apply L|]. rewrite located_rounded. now rewrite E at 1. Qed.

Lemma file_core spl kind old type size given (f0 : field Q) rest fs shown v :
  (forall f, In f (f0 :: rest) -> ready f /\ f_shape f = f_shape f0) -> nonempty (f_shape f0) -> 2 <= length (f_shape f0) <= 3 ->
  (match kind with Vectors => length rest = 2 | Scalars => length rest <= 3 end) -> rest_export spl kind (f0 :: rest) = Ok v -> v_kind v = kind -> lists_values 0%Q fs (S (length rest)) (f_shape f0) v ->
  (Forall ascending_even (f_axes f0) \/ Exists (fun ax => islinear ax = Ok false) (f_axes f0) -> locates_points f0 v) ->
  number_size type = Some size -> wanted given (l_name (f_top f0)) <> "" -> plain_name (wanted given (l_name (f_top f0))) -> underscored (wanted given (l_name (f_top f0))) shown ->
  exists s w, export_file text bin old type given (l_name (f_top f0)) (Ok v) = (Some s, Ok tt) /\ read_vtk real number s = Some (shown, w) /\ v_kind w = kind /\
    lists_rounded (round size) fs (S (length rest)) (f_shape f0) w /\ (Forall ascending_even (f_axes f0) -> locates_points f0 w) /\ (Exists (fun ax => islinear ax = Ok false) (f_axes f0) -> locates_rounded (round size) f0 w).
Proof.
  intros H Hne Hl Hk E Ek L Loc S N P U. destruct (export_read old type size given (l_name (f_top f0)) v shown S N P U) as (s & E1 & R1); [now apply (rest_fits spl kind f0 rest)|].
  destruct (rest_set spl kind f0 rest H Hne Hl Hk v E) as [S1 S2]. exists s, (rounded (round size) v). split; [exact E1|]. split; [exact R1|]. split; [exact Ek|]. split; [now apply lists_round|]. split; intro X; [apply locates_even|apply locates_bent]; auto.
Qed.
Lemma file_scalars spl unstag unstagger skip old type size given (f0 : field Q) rest shown : on_one_grid f0 (f0 :: rest) -> nonempty (f_shape f0) -> 2 <= length (f_shape f0) <= 3 -> length rest <= 3 ->
  number_size type = Some size -> wanted given (l_name (f_top f0)) <> "" -> plain_name (wanted given (l_name (f_top f0))) -> underscored (wanted given (l_name (f_top f0))) shown ->
  exists s w, export_file text bin old type given (l_name (f_top f0)) (export_scalars spl unstag unstagger skip (f0 :: rest)) = (Some s, Ok tt) /\ read_vtk real number s = Some (shown, w) /\ v_kind w = Scalars /\
    lists_rounded (round size) (f0 :: rest) (S (length rest)) (f_shape f0) w /\ (Forall ascending_even (f_axes f0) -> locates_points f0 w) /\ (Exists (fun ax => islinear ax = Ok false) (f_axes f0) -> locates_rounded (round size) f0 w).
Proof.
  intros H Hne Hl Hk. destruct (vtk_scalars 0%Q spl unstag unstagger skip f0 rest H Hne Hl Hk) as (v & E & Ek & L & Loc). rewrite E. apply (file_core spl Scalars); try assumption; [intros f I; destruct (H f I) as (? & ? & _); now split|].
  unfold export_scalars in E. destruct (Nat.ltb_spec 4 (length (f0 :: rest))); [discriminate|]. rewrite export_split, chosen_same in E by (intros f I; apply H; now right). exact E.
Qed.
Lemma file_vector spl unstag unstagger skip old type size given (f0 : field Q) rest shown : on_one_grid f0 (f0 :: rest) -> nonempty (f_shape f0) -> 2 <= length (f_shape f0) <= 3 -> length rest <= 2 ->
  number_size type = Some size -> wanted given (l_name (f_top f0)) <> "" -> plain_name (wanted given (l_name (f_top f0))) -> underscored (wanted given (l_name (f_top f0))) shown ->
  exists s w, export_file text bin old type given (l_name (f_top f0)) (export_vector spl unstag 0%Q unstagger skip (f0 :: rest)) = (Some s, Ok tt) /\ read_vtk real number s = Some (shown, w) /\ v_kind w = Vectors /\
    lists_rounded (round size) (f0 :: rest) 3 (f_shape f0) w /\ (Forall ascending_even (f_axes f0) -> locates_points f0 w) /\ (Exists (fun ax => islinear ax = Ok false) (f_axes f0) -> locates_rounded (round size) f0 w).
Proof.
  intros H Hne Hl Hk. destruct (vtk_vector 0%Q spl unstag unstagger skip f0 rest H Hne Hl Hk) as (v & E & Ek & L & Loc). rewrite E.
  unfold export_vector in E. destruct (Nat.ltb_spec 3 (length (f0 :: rest))); [discriminate|]. set (pad := repeat (zero_like 0%Q f0) (3 - length (f0 :: rest))) in *. change (app (f0 :: rest) pad) with (f0 :: app rest pad) in E.
  assert (Hp : forall f, In f pad -> f = zero_like 0%Q f0) by (intros f I; now apply repeat_spec in I).
  rewrite export_split, chosen_same in E by (intros f I; apply in_app_or in I as [I|I]; [apply H; now right|now rewrite (Hp f I)]). cbn [bind] in E.
  assert (L2 : length (app rest pad) = 2) by (unfold pad; rewrite app_length, repeat_length; cbn [length]; lia).
  assert (L' : lists_values 0%Q (f0 :: rest) (S (length (app rest pad))) (f_shape f0) v) by (now rewrite L2).
  assert (R : forall f, In f (f0 :: app rest pad) -> ready f /\ f_shape f = f_shape f0).
  { intros f I. change (f0 :: app rest pad) with (app (f0 :: rest) pad) in I. apply in_app_or in I as [I|I]; [destruct (H f I) as (? & ? & _); now split|]. rewrite (Hp f I). split; [|reflexivity]. destruct (H f0 (or_introl eq_refl)) as ((C & P & _) & _). split; [exact C|]. split; [exact P|reflexivity]. }
  intros S N P U. destruct (file_core spl Vectors old type size given f0 (app rest pad) (f0 :: rest) shown v R Hne Hl L2 E Ek L' Loc S N P U) as (s & w & X). rewrite L2 in X. exists s, w. exact X.
Qed.

(** files that cannot be read *)
Lemma file_type old type given field_name data : number_size type = None -> exists e, export_file text bin old type given field_name data = (old, Err e).
Proof.
  intro S. unfold export_file. destruct data as [v|e]; [|eauto]. unfold write_vtk. assert (Hs : size_of type = Err ValueError). { unfold number_size in S. unfold size_of. destruct (String.eqb type "float"); [discriminate|]. destruct (String.eqb type "double"); [discriminate|reflexivity]. } rewrite Hs. eauto.
Qed.
Lemma number_size_of type size : number_size type = Some size -> size_of type = Ok size.
Proof. intro S. unfold number_size in S. unfold size_of. destruct (String.eqb_spec type "float") as [->|_]; [injection S as <-; reflexivity|]. destruct (String.eqb type "double"); [injection S as <-; reflexivity|discriminate]. Qed.
Lemma file_unnamed old type size v : number_size type = Some size -> fits v -> exists s, export_file text bin old type None "" (Ok v) = (Some s, Ok tt) /\ read_vtk real number s = None.
Proof.
  intros S F. assert (Hs := number_size_of _ _ S). unfold export_file. destruct (write_bad text bin real number round Ht Hb size type Hs "" v F eq_refl) as (s & E & R).
  - intro r. assert (Tw := type_word size type Hs). unfold read_attribute. destruct (v_kind v).
    + assert (X := word_line_gap "SCALARS" [type; dec (Z.of_nat (v_comps v))] r). cbn [join] in X. rewrite !sapp_assoc in X. change ("SCALARS " ++ "" ++ " " ++ type ++ " " ++ dec (Z.of_nat (v_comps v)) ++ nl ++ r) with ("SCALARS" ++ " " ++ " " ++ type ++ " " ++ dec (Z.of_nat (v_comps v)) ++ nl ++ r).
      rewrite X; [reflexivity|split; [discriminate|cbn; repeat split; lia]|]. apply Forall_cons; [exact Tw|apply Forall_cons; [apply dec_word|apply Forall_nil]].
    + assert (X := word_line_gap "VECTORS" [type] r). cbn [join] in X. change ("VECTORS " ++ "" ++ " " ++ type ++ nl ++ r) with ("VECTORS" ++ " " ++ " " ++ type ++ nl ++ r).
      rewrite X; [reflexivity|split; [discriminate|cbn; repeat split; lia]|]. apply Forall_cons; [exact Tw|apply Forall_nil].
  - change (array_name None "") with "". rewrite E. exists s. now split.
Qed.
Lemma file_blank old type given field_name v s x name w : has_char breaking (wanted given field_name) -> export_file text bin old type given field_name (Ok v) = (Some s, x) -> read_vtk real number s = Some (name, w) -> ~ underscored (wanted given field_name) name.
Proof.
  intros H _ R U. apply (read_name_free _ _ _ _ _ R). rewrite (underscored_unique _ _ U). clear -H. induction (wanted given field_name) as [|c n IH]; [destruct H|]. destruct H as [H|H]; [|right; now apply IH]. left. unfold breaking in H. apply andb_prop in H as [B N]. destruct (Ascii.eqb c " "); [discriminate|exact B].
Qed.
Lemma file_foreign old type size given field_name v : number_size type = Some size -> fits v -> has_char (fun c => (128 <=? nat_of_ascii c)%nat) (wanted given field_name) ->
  exists s, export_file text bin old type given field_name (Ok v) = (Some s, Err ValueError) /\ read_vtk real number s = None.
Proof.
  intros S F H. assert (Hs := number_size_of _ _ S). assert (A : ascii_only (array_name given field_name) = false).
  { rewrite array_name_wanted. clear -H. induction (wanted given field_name) as [|c n IH]; [destruct H|]. cbn [underscores ascii_only]. destruct H as [H|H]; [|rewrite (IH H); apply andb_false_r].
    destruct (Ascii.eqb_spec c " ") as [->|_]; [discriminate|]. apply Nat.leb_le in H. destruct (Nat.ltb_spec (nat_of_ascii c) 128); [lia|reflexivity]. }
  destruct (set_ok text bin real number round Ht Hb size type Hs (v_set v) (v_points v)) as (l1 & E1 & R1); [apply F|].
  unfold export_file, write_vtk. rewrite Hs, E1.
  assert (D : exists rest, data_chunks bin size type (array_name given field_name) v = app (map Ok [(join ["POINT_DATA"; dec (v_points v)] ++ nl)%string]) (Err ValueError :: rest)).
  { unfold data_chunks. assert (W : Forall is_word ["POINT_DATA"; dec (v_points v)]) by (apply Forall_cons; [split; [discriminate|cbn; repeat split; lia]|apply Forall_cons; [apply dec_word|apply Forall_nil]]). rewrite <- (sapp_assoc "POINT_DATA " (dec (v_points v)) nl). change ("POINT_DATA " ++ dec (v_points v)) with (join ["POINT_DATA"; dec (v_points v)]). rewrite encode_join by exact W.
    destruct (v_kind v); unfold encode; rewrite !ascii_app, A; cbn [andb app map]; rewrite ?andb_false_r; eauto. }
  destruct D as (rest & ->). change head_chunks with (map (@Ok string) ["# vtk DataFile Version 2.0" ++ nl; "PostPic exported data" ++ nl; "BINARY" ++ nl])%string. rewrite !app_assoc, <- !map_app, write_stop. eexists. split; [reflexivity|].
  rewrite !concat_app. unfold read_vtk. rewrite sapp_assoc, head_read. rewrite R1. cbv beta match. cbn [concat_all]. rewrite !sapp_assoc. rewrite word_line_join by (apply Forall_cons; [split; [discriminate|cbn; repeat split; lia]|apply Forall_cons; [apply dec_word|apply Forall_nil]]).
  cbv beta match. cbn [String.eqb Ascii.eqb Bool.eqb negb]. rewrite dec_read. cbv beta match. rewrite Z.eqb_refl. reflexivity. Unshelve. exact type.
Qed.
End files.
