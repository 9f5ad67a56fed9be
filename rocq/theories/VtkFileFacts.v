(** Lemmas about the bytes of VTK files. *)
From Coq Require Import String Ascii List ZArith QArith Lia Bool DecimalString DecimalZ Decimal.
From Verif Require Import PyBase FieldModel IoModel VtkFileModel VtkFileSpec.
Import ListNotations.
Local Close Scope Q_scope.
Local Open Scope string_scope.

Lemma sapp_assoc (a b c : string) : (a ++ b) ++ c = a ++ (b ++ c).
Proof. induction a; cbn; congruence. Qed.
Lemma sapp_nil (a : string) : a ++ "" = a.
Proof. induction a; cbn; congruence. Qed.
Fixpoint join (l : list string) : string := match l with [] => "" | [w] => w | w :: r => w ++ " " ++ join r end.
Fixpoint no_newline (s : string) : Prop := match s with "" => True | String c r => (nat_of_ascii c =? 10)%nat = false /\ no_newline r end.
Lemma line_nl s r : no_newline s -> line (s ++ nl ++ r) = Some (s, r).
Proof. induction s as [|c s IH]; cbn; [reflexivity|]. intros [H N]. rewrite H. change (nl ++ r) with (String "010" r) in IH. rewrite (IH N). reflexivity. Qed.
Lemma blank_not_nl c : blank c = false -> (nat_of_ascii c =? 10)%nat = false.
Proof. unfold blank. intro H. apply orb_false_elim in H as [_ H]. destruct (Nat.eqb_spec (nat_of_ascii c) 10) as [E|_]; [rewrite E in H; discriminate|reflexivity]. Qed.
Lemma no_blank_newline s : no_blank s -> no_newline s.
Proof. induction s as [|c s IH]; cbn; [tauto|]. intros (B & _ & N). split; [now apply blank_not_nl|now apply IH]. Qed.
Lemma no_newline_app a b : no_newline a -> no_newline b -> no_newline (a ++ b).
Proof. induction a; cbn; tauto. Qed.
Lemma join_newline l : (forall w, In w l -> no_newline w) -> no_newline (join l).
Proof.
  induction l as [|w [|w' l] IH]; intro H; [exact I|apply H; now left|]. change (join (w :: w' :: l)) with (w ++ " " ++ join (w' :: l)). apply no_newline_app; [apply H; now left|]. cbn [no_newline append]. split; [reflexivity|]. apply IH. intros; apply H; now right.
Qed.
Lemma words_from_word w s : no_blank s -> words_from w s = if String.eqb (w ++ s) "" then [] else [w ++ s].
Proof.
  revert w. induction s as [|c s IH]; intro w; cbn; [now rewrite sapp_nil|]. intros (B & _ & N). rewrite B, (IH _ N), sapp_assoc. reflexivity.
Qed.
Lemma words_from_sep w s r : no_blank s -> words_from w (s ++ " " ++ r) = if String.eqb (w ++ s) "" then words r else (w ++ s) :: words r.
Proof.
  revert w. induction s as [|c s IH]; intro w; cbn; [now rewrite sapp_nil|]. intros (B & _ & N). rewrite B. change (String " " r) with (" " ++ r). rewrite (IH _ N), sapp_assoc. reflexivity.
Qed.
Lemma words_join l : Forall is_word l -> words (join l) = l.
Proof.
  intro H. induction H as [|w l [N B] H IH]; [reflexivity|]. assert (E : String.eqb w "" = false) by now apply String.eqb_neq. destruct l as [|w' l].
  - cbn [join]. unfold words. rewrite words_from_word by exact B. cbn [append]. now rewrite E.
  - change (join (w :: w' :: l)) with (w ++ " " ++ join (w' :: l)). unfold words at 1. rewrite words_from_sep by exact B. cbn [append]. rewrite E. now rewrite IH.
Qed.
Lemma is_word_newline w : is_word w -> no_newline w.
Proof. intros [_ H]. now apply no_blank_newline. Qed.
Lemma word_line_join l r : Forall is_word l -> word_line (join l ++ nl ++ r) = Some (l, r).
Proof. intro H. unfold word_line. rewrite line_nl, words_join by (exact H || (apply join_newline; intros w I; apply is_word_newline; rewrite Forall_forall in H; now apply H)). reflexivity. Qed.
(** ascii *)
Lemma ascii_app a b : ascii_only (a ++ b) = ascii_only a && ascii_only b.
Proof. induction a as [|c a IH]; cbn; [reflexivity|]. rewrite IH. now rewrite andb_assoc. Qed.
Lemma word_ascii w : is_word w -> ascii_only w = true.
Proof. intros [_ H]. induction w as [|c w IH]; [reflexivity|]. destruct H as (_ & L & H). cbn. rewrite (IH H). rewrite andb_true_r. apply Nat.leb_le. lia. Qed.
Lemma join_ascii l : Forall is_word l -> ascii_only (join l) = true.
Proof.
  intro H. induction H as [|w l W H IH]; [reflexivity|]. destruct l as [|w' l]; [now apply word_ascii|]. change (join (w :: w' :: l)) with (w ++ " " ++ join (w' :: l)). rewrite ascii_app, (word_ascii w W). cbn. exact IH.
Qed.
Lemma encode_join l : Forall is_word l -> encode (join l ++ nl) = Ok (join l ++ nl).
Proof. intro H. unfold encode. now rewrite ascii_app, join_ascii. Qed.
(** whole numbers *)
Lemma dec_uint_no_blank u : no_blank (NilEmpty.string_of_uint u).
Proof. induction u; cbn; try exact I; (split; [reflexivity|split; [cbn; lia|exact IHu]]). Qed.
Lemma dec_read z : integer (dec z) = Some z.
Proof. unfold integer, dec. rewrite NilEmpty.isi. cbn. now rewrite DecimalZ.of_to. Qed.
Lemma dec_word z : is_word (dec z).
Proof.
  split.
  - intro E. unfold dec in E. assert (X : Z.to_int z = Pos Nil). { destruct (Z.to_int z) as [u|u] eqn:Ez; cbn in E; [|discriminate]. destruct u; cbn in E; try discriminate. reflexivity. }
    destruct z as [|p|p]; cbn in X; try discriminate. injection X as X. revert X. apply DecimalPos.Unsigned.to_uint_nonnil.
  - unfold dec. destruct (Z.to_int z) as [u|u]; cbn; [apply dec_uint_no_blank|]. split; [reflexivity|]. split; [lia|]. apply dec_uint_no_blank.
Qed.
(** blocks of numbers *)
Lemma take_app a r : take (String.length a) (a ++ r) = Some (a, r).
Proof. induction a as [|c a IH]; cbn; [reflexivity|]. now rewrite IH. Qed.
Lemma block_read bin number round size l r : reads_bytes bin number round -> size = 4 \/ size = 8 -> block (number size) size (length l) (concat_all (map (bin size) l) ++ r) = Some (map (round size) l, r).
Proof.
  intros H Hs. induction l as [|q l IH]; [reflexivity|]. destruct (H size q Hs) as [L N]. cbn [length block map concat_all]. rewrite sapp_assoc. pose proof (take_app (bin size q) (concat_all (map (bin size) l) ++ r)) as T. rewrite L in T. rewrite T, N, IH. reflexivity.
Qed.
(** written chunks *)
Lemma write_ok l : write_chunks (map Ok l) = (concat_all l, Ok tt).
Proof. induction l as [|s l IH]; [reflexivity|]. cbn. rewrite IH. reflexivity. Qed.
Lemma write_stop l e r : write_chunks (map Ok l ++ Err e :: r) = (concat_all l, Err e).
Proof. induction l as [|s l IH]; [reflexivity|]. cbn. rewrite IH. reflexivity. Qed.
Lemma concat_app l m : concat_all (l ++ m) = concat_all l ++ concat_all m.
Proof. induction l as [|s l IH]; [reflexivity|]. cbn. now rewrite IH, sapp_assoc. Qed.

Section written.
Variables (text : Q -> string) (bin : nat -> Q -> string) (real : string -> option Q) (number : nat -> string -> option Q) (round : nat -> Q -> Q).
Hypotheses (Ht : reads_text text real) (Hb : reads_bytes bin number round).
Variables (size : nat) (type : string).
Hypotheses (Hs : size_of type = Ok size).

Lemma size_cases : (type = "double" /\ size = 8) \/ (type = "float" /\ size = 4).
Proof. revert Hs. unfold size_of. destruct (String.eqb_spec type "double") as [E|_]; [intro X; injection X as X; left; now split|]. destruct (String.eqb_spec type "float") as [E|_]; [intro X; injection X as X; right; now split|discriminate]. Qed.
Lemma size_48 : size = 4 \/ size = 8.
Proof. destruct size_cases as [[_ E]|[_ E]]; tauto. Qed.
Lemma type_word : is_word type.
Proof. destruct size_cases as [[E _]|[E _]]; rewrite E; (split; [discriminate|cbn; repeat split; lia]). Qed.
Lemma type_size : number_size type = Some size.
Proof. destruct size_cases as [[E E']|[E E']]; rewrite E, E'; reflexivity. Qed.
Lemma text_word q : is_word (text q).
Proof. apply Ht. Qed.
Lemma text_read q : real (text q) = Some q.
Proof. apply Ht. Qed.
Ltac word := first [apply dec_word | apply text_word | apply type_word | assumption | (split; [discriminate|cbn; repeat split; lia])].
Ltac wordlist := repeat (apply Forall_cons; [word|]); apply Forall_nil.

Lemma line3_join key a b c : is_word key -> is_word a -> is_word b -> is_word c -> line3 key [a; b; c] = Ok (join [key; a; b; c] ++ nl).
Proof. intros. rewrite <- encode_join by wordlist. unfold line3, join. now rewrite !sapp_assoc. Qed.
Lemma three_join key a b c r : is_word key -> is_word a -> is_word b -> is_word c -> three_words key (join [key; a; b; c] ++ nl ++ r) = Some (a, b, c, r).
Proof. intros. unfold three_words. rewrite word_line_join by wordlist. now rewrite String.eqb_refl. Qed.
Lemma axis_ok axname g : is_word (axname ++ "_COORDINATES") -> exists l, axis_chunks bin size type axname g = map Ok l /\
  forall r, coordinates number (axname ++ "_COORDINATES") (Z.of_nat (length g)) (concat_all l ++ r) = Some (map (round size) g, r).
Proof.
  intro W. exists [join [axname ++ "_COORDINATES"; dec (Z.of_nat (length g)); type] ++ nl; concat_all (map (bin size) g); nl]. split.
  - unfold axis_chunks. cbn [map]. rewrite <- encode_join by wordlist. cbn [join]. rewrite !sapp_assoc. reflexivity.
  - intro r. cbn [concat_all]. rewrite !sapp_assoc. unfold coordinates. rewrite word_line_join by wordlist. rewrite String.eqb_refl, dec_read, type_size, Z.eqb_refl, Nat2Z.id.
    rewrite (block_read bin number round size g _ Hb size_48). cbn [append]. change (nl ++ r) with (String "010" r). reflexivity.
Qed.
Lemma set_ok ds n : (match ds with
   | Structured d o s => length d = 3%nat /\ length o = 3%nat /\ length s = 3%nat /\ (forall n, In n d -> (0 <= n)%Z) /\ n = fold_right Z.mul 1%Z d
   | Rectilinear g => length g = 3%nat /\ n = fold_right Z.mul 1%Z (map (fun ax => Z.of_nat (length ax)) g)
   end) -> exists l, set_chunks text bin size type ds = map Ok l /\
  forall r, read_set real number (concat_all l ++ r) = Some (n, match ds with Structured d o s => Structured d o s | Rectilinear g => Rectilinear (map (map (round size)) g) end, r).
Proof.
  destruct ds as [d o s|g].
  - intros (Ld & Lo & Ls & _ & ->). destruct d as [|a [|b [|c [|? ?]]]]; try discriminate. destruct o as [|x [|y [|z [|? ?]]]]; try discriminate. destruct s as [|u [|v [|w [|? ?]]]]; try discriminate.
    exists [join ["DATASET"; "STRUCTURED_POINTS"] ++ nl; join ["DIMENSIONS"; dec a; dec b; dec c] ++ nl; join ["ORIGIN"; text x; text y; text z] ++ nl; join ["SPACING"; text u; text v; text w] ++ nl]. split.
    + unfold set_chunks. cbn [map]. rewrite !line3_join by word. reflexivity.
    + intro r. cbn [concat_all]. rewrite !sapp_assoc. unfold read_set. rewrite word_line_join by wordlist. cbn [String.eqb Ascii.eqb Bool.eqb negb].
      rewrite three_join by word. cbv beta match. rewrite !dec_read. cbv beta match. rewrite three_join by word. cbv beta iota. rewrite !text_read. cbv beta iota. rewrite three_join by word. cbv beta iota. rewrite !text_read. cbv beta iota. cbn [append fold_right]. do 3 f_equal. ring.
  - intros (Lg & ->). destruct g as [|g1 [|g2 [|g3 [|? ?]]]]; try discriminate.
    destruct (axis_ok "X" g1) as (l1 & E1 & R1); [word|]. destruct (axis_ok "Y" g2) as (l2 & E2 & R2); [word|]. destruct (axis_ok "Z" g3) as (l3 & E3 & R3); [word|].
    exists (app [(join ["DATASET"; "RECTILINEAR_GRID"] ++ nl)%string; (join ["DIMENSIONS"; dec (Z.of_nat (length g1)); dec (Z.of_nat (length g2)); dec (Z.of_nat (length g3))] ++ nl)%string] (app l1 (app l2 l3))). split.
    + unfold set_chunks. cbn [map combine flat_map fst snd]. rewrite line3_join by word. rewrite E1, E2, E3, app_nil_r, !map_app. reflexivity.
    + intro r. rewrite !concat_app. cbn [concat_all]. rewrite !sapp_assoc. cbn [append]. unfold read_set. rewrite word_line_join by wordlist. cbn [String.eqb Ascii.eqb Bool.eqb negb].
      rewrite three_join by word. rewrite !dec_read. cbv beta iota. cbn [append] in R1, R2, R3. rewrite R1, R2, R3. cbn [map fold_right]. do 3 f_equal. ring.
Qed.
Definition reads_point_data (r : string) : option (vtk_kind * string * nat * list Q * Z) :=
  match word_line r with
  | Some ([k; p], s) =>
      if negb (String.eqb k "POINT_DATA") then None
      else match integer p with Some p => match read_attribute number p s with Some (a, b, c, d) => Some (a, b, c, d, p) | None => None end | None => None end
  | _ => None
  end.
Lemma data_ok name v : is_word name -> (0 <= v_points v)%Z -> Z.of_nat (length (v_values v)) = (v_points v * Z.of_nat (v_comps v))%Z ->
  match v_kind v with Scalars => 1 <= v_comps v <= 4 | Vectors => v_comps v = 3 end ->
  exists l, data_chunks bin size type name v = map Ok l /\ exists s, word_line (concat_all l) = Some (["POINT_DATA"; dec (v_points v)], s) /\
    read_attribute number (v_points v) s = Some (v_kind v, name, v_comps v, map (round size) (v_values v)).
Proof.
  intros W Hp Hn Hk. unfold data_chunks. assert (Ln : length (v_values v) = Z.to_nat (v_points v) * v_comps v) by (apply Nat2Z.inj; rewrite Hn, Nat2Z.inj_mul, Z2Nat.id by exact Hp; reflexivity). destruct (v_kind v).
  - exists [join ["POINT_DATA"; dec (v_points v)] ++ nl; join ["SCALARS"; name; type; dec (Z.of_nat (v_comps v))] ++ nl; join ["LOOKUP_TABLE"; "default"] ++ nl; concat_all (map (bin size) (v_values v)) ++ ""]. split.
    + cbn [map app]. rewrite <- !encode_join by wordlist. cbn [join]. rewrite !sapp_assoc, sapp_nil. reflexivity.
    + eexists. cbn [concat_all]. rewrite !sapp_assoc. rewrite word_line_join by wordlist. split; [reflexivity|]. unfold read_attribute. rewrite word_line_join by wordlist. cbn [String.eqb Ascii.eqb Bool.eqb].
      rewrite type_size, dec_read. destruct (Z.ltb_spec (Z.of_nat (v_comps v)) 1); [lia|]. destruct (Z.ltb_spec 4 (Z.of_nat (v_comps v))); [lia|]. cbn [orb]. rewrite word_line_join by wordlist. cbn [String.eqb Ascii.eqb Bool.eqb].
      rewrite Nat2Z.id, <- Ln. rewrite (block_read bin number round size _ _ Hb size_48). reflexivity.
  - exists [join ["POINT_DATA"; dec (v_points v)] ++ nl; join ["VECTORS"; name; type] ++ nl; concat_all (map (bin size) (v_values v)) ++ ""]. split.
    + cbn [map app]. rewrite <- !encode_join by wordlist. cbn [join]. rewrite !sapp_assoc, sapp_nil. reflexivity.
    + eexists. cbn [concat_all]. rewrite !sapp_assoc. rewrite word_line_join by wordlist. split; [reflexivity|]. unfold read_attribute. rewrite word_line_join by wordlist. cbn [String.eqb Ascii.eqb Bool.eqb].
      rewrite type_size. rewrite Hk in *. rewrite <- Ln. rewrite (block_read bin number round size _ _ Hb size_48). reflexivity.
Qed.
Lemma prod_nonneg l : (forall n, In n l -> (0 <= n)%Z) -> (0 <= fold_right Z.mul 1%Z l)%Z.
Proof. induction l as [|n l IH]; intro H; cbn; [lia|]. apply Z.mul_nonneg_nonneg; [apply H; now left|apply IH; intros; apply H; now right]. Qed.
Lemma fits_points v : fits v -> (0 <= v_points v)%Z.
Proof.
  intros [H _]. destruct (v_set v) as [d o s|g]; [destruct H as (_ & _ & _ & P & ->); now apply prod_nonneg|]. destruct H as (_ & ->). apply prod_nonneg. intros n I. apply in_map_iff in I as (ax & <- & _). lia.
Qed.
Lemma head_read r : forall k, (match line (concat_all ["# vtk DataFile Version 2.0" ++ nl; "PostPic exported data" ++ nl; "BINARY" ++ nl] ++ r) with
  | Some (l1, s) => if negb (String.prefix "# vtk DataFile Version " l1) then None
     else match line s with Some (_, s) => match word_line s with Some ([m], s) => if negb (String.eqb m "BINARY") then None else k s | _ => None end | None => None end
  | None => None end : option (string * vtk Q)) = k r.
Proof. intro k. cbn [concat_all]. rewrite !sapp_assoc. rewrite line_nl by (cbn; tauto). cbv beta match. change (String.prefix "# vtk DataFile Version " "# vtk DataFile Version 2.0") with true. cbn [negb]. rewrite line_nl by (cbn; tauto). cbv beta match.
  change (word_line ("BINARY" ++ nl ++ "" ++ r)) with (word_line (join ["BINARY"] ++ nl ++ r)). rewrite word_line_join by wordlist. reflexivity. Qed.

Lemma write_read name v : is_word name -> fits v -> exists s, write_vtk text bin type name v = (Some s, Ok tt) /\ read_vtk real number s = Some (name, rounded (round size) v).
Proof.
  intros W F. destruct (set_ok (v_set v) (v_points v)) as (l1 & E1 & R1); [apply F|]. destruct (data_ok name v W (fits_points v F)) as (l2 & E2 & s & R2 & R3); [apply F|apply F|].
  unfold write_vtk. rewrite Hs, E1, E2. change head_chunks with (map (@Ok string) ["# vtk DataFile Version 2.0" ++ nl; "PostPic exported data" ++ nl; "BINARY" ++ nl])%string. rewrite <- !map_app, write_ok. eexists. split; [reflexivity|].
  rewrite !concat_app. unfold read_vtk. rewrite head_read. rewrite R1. cbv beta match. rewrite R2. cbv beta match. cbn [String.eqb Ascii.eqb Bool.eqb negb]. rewrite dec_read. cbv beta match. rewrite Z.eqb_refl. cbn [negb]. rewrite R3. reflexivity.
Qed.
(** names that are not a word *)
Lemma write_bad name v : fits v -> ascii_only name = true -> (forall r, read_attribute number (v_points v) (match v_kind v with Scalars => "SCALARS " ++ name ++ " " ++ type ++ " " ++ dec (Z.of_nat (v_comps v)) ++ nl ++ r | Vectors => "VECTORS " ++ name ++ " " ++ type ++ nl ++ r end) = None) ->
  exists s, write_vtk text bin type name v = (Some s, Ok tt) /\ read_vtk real number s = None.
Proof.
  intros F A R. destruct (set_ok (v_set v) (v_points v)) as (l1 & E1 & R1); [apply F|].
  assert (D : exists l, data_chunks bin size type name v = map Ok l /\ exists r, word_line (concat_all l) = Some (["POINT_DATA"; dec (v_points v)], match v_kind v with Scalars => "SCALARS " ++ name ++ " " ++ type ++ " " ++ dec (Z.of_nat (v_comps v)) ++ nl ++ r | Vectors => "VECTORS " ++ name ++ " " ++ type ++ nl ++ r end)).
  { unfold data_chunks. destruct (v_kind v).
    - exists [join ["POINT_DATA"; dec (v_points v)] ++ nl; "SCALARS " ++ name ++ " " ++ type ++ " " ++ dec (Z.of_nat (v_comps v)) ++ nl; "LOOKUP_TABLE default" ++ nl; concat_all (map (bin size) (v_values v))]. split.
      + cbn [map app]. rewrite <- encode_join by wordlist. cbn [join]. rewrite !sapp_assoc. unfold encode at 2. rewrite !ascii_app, A, (word_ascii type type_word), (word_ascii _ (dec_word (Z.of_nat (v_comps v)))). reflexivity.
      + eexists. cbn [concat_all]. rewrite !sapp_assoc. rewrite word_line_join by wordlist. reflexivity.
    - exists [join ["POINT_DATA"; dec (v_points v)] ++ nl; "VECTORS " ++ name ++ " " ++ type ++ nl; concat_all (map (bin size) (v_values v))]. split.
      + cbn [map app]. rewrite <- encode_join by wordlist. cbn [join]. rewrite !sapp_assoc. unfold encode at 2. rewrite !ascii_app, A, (word_ascii type type_word). reflexivity.
      + eexists. cbn [concat_all]. rewrite !sapp_assoc. rewrite word_line_join by wordlist. reflexivity. }
  destruct D as (l2 & E2 & r & R2). unfold write_vtk. rewrite Hs, E1, E2. change head_chunks with (map (@Ok string) ["# vtk DataFile Version 2.0" ++ nl; "PostPic exported data" ++ nl; "BINARY" ++ nl])%string. rewrite <- !map_app, write_ok. eexists. split; [reflexivity|].
  rewrite !concat_app. unfold read_vtk. rewrite head_read. rewrite R1. cbv beta match. rewrite R2. cbv beta match. cbn [String.eqb Ascii.eqb Bool.eqb negb]. rewrite dec_read. cbv beta match. rewrite Z.eqb_refl. cbn [negb]. rewrite R. reflexivity.
Qed.
End written.
