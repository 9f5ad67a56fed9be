(** Lemmas about words which differ only in capitals. *)
From Coq Require Import Ascii String List ZArith Lia Bool.
From Verif Require Import PyBase FieldModel ReaderModel ReaderSpec ReaderLaws IoModel IoFacts IoText ListModel ListLaws CaseSpec.
Import ListNotations.
Definition letter_eqb (a b : ascii) : bool := Ascii.eqb a b || existsb (fun p => Ascii.eqb (fst p) a && Ascii.eqb (snd p) b) alphabet || existsb (fun p => Ascii.eqb (fst p) b && Ascii.eqb (snd p) a) alphabet.
Lemma letter_in a b : existsb (fun p => Ascii.eqb (fst p) a && Ascii.eqb (snd p) b) alphabet = true <-> In (a, b) alphabet.
Proof.
  rewrite existsb_exists. split.
  - intros ([x y] & I & E). apply andb_prop in E as [E1 E2]. apply Ascii.eqb_eq in E1, E2. cbn in E1, E2. now subst.
  - intro I. exists (a, b). split; [exact I|]. cbn. now rewrite !Ascii.eqb_refl.
Qed.
Lemma letter_spec a b : letter_eqb a b = true <-> same_letter a b.
Proof.
  unfold letter_eqb, same_letter. rewrite !orb_true_iff, Ascii.eqb_eq, !letter_in. tauto.
Qed.
Lemma letters_checked : forallb (fun i => forallb (fun j => Bool.eqb (letter_eqb (ascii_of_nat i) (ascii_of_nat j)) (Ascii.eqb (ReaderModel.lower_char (ascii_of_nat i)) (ReaderModel.lower_char (ascii_of_nat j)))) (seq 0 256)) (seq 0 256) = true.
Proof. vm_compute. reflexivity. Qed.
Lemma lower_letter a b : ReaderModel.lower_char a = ReaderModel.lower_char b <-> same_letter a b.
Proof.
  rewrite <- letter_spec, <- Ascii.eqb_eq. pose proof letters_checked as H. rewrite forallb_forall in H.
  specialize (H (nat_of_ascii a)). rewrite forallb_forall in H. specialize (fun A => H A (nat_of_ascii b)).
  assert (A : forall c, In (nat_of_ascii c) (seq 0 256)) by (intro c; apply in_seq; pose proof (nat_ascii_bounded c); lia).
  specialize (H (A a) (A b)). apply eqb_prop in H. rewrite !ascii_nat_embedding in H. rewrite H. tauto.
Qed.
Lemma lower_word s : forall t, ReaderModel.lower s = ReaderModel.lower t <-> same_word s t.
Proof.
  unfold same_word. induction s as [|a s IH]; intros [|b t]; cbn [ReaderModel.lower list_ascii_of_string]; try (split; [discriminate|intro H; inversion H]).
  - split; constructor.
  - split.
    + intro H. injection H as H1 H2. constructor; [now apply lower_letter|now apply IH].
    + intro H. inversion H; subst. f_equal; [now apply lower_letter|now apply IH].
Qed.
Lemma choose_word avail s c c' : same_word c c' -> choose avail s c = choose avail s c'.
Proof. intro H. apply choose_case. now apply lower_word. Qed.
Lemma lower_again c : ReaderModel.lower_char c = c \/ In (c, ReaderModel.lower_char c) alphabet.
Proof.
  assert (H : forallb (fun i => letter_eqb (ascii_of_nat i) (ReaderModel.lower_char (ascii_of_nat i)) && (Ascii.eqb (ReaderModel.lower_char (ascii_of_nat i)) (ascii_of_nat i) || existsb (fun p => Ascii.eqb (fst p) (ascii_of_nat i) && Ascii.eqb (snd p) (ReaderModel.lower_char (ascii_of_nat i))) alphabet)) (seq 0 256) = true) by (vm_compute; reflexivity).
  rewrite forallb_forall in H. specialize (H (nat_of_ascii c)). rewrite ascii_nat_embedding in H.
  assert (A : In (nat_of_ascii c) (seq 0 256)) by (apply in_seq; pose proof (nat_ascii_bounded c); lia).
  apply H in A. apply andb_prop in A as [_ A]. apply orb_prop in A as [A|A]; [left; now apply Ascii.eqb_eq|right; now apply letter_in].
Qed.

Lemma io_lower s : IoModel.lower s = ReaderModel.lower s.
Proof. reflexivity. Qed.
Lemma ends_lower name e : ReaderModel.lower e = e -> (endswith (IoModel.lower name) e = true <-> ends_as name e).
Proof.
  intro L. split.
  - induction name as [|c s IH]; cbn [IoModel.lower endswith].
    + destruct (String.eqb_spec "" e) as [<-|]; [|discriminate]. intros _. exists ""%string, ""%string. split; [reflexivity|]. constructor.
    + destruct (String.eqb_spec (String (IoModel.lower_char c) (IoModel.lower s)) e) as [E|].
      * intros _. exists ""%string, (String c s). split; [reflexivity|]. apply lower_word. rewrite L. exact E.
      * intro H. destruct (IH H) as (a & b & -> & W). exists (String c a), b. split; [reflexivity|exact W].
  - intros (a & b & -> & W). apply lower_word in W. rewrite L in W. induction a as [|c a IH]; cbn [String.append].
    + rewrite io_lower, W. destruct e; cbn; now rewrite ?Ascii.eqb_refl, ?String.eqb_refl.
    + cbn [IoModel.lower endswith]. destruct (String.eqb _ _); [reflexivity|exact IH].
Qed.
Lemma auto_sdf name solver om dx t n :
  (ends_as name ".sdf" -> kspace_call name "auto" solver om dx t n = kspace_call name "epoch" solver om dx t n) /\
  (~ ends_as name ".sdf" -> kspace_call name "auto" solver om dx t n = kspace_call name "default" solver om dx t n).
Proof.
  rewrite kspace_auto. pose proof (ends_lower name ".sdf" eq_refl) as H. destruct (endswith (IoModel.lower name) ".sdf"); split; intro A; try reflexivity.
  - exfalso. apply A. now apply H.
  - apply H in A. discriminate.
Qed.
Lemma other_names spl unstag fmt disk fname f : ~ ends_as fname "npz" -> load_field spl disk fname = Err ValueError /\
  (~ ends_as fname "csv" -> ~ ends_as fname "vtk" -> export_field spl unstag fmt fname f = Err ValueError).
Proof.
  intro A. assert (F : forall e, ReaderModel.lower e = e -> ~ ends_as fname e -> endswith (IoModel.lower fname) e = false).
  { intros e L B. apply not_true_is_false. intro C. apply B. now apply ends_lower. }
  unfold load_field, export_field. rewrite (F "npz"%string eq_refl A). split; [reflexivity|]. intros B C. now rewrite (F "csv"%string eq_refl B), (F "vtk"%string eq_refl C).
Qed.
Lemma ends_ext name e : String.length e = 3%nat -> ReaderModel.lower e = e -> ends_as name e -> exists a b, name = (a ++ b)%string /\ String.length b = 3%nat /\ IoModel.lower b = e.
Proof.
  intros L E (a & b & N & W). apply lower_word in W. rewrite E in W. exists a, b. split; [exact N|]. split; [|exact W]. rewrite <- (lower_len b). now rewrite io_lower, W.
Qed.
Lemma export_dispatch spl unstag fmt fname f :
  (ends_as fname "csv" -> forall l, export_csv fmt (f_data f) = Ok l -> export_field spl unstag fmt fname f = Ok (fname, FText l)) /\
  (ends_as fname "vtk" -> forall v, export_scalars spl unstag true false [f] = Ok v -> export_field spl unstag fmt fname f = Ok (fname, FVtk v)) /\
  (ends_as fname "npz" -> forall z, export_npz f = Ok z ->
     ((exists stem, fname = (stem ++ ".npz")%string) -> export_field spl unstag fmt fname f = Ok (fname, FNpz z)) /\
     ((~ exists stem, fname = (stem ++ ".npz")%string) -> export_field spl unstag fmt fname f = Ok ((fname ++ ".npz")%string, FNpz z))).
Proof.
  assert (W : forall s e, endswith s e = true <-> exists a, s = (a ++ e)%string).
  { intros s e. split; [|intros (a & ->); apply endswith_refl_app]. induction s as [|c s IH]; cbn [endswith].
    - destruct (String.eqb_spec "" e) as [<-|]; [|discriminate]. intros _. exists ""%string. reflexivity.
    - destruct (String.eqb_spec (String c s) e) as [<-|]; [intros _; exists ""%string; reflexivity|]. intro H. destruct (IH H) as (a & ->). exists (String c a). reflexivity. }
  split; [|split]; intros A x H; apply ends_ext in A as (a & b & -> & L & E); try reflexivity; rewrite export_by_name, E by exact L; cbn [String.eqb Ascii.eqb Bool.eqb]; rewrite H; try reflexivity. cbn [bind rmap]. unfold savez_name. specialize (W (a ++ b)%string ".npz"%string). destruct (endswith (a ++ b) ".npz"); split; intro X; try reflexivity.
  - exfalso. apply X. now apply W.
  - apply W in X. discriminate.
Qed.
Lemma load_dispatch spl disk fname z : ends_as fname "npz" -> disk fname = Some (FNpz z) -> load_field spl disk fname = import_npz spl z.
Proof.
  intros A H. apply ends_ext in A as (a & b & -> & L & E); try reflexivity. rewrite load_by_name, E by exact L. cbn [String.eqb Ascii.eqb Bool.eqb]. now rewrite H.
Qed.
Lemma capital_name spl unstag fmt f z : export_npz f = Ok z -> export_field spl unstag fmt "a.NPZ" f = Ok ("a.NPZ.npz"%string, FNpz z) /\ export_field spl unstag fmt "npz" f = Ok ("npz.npz"%string, FNpz z).
Proof. intro H. split; unfold export_field; cbn -[export_npz export_csv export_scalars]; rewrite H; reflexivity. Qed.
