(** How the examples write numbers: as text exactly, as bytes the whole part modulo 256 in the first
    byte, followed by filling. *)
From Coq Require Import String Ascii List ZArith QArith Lia DecimalString.
From Verif Require Import PyBase AxisModel AxisSpec NdModel FieldModel FieldSpec IoModel IoSpec IoFacts IoText IoVtk IoDemo VtkFileModel VtkFileSpec VtkFileFacts.
Import ListNotations.
Local Open Scope string_scope.

(** numerator and denominator in decimals *)
Definition demo_text (q : Q) : string := dec (Qnum q) ++ "/" ++ dec (Z.pos (Qden q)).
Fixpoint until_slash (s : string) : string * string :=
  match s with "" => ("", "") | String c r => if Ascii.eqb c "/" then ("", r) else let (a, b) := until_slash r in (String c a, b) end.
Definition demo_real (s : string) : option Q :=
  let (a, b) := until_slash s in match integer a, integer b with Some n, Some (Z.pos d) => Some (n # d) | _, _ => None end.
(** the whole part modulo 256 in one byte *)
Definition demo_byte (q : Q) : ascii := ascii_of_nat (Z.to_nat (Qnum q / Z.pos (Qden q) mod 256)).
Definition demo_round (size : nat) (q : Q) : Q := inject_Z (Qnum q / Z.pos (Qden q) mod 256).
Fixpoint filling (n : nat) : string := match n with O => "" | S m => String "000" (filling m) end.
Definition demo_bin (size : nat) (q : Q) : string := String (demo_byte q) (filling (size - 1)).
Definition demo_number (size : nat) (s : string) : option Q := match s with String c _ => Some (inject_Z (Z.of_nat (nat_of_ascii c))) | "" => None end.
Lemma uint_slash u r : until_slash (NilEmpty.string_of_uint u ++ String "/" r) = (NilEmpty.string_of_uint u, r).
Proof. induction u; cbn; [reflexivity|rewrite IHu; reflexivity ..]. Qed.
Lemma dec_slash z r : until_slash (dec z ++ String "/" r) = (dec z, r).
Proof. unfold dec. destruct (Z.to_int z) as [u|u]; cbn; [apply uint_slash|]. rewrite uint_slash. reflexivity. Qed.
Lemma no_blank_app a b : no_blank a -> no_blank b -> no_blank (a ++ b).
Proof. induction a; cbn; tauto. Qed.
Lemma demo_reads_text : reads_text demo_text demo_real.
Proof.
  intros [n d]. unfold demo_text. cbn [Qnum Qden]. split.
  - destruct (dec_word n) as [N1 B1]. destruct (dec_word (Z.pos d)) as [N2 B2]. split; [destruct (dec n); [congruence|discriminate]|]. apply no_blank_app; [exact B1|]. cbn. split; [reflexivity|]. split; [lia|exact B2].
  - unfold demo_real. change ("/" ++ dec (Z.pos d)) with (String "/" (dec (Z.pos d))). rewrite dec_slash, !dec_read. reflexivity.
Qed.
Lemma filling_length n : String.length (filling n) = n.
Proof. induction n; cbn; congruence. Qed.
Lemma demo_reads_bytes : reads_bytes demo_bin demo_number demo_round.
Proof.
  intros size q H. unfold demo_bin, demo_number, demo_round. split; [cbn [String.length]; rewrite filling_length; lia|]. unfold demo_byte. rewrite nat_ascii_embedding.
  - rewrite Z2Nat.id; [reflexivity|]. apply Z.mod_pos_bound. lia.
  - assert (B := Z.mod_pos_bound (Qnum q / Z.pos (Qden q)) 256 eq_refl). lia.
Qed.
