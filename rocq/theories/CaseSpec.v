(** Words which differ only in capitals. *)
From Coq Require Import Ascii String List.

(** the letters, capital and small *)
Definition alphabet : list (ascii * ascii) :=
  combine (list_ascii_of_string "ABCDEFGHIJKLMNOPQRSTUVWXYZ") (list_ascii_of_string "abcdefghijklmnopqrstuvwxyz").
(** the same letter, or the same character *)
Definition same_letter (a b : ascii) : Prop := a = b \/ In (a, b) alphabet \/ In (b, a) alphabet.
(** as many characters, each the same letter *)
Definition same_word (s t : string) : Prop := Forall2 same_letter (list_ascii_of_string s) (list_ascii_of_string t).
(** the name ends with the text, in capitals or not *)
Definition ends_as (name ending : string) : Prop := exists a b, name = (a ++ b)%string /\ same_word b ending.
