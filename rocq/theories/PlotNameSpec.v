(** Specifications for C98. *)
From Coq Require Import Ascii.
From Verif Require Import PyBase PlotNameModel.
Local Open Scope string_scope.

(** The character does not occur in the text. *)
Fixpoint without (c : ascii) (s : string) : Prop := match s with EmptyString => True | String x r => x <> c /\ without c r end.
(** No two calls gave the same file. *)
Definition distinct_files (l : list (res string)) : Prop :=
  forall i j f, nth_error l i = Some (Ok f) -> nth_error l j = Some (Ok f) -> i = j.
(** The file lies in the directory and not below it, and ends like this. *)
Definition file_in (dir ext f : string) : Prop := exists t, f = dir ++ t ++ "." ++ ext /\ without "/" t /\ without " " t.
Definition is_file (r : res string) : bool := match r with Ok _ => true | Err _ => false end.
(** No percent sign in any of the parts of the name. *)
Definition plain_names (a : attrs) (key : string) : Prop := without "%" (p_outdir a) /\ without "%" (project a) /\ without "%" (p_reader a) /\ without "%" key.
