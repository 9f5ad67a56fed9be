(** What is written on a plot, and what the numbers there say (C118, C119). *)
From Coq Require Import DecimalString Decimal Ascii NArith.
From Verif Require Import PyBase NumpyModel PlotModel PlotNameModel PlotNameSpec PageModel.
Local Open Scope string_scope.

(** the texts at one place of a plot, in the order of writing *)
Definition at_place (w : surface) (p : place) (n : note) : Prop := fst (fst n) = w /\ snd (fst n) = p.
Inductive texts_at (w : surface) (p : place) : list note -> list string -> Prop :=
| at_none : texts_at w p [] []
| at_here : forall t l ts, texts_at w p l ts -> texts_at w p ((w, p, t) :: l) (t :: ts)
| at_other : forall n l ts, ~ at_place w p n -> texts_at w p l ts -> texts_at w p (n :: l) ts.
(** a text of digits, and its number *)
Definition reads (s : string) (n : N) : Prop := s <> "" /\ exists u, NilEmpty.uint_of_string s = Some u /\ N.of_uint u = n.
Definition signed (neg : bool) (q : Q) : Q := if neg then - q else q.
Definition minus (neg : bool) : string := if neg then "-" else "".
(** a text with one digit after the point *)
Definition shows_tenths (s : string) (v : Q) : Prop :=
  exists neg a b m n, s = minus neg ++ a ++ "." ++ b /\ String.length b = 1%nat /\ reads a m /\ reads b n /\ v == signed neg (inject_Z (Z.of_N m) + inject_Z (Z.of_N n) / 10).
(** a whole number, filled up with blanks to six characters *)
Definition shows_integer (s : string) (z : Z) : Prop :=
  exists k neg a n, s = blanks k ++ minus neg ++ a /\ reads a n /\ z = (if neg then - Z.of_N n else Z.of_N n)%Z /\ (6 <= String.length s)%nat /\ (k = 0%nat \/ String.length s = 6%nat).
(** a reader which tells time and step *)
Definition tells (r : reader) (t : Q) (s : Z) : Prop := r_time r = Ok (PFloat t) /\ r_step r = Ok (PInt s).
(** the pages of the calls that succeeded *)
Inductive pages_made (P : plotter) spl : list call -> list page -> Prop :=
| made_none : pages_made P spl [] []
| made_one : forall c cs pg pgs, page_of P (c_fuel c) spl (c_reduce c) (c_maxlen c) (c_kw c) (c_field c) = Ok pg -> pages_made P spl cs pgs -> pages_made P spl (c :: cs) (pg :: pgs)
| made_failed : forall c cs e pgs, page_of P (c_fuel c) spl (c_reduce c) (c_maxlen c) (c_kw c) (c_field c) = Err e -> pages_made P spl cs pgs -> pages_made P spl (c :: cs) pgs.
(** the pages made before the first exception, and this *)
Inductive pages_until {A} (make : A -> res page) : list A -> list page -> option exn -> Prop :=
| until_end : pages_until make [] [] None
| until_made : forall x l pg pgs e, make x = Ok pg -> pages_until make l pgs e -> pages_until make (x :: l) (pg :: pgs) e
| until_raised : forall x l e, make x = Err e -> pages_until make (x :: l) [] (Some e).
(** no file was written twice, and all are in the directory *)
Definition tidy (P : plotter) (st : session) : Prop :=
  NoDup (map fst (s_files st)) /\ Forall (file_in (p_outdir (p_attrs P)) (p_ext (p_attrs P))) (map fst (s_files st)).
(** these pages were saved in addition *)
Definition adds (st st' : session) (pgs : list page) : Prop := exists new, s_files st' = (s_files st ++ new)%list /\ map snd new = pgs.
