(** What the theorems about the bookkeeping of selections speak of. *)
From Verif Require Import PyBase LogModel.

(** what is written down for a step in the log of the whole, and in the log of each species *)
Definition entry (s : step) : list string :=
  match s with Compress _ n => [n] | Filter c _ => [c_text c] | Invert => ["inverted"%string] | Uncompress => [] end.
Definition entry_of_species (s : step) : list string :=
  match s with
  | Compress _ n => [n]
  | Filter c (Some n) => [n]
  | Filter c None => [match c_name c with Some n => n | None => c_expr c end]
  | Invert => ["inverted"%string]
  | Uncompress => []
  end.
(** the steps since the selection was last undone, if it ever was *)
Definition last_part (l post : list step) : Prop := (exists pre, l = pre ++ Uncompress :: post) /\ ~ In Uncompress post.
(** the particles of a species taken, numbered as in the dump *)
Definition taken (s : slog) (i : nat) : Prop :=
  (i < sl_size s)%nat /\ match sl_sel s with SelAll => True | SelNothing => False | SelMask b => nth i b false = true end.
(** nothing but selections of the particles of the dump *)
Definition sound (m : mlog) : Prop := forall s b, In s (ml_all m) -> sl_sel s = SelMask b -> length b = sl_size s.
Definition fresh (m : mlog) : Prop := ml_log m = [] /\ forall s, In s (ml_all m) -> sl_sel s = SelAll /\ sl_log s = [].
(** the number of particles in the dumps *)
Definition in_dumps (m : mlog) : nat := list_sum (map sl_size (ml_all m)).
