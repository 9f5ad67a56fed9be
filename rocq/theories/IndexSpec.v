(** Specifications for C101. *)
From Verif Require Import PyBase IndexModel.
Local Open Scope string_scope.

(** The file f holds the object o under the key k. *)
Definition in_file {D A} (files : list (string * h5 D A)) (f k : string) (o : obj D A) : Prop := exists objs, In (f, objs) files /\ In (k, o) objs.
(** Every file has its own name and every object of a file its own key. *)
Definition proper_files {D A} (files : list (string * h5 D A)) : Prop := NoDup (map fst files) /\ Forall (fun f => NoDup (map fst (snd f))) files.
(** keys which the index leaves out on purpose *)
Definition left_out (k : string) : Prop := exists p, k = p ++ "latest_IDs".
Definition has_data {D A} (o : obj D A) : Prop := match o with Group _ => False | _ => True end.
Definition at_or_below (k k' : string) : Prop := k' = k \/ exists t, k' = k ++ "/" ++ t.
(** No two files have data under the same key, nothing is below data, and no key is data here and a group
    there. *)
Definition no_clash {D A} (files : list (string * h5 D A)) : Prop :=
  forall f g k k' o o', in_file files f k o -> in_file files g k' o' -> ~ left_out k -> ~ left_out k' -> has_data o -> at_or_below k k' -> f = g /\ k' = k.
(** Groups of the same key have the same attributes. *)
Definition groups_agree {D A} (files : list (string * h5 D A)) : Prop :=
  forall f g k a b, in_file files f k (Group a) -> in_file files g k (Group b) -> a = b.
(** The object can be found in the directory as a whole. *)
Definition present {D A} (files : list (string * h5 D A)) (k : string) (o : obj D A) : Prop := exists f, in_file files f k o /\ ~ left_out k.
Definition after {D A} (es : list (event D A)) (d : dir D A) : dir D A := fold_left happen es d.
