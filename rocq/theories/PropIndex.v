(** Property theorems about the index over the files of a Smilei simulation (C101). *)
From Coq Require Import Permutation.
From Verif Require Import PyBase IndexModel IndexSpec IndexFacts IndexDemo.
Local Open Scope string_scope.
Local Open Scope nat_scope.

(** ** C101 *)
(** If no two files have data of the same name, opening a directory for the first time succeeds, whatever
    the order of its files, and afterwards exactly the objects of the files can be found. *)
Theorem C101_complete : forall (D A : Type) (listing : list (string * h5 D A)) d, d_index d = None -> Permutation (d_files d) listing -> proper_files (d_files d) -> no_clash (d_files d) -> groups_agree (d_files d) ->
  exists d', getindex listing d = (d', Ok tt) /\ d_files d' = d_files d /\ forall k o, lookup d' k = Ok o <-> present (d_files d) k o.
Proof. exact @index_complete. Qed.
Print Assumptions C101_complete.
Example C101_complete_case : Permutation (d_files case_dir) [track; fields] /\ proper_files (d_files case_dir) /\ no_clash (d_files case_dir) /\ groups_agree (d_files case_dir) /\
  exists d', getindex [track; fields] case_dir = (d', Ok tt) /\ lookup d' "data/0000000000/Ey" = Ok (Dataset 2) /\ lookup d' "data/0000000000/mass" = Ok (Const 3) /\ lookup d' "latest_IDs" = Err KeyError.
Proof.
  split; [apply perm_swap|]. split; [split; [|repeat constructor]; cbn; repeat constructor; cbn; intuition discriminate|].
  split; [|split; [|eexists; repeat split; vm_compute; reflexivity]].
  - intros f g k k' o o' (a & I1 & J1) (b & I2 & J2) N N' H B. destruct I1 as [[= <- <-]|[[= <- <-]|[]]], I2 as [[= <- <-]|[[= <- <-]|[]]]; cbn in J1, J2;
      repeat match goal with X : _ \/ _ |- _ => destruct X | X : (_, _) = (_, _) |- _ => injection X as <- <- | X : False |- _ => destruct X end; cbn in H; try contradiction;
      try (split; reflexivity); exfalso; first [apply N; exists ""; reflexivity|apply N'; exists ""; reflexivity|destruct B as [B|[t B]]; discriminate B].
  - intros f g k a b (x & I1 & J1) (y & I2 & J2). destruct I1 as [[= <- <-]|[[= <- <-]|[]]], I2 as [[= <- <-]|[[= <- <-]|[]]]; cbn in J1, J2; intuition congruence.
Qed.
(** If two files have data of the same name, it raises. *)
Theorem C101_clash : forall (D A : Type) (listing : list (string * h5 D A)) d f g k o o', d_index d = None -> Permutation (d_files d) listing -> proper_files (d_files d) -> in_file (d_files d) f k o -> in_file (d_files d) g k o' -> has_data o -> has_data o' -> ~ left_out k -> f <> g ->
  exists e, snd (getindex listing d) = Err e.
Proof. exact @index_clash. Qed.
Print Assumptions C101_clash.
(** In every history of writing, opening and dying, data which is found is what a file holds under this
    name at that time. *)
Theorem C101_current : forall (D A : Type) (es : list (event D A)) files k o, lookup (after es (mkdir files None)) k = Ok o -> has_data o -> exists f, in_file (d_files (after es (mkdir files None))) f k o.
Proof. exact @data_current. Qed.
Print Assumptions C101_current.
Example C101_current_case : lookup (after [Open (fun l => l); Write "Fields0.h5" "data/0000000000/Ex" (Dataset 7)] case_dir) "data/0000000000/Ex" = Ok (Dataset 7).
Proof. vm_compute. reflexivity. Qed.
(** The index is never changed, so that what is missing once is missing for ever. *)
Theorem C101_forever : forall (D A : Type) (es : list (event D A)) d ih, d_index d = Some ih -> d_index (after es d) = Some ih.
Proof. exact @index_forever. Qed.
Print Assumptions C101_forever.
Theorem C101_missing : forall (D A : Type) (es : list (event D A)) d ih k, d_index d = Some ih -> lookup d k = Err KeyError -> find k ih = None -> lookup (after es d) k = Err KeyError.
Proof. exact @missing_forever. Qed.
Print Assumptions C101_missing.
(** Full statement: an opened directory shows all data of its files.  False for data written after the
    first opening, ... *)
Theorem C101_stale_refuted : exists (d : dir nat nat) es k o, present (d_files (after es d)) k o /\ forall more, lookup (after more (after es d)) k = Err KeyError.
Proof.
  exists case_dir, [Open (fun l => l); Write "Fields0.h5" "data/0000000100/Ex" (Dataset 8)], "data/0000000100/Ex", (Dataset 8). split.
  - exists "Fields0.h5". split; [|intro L; apply left_out_dec in L; discriminate L]. eexists. split; [left; reflexivity|]. vm_compute. tauto.
  - intro more. eapply missing_forever; vm_compute; reflexivity.
Qed.
Print Assumptions C101_stale_refuted.
(** ... false after the first opening was interrupted, which the second does not notice, ... *)
Theorem C101_killed_refuted : exists (d : dir nat nat) n k o, present (d_files d) k o /\ let d' := happen d (Killed n (fun l => l)) in snd (getindex (d_files d') d') = Ok tt /\ forall more, lookup (after more d') k = Err KeyError.
Proof.
  exists case_dir, 3, "data/0000000000/Ey", (Dataset 2). split.
  - exists "Fields0.h5". split; [|intro L; apply left_out_dec in L; discriminate L]. eexists. split; [left; reflexivity|]. vm_compute. tauto.
  - cbv zeta. split; [vm_compute; reflexivity|]. intro more. eapply missing_forever; vm_compute; reflexivity.
Qed.
Print Assumptions C101_killed_refuted.
(** ... and false after the first one raised because of data of the same name: the second succeeds. *)
Theorem C101_clash_refuted : exists (d : dir nat nat) listing, d_index d = None /\ snd (getindex listing d) = Err RuntimeError /\ snd (getindex listing (fst (getindex listing d))) = Ok tt /\ lookup (fst (getindex listing d)) "z" = Err KeyError /\ present (d_files d) "z" (Dataset 3).
Proof.
  exists (mkdir [("a.h5", [("x", Dataset 1)]); ("b.h5", [("x", Dataset 2); ("z", Dataset 3)])] None), [("a.h5", [("x", Dataset 1)]); ("b.h5", [("x", Dataset 2); ("z", Dataset 3)])]. repeat split; try (vm_compute; reflexivity).
  exists "b.h5". split; [eexists; split; [right; left; reflexivity|right; left; reflexivity]|]. intro L; apply left_out_dec in L; discriminate L.
Qed.
Print Assumptions C101_clash_refuted.
(** Full statement: what is found does not depend on the order of the files.  False for attributes of
    groups which differ between the files. *)
Theorem C101_order_refuted : exists (d : dir nat nat) l1 l2, d_index d = None /\ Permutation (d_files d) l1 /\ Permutation (d_files d) l2 /\ lookup (fst (getindex l1 d)) "data" = Ok (Group 1) /\ lookup (fst (getindex l2 d)) "data" = Ok (Group 2).
Proof.
  exists (mkdir [("a.h5", [("data", Group 1)]); ("b.h5", [("data", Group 2)])] None), [("a.h5", [("data", Group 1)]); ("b.h5", [("data", Group 2)])], [("b.h5", [("data", Group 2)]); ("a.h5", [("data", Group 1)])].
  split; [reflexivity|]. split; [apply Permutation_refl|]. split; [apply perm_swap|]. split; vm_compute; reflexivity.
Qed.
Print Assumptions C101_order_refuted.
(** Data below data of a file which comes earlier is an error. *)
Theorem C101_below : forall (D A : Type) (first later : list (string * h5 D A)) d f g k t o o', d_index d = None -> in_file first f k o -> in_file later g (k ++ "/" ++ t) o' -> has_data o -> has_data o' -> ~ left_out k -> ~ left_out (k ++ "/" ++ t) ->
  exists e, snd (getindex (first ++ later) d) = Err e.
Proof. exact @index_below. Qed.
Print Assumptions C101_below.
Example C101_below_case : snd (getindex [("a.h5", [("x", Dataset 1)]); ("b.h5", [("x/y", Dataset 2)])] (@mkdir nat nat [] None)) = Err RuntimeError /\ snd (getindex [("a.h5", [("x", Dataset 1)]); ("b.h5", [("xy", Dataset 2)])] (@mkdir nat nat [] None)) = Ok tt.
Proof. split; vm_compute; reflexivity. Qed.
(** Writing under a key changes what is found under this key only; data which is found and which one file
    only has is what was written last. *)
Theorem C101_writes : forall (D A : Type) (es : list (event D A)) files f k o, let d := after es (mkdir files None) in
  (forall k2, k2 <> k -> lookup (happen d (Write f k o)) k2 = lookup d k2) /\
  (forall o1, lookup d k = Ok o1 -> has_data o1 -> (forall f' o', in_file (d_files d) f' k o' -> f' = f) -> lookup (happen d (Write f k o)) k = Ok o).
Proof. exact @write_follows. Qed.
Print Assumptions C101_writes.
Example C101_writes_case : let d := after [Open (fun l => l)] case_dir in lookup d "data/0000000000/Ex" = Ok (Dataset 1) /\ lookup (happen d (Write "Fields0.h5" "data/0000000000/Ex" (Dataset 7))) "data/0000000000/Ex" = Ok (Dataset 7) /\ lookup (happen d (Write "Fields0.h5" "data/0000000000/Ex" (Dataset 7))) "data/0000000000/Ey" = Ok (Dataset 2).
Proof. vm_compute. repeat split. Qed.
