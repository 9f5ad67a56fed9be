(** C112: the bookkeeping of selections. *)
From Verif Require Import PyBase NdModel LogModel LogSpec LogFacts LogDemo.

(** the logs hold what was done since the last uncompress, in order *)
Theorem C112_logs_partial m l m' : run m l = Ok m' ->
  (~ In Uncompress l -> ml_log m' = (ml_log m ++ concat (map entry l))%list /\ map sl_log (ml_all m') = map (fun s => sl_log s ++ concat (map entry_of_species l))%list (ml_all m)) /\
  (forall post, last_part l post -> ml_log m' = concat (map entry post) /\ forall s, In s (ml_all m') -> sl_log s = concat (map entry_of_species post)).
Proof. exact (logs_law m l m'). Qed.
Print Assumptions C112_logs_partial.
Example C112_logs_case : run demo_ms demo_steps = Ok demo_end.
Proof. reflexivity. Qed.

(** no selection changes names, number of species, their label or what the dumps hold *)
Theorem C112_keeps m l m' : run m l = Ok m' -> speciess m' = speciess m /\ nspecies m' = nspecies m /\ in_dumps m' = in_dumps m /\ ml_label m' = ml_label m /\ (sound m -> sound m').
Proof. exact (run_keeps l m m'). Qed.
Print Assumptions C112_keeps.
Example C112_keeps_case : run demo_ms demo_steps = Ok demo_end /\ sound demo_ms.
Proof. split; [reflexivity|]. intros s b [<-|[<-|[]]]; discriminate. Qed.

(** a selection and its inverse together are everything *)
Theorem C112_counts m : sound m -> (npart m <= in_dumps m)%nat /\ (npart m + npart (minvert m) = in_dumps m)%nat /\ npart (muncompress m) = in_dumps m.
Proof. exact (counts_law m). Qed.
Print Assumptions C112_counts.
Theorem C112_inverse s i : (forall b, sl_sel s = SelMask b -> length b = sl_size s) -> (i < sl_size s)%nat -> (taken (sinvert s) i <-> ~ taken s i).
Proof. exact (taken_law s i). Qed.
Print Assumptions C112_inverse.
Example C112_counts_case : sound demo_end /\ npart demo_end = 2%nat /\ npart (minvert demo_end) = 3%nat /\ in_dumps demo_end = 5%nat.
Proof. repeat split. intros s b [<-|[<-|[]]] [= <-]; reflexivity. Qed.

(** a condition selects as many particles as it is true for; a short one is refused *)
Theorem C112_compress m c n : (length c = npart m -> exists m', mcompress c n m = Ok m') /\ (forall m', mcompress c n m = Ok m' -> (npart m <= length c)%nat /\ npart m' = count (firstn (npart m) c)) /\
  ((length c < npart m)%nat -> mcompress c n m = Err ValueError).
Proof. exact (conj (proj1 (compress_count m c n)) (conj (proj2 (compress_count m c n)) (compress_short m c n))). Qed.
Print Assumptions C112_compress.
Example C112_compress_case : npart demo_ms = length [true; true; false; false; true] /\ mcompress [true] "x" demo_ms = Err ValueError.
Proof. split; reflexivity. Qed.

(** the original number of particles, partial: it cannot be asked after inverting a species with nothing selected *)
Theorem C112_initial_partial m : sound m -> initial_npart m = (if existsb (fun s => match sl_sel s with SelNothing => true | _ => false end) (ml_all m) then Err TypeError else Ok (in_dumps m)).
Proof. exact (initial_law m). Qed.
Print Assumptions C112_initial_partial.
Example C112_initial_case : sound demo_end /\ initial_npart demo_end = Ok 5%nat.
Proof. split; [|reflexivity]. intros s b [<-|[<-|[]]] [= <-]; reflexivity. Qed.
Theorem C112_initial_refuted : exists m, fresh m /\ npart m = 5%nat /\ initial_npart (minvert m) = Err TypeError /\ shows (minvert m) = Err TypeError.
Proof. exact initial_lost. Qed.
Print Assumptions C112_initial_refuted.

(** getcompresslog shows the logs, if names are distinct *)
Theorem C112_dict_partial m : NoDup ("all"%string :: speciess m) -> dict_get "all" (getcompresslog m) = Some (ml_log m) /\ forall s, In s (ml_all m) -> dict_get (sl_name s) (getcompresslog m) = Some (sl_log s).
Proof. exact (dict_law m). Qed.
Print Assumptions C112_dict_partial.
Example C112_dict_case : getcompresslog demo_end = [("all", ["mine"; "x > 0"]); ("electron", ["mine"; "right half"]); ("ion", ["mine"; "right half"])]%string.
Proof. reflexivity. Qed.
(** of two species of the same name only the last one's log is shown; a species named 'all' hides the log of the whole *)
Theorem C112_dict_refuted : (exists m s, In s (ml_all m) /\ dict_get (sl_name s) (getcompresslog m) <> Some (sl_log s)) /\ exists m, dict_get "all" (getcompresslog m) <> Some (ml_log m).
Proof. exact dict_hidden. Qed.
Print Assumptions C112_dict_refuted.

(** a name given to filter reaches the logs of the species only *)
Theorem C112_filter_name_refuted : exists m c n m', mfilter c (Some n) m = Ok m' /\ (forall s, In s (ml_all m') -> In n (sl_log s)) /\ ~ In n (ml_log m').
Proof. exact filter_name_lost. Qed.
Print Assumptions C112_filter_name_refuted.

(** sums concatenate, but the log of the whole is that of the first *)
Theorem C112_add_partial a b : npart (madd a b) = (npart a + npart b)%nat /\ nspecies (madd a b) = (nspecies a + nspecies b)%nat /\ speciess (madd a b) = (speciess a ++ speciess b)%list /\ map sl_log (ml_all (madd a b)) = (map sl_log (ml_all a) ++ map sl_log (ml_all b))%list.
Proof. exact (add_law a b). Qed.
Print Assumptions C112_add_partial.
Theorem C112_add_refuted : exists a b n, In n (ml_log b) /\ ~ In n (ml_log (madd a b)) /\ ml_log (madd a b) <> ml_log (madd b a).
Proof. exact add_log_lost. Qed.
Print Assumptions C112_add_refuted.
Example C112_add_case : npart demo_twice = 1%nat /\ nspecies demo_twice = 2%nat.
Proof. split; reflexivity. Qed.

(** what is printed: how many of how many particles, if any is missing *)
Theorem C112_shows_partial m x : sound m -> shows m = Ok x -> match x with ShownAll n => n = npart m /\ n = in_dumps m | ShownPart n i => n = npart m /\ i = in_dumps m /\ (n < i)%nat end.
Proof. exact (shows_law m x). Qed.
Print Assumptions C112_shows_partial.
Example C112_shows_case : shows demo_end = Ok (ShownPart 2 5) /\ shows demo_ms = Ok (ShownAll 5).
Proof. split; reflexivity. Qed.
