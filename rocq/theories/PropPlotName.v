(** Property theorems about the names of saved plots (C98). *)
From Coq Require Import Ascii Lia.
From Verif Require Import PyBase PlotNameModel PlotNameSpec PlotNameFacts.
Local Open Scope string_scope.

(** ** C98 *)
(** As long as nothing is assigned to the plotter and its reader, every call gives a name, and no two
    calls give the same, whatever the keys and the extensions are. *)
Theorem C98_fixed : forall a calls, Forall (fun r => exists f, r = Ok f) (saved (map (pair a) calls) []) /\ distinct_files (saved (map (pair a) calls) []).
Proof. exact files_fixed. Qed.
Print Assumptions C98_fixed.
(** ... and all lie in the directory given, whatever the keys contain. *)
Theorem C98_directory : forall a calls i key ext, nth_error calls i = Some (key, ext) -> exists f, nth_error (saved (map (pair a) calls) []) i = Some (Ok f) /\ file_in (p_outdir a) (extension a ext) f.
Proof. exact file_fixed. Qed.
Print Assumptions C98_directory.
Example C98_fixed_case : saved (map (pair (mkattrs "out/" (Some "p") "run/1" "png")) [("a b", None); ("a b", None); ("x", Some "pdf"); ("x", Some "")]) []
  = [Ok "out/p_run_1_0_ab.png"; Ok "out/p_run_1_1_ab.png"; Ok "out/p_run_1_2_x.pdf"; Ok "out/p_run_1_3_x.png"].
Proof. vm_compute. reflexivity. Qed.
(** If directory, project and name of the reader are changed in between, plots with the same extension
    still do not overwrite each other. *)
Theorem C98_extension : forall calls e, Forall (fun c => snd (snd c) = None /\ p_ext (fst c) = e) calls -> distinct_files (saved calls []).
Proof. exact files_same. Qed.
Print Assumptions C98_extension.
Example C98_extension_case : let old := mkattrs "" (Some "p") "r" "png" in let new := mkattrs "" (Some "p") "r_0" "png" in let calls := [(old, ("1_x", None)); (new, ("x", None)); (mkattrs "" None "" "png", ("y", None))] in
  Forall (fun c => snd (snd c) = None /\ p_ext (fst c) = "png") calls /\ saved calls [] = [Ok "p_r_0_1_x.png"; Ok "p_r_0_1_x_1.png"; Ok "__2_y.png"].
Proof. split; [repeat constructor|vm_compute; reflexivity]. Qed.
(** Without percent signs there is always a name, it was not used, and it lies in the directory. *)
Theorem C98_found : forall a key ext used, plain_names a key -> exists n, savename a key ext used = ((used ++ [n])%list, Ok (n ++ "." ++ extension a ext)) /\ ~ In n used /\ file_in (p_outdir a) (extension a ext) (n ++ "." ++ extension a ext).
Proof. exact savename_plain. Qed.
Print Assumptions C98_found.
(** The names in use are distinct, and there is one for every name given. *)
Theorem C98_counted : forall calls, NoDup (used_after calls []) /\ length (used_after calls []) = length (filter is_file (saved calls [])).
Proof. exact (fun calls => conj (used_distinct calls [] (NoDup_nil _)) (used_count calls [])). Qed.
Print Assumptions C98_counted.
Example C98_found_case : plain_names (mkattrs "" None "r" "png") "x" /\ savename (mkattrs "" None "r" "png") "x" None ["a"; "_r_2_x"] = (["a"; "_r_2_x"; "_r_2_x_1"], Ok "_r_2_x_1.png").
Proof. split; [repeat split; discriminate|vm_compute; reflexivity]. Qed.
(** lastsavename gives the last name without its extension, and does not use another. *)
Theorem C98_last : forall a key ext used used' f b, savename a key ext used = (used', Ok f) -> exists n, lastsavename b used' = (used', Ok n) /\ f = n ++ "." ++ extension a ext.
Proof. exact last_is. Qed.
Print Assumptions C98_last.
Example C98_last_case : savename (mkattrs "" None "r" "png") "x" None [] = (["_r_0_x"], Ok "_r_0_x.png") /\ lastsavename (mkattrs "" None "r" "png") ["_r_0_x"] = (["_r_0_x"], Ok "_r_0_x").
Proof. split; vm_compute; reflexivity. Qed.
(** Full statement: lastsavename gives the same, however often it is called.  False: before any plot is
    saved, the first call makes up a name and gives it with the extension, later ones without. *)
Theorem C98_last_refuted : forall a, exists f n, snd (lastsavename a []) = Ok f /\ snd (lastsavename a (fst (lastsavename a []))) = Ok n /\ f = n ++ "." ++ p_ext a /\ f <> n.
Proof. exact last_first_case. Qed.
Print Assumptions C98_last_refuted.
(** Full statement: there is always a name.  False: a percent sign in the name makes the search for
    another one fail, when the name is taken. *)
Theorem C98_percent_refuted : exists a b key key', snd (savename a key None []) = Ok "p_r_0_1_50%.png" /\ snd (savename b key' None (fst (savename a key None []))) = Err ValueError.
Proof. exists (mkattrs "" (Some "p") "r" "png"), (mkattrs "" (Some "p") "r_0" "png"), "1_50%", "50%". split; vm_compute; reflexivity. Qed.
Print Assumptions C98_percent_refuted.
(** Full statement: no two calls give the same file.  False, if extensions are given and the reader is
    renamed. *)
Theorem C98_overwrite_refuted : exists a b key key' ext ext' f, saved [(a, (key, Some ext)); (b, (key', Some ext'))] [] = [Ok f; Ok f].
Proof. exists (mkattrs "" (Some "p") "r" "png"), (mkattrs "" (Some "p") "r_0" "png"), "1_x", "x.b", "b.png", "png", "p_r_0_1_x.b.png". vm_compute. reflexivity. Qed.
Print Assumptions C98_overwrite_refuted.
