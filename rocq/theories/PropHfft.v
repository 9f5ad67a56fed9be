(** Theorems about the helper for Fourier transforms (C124) and a series of dumps as a sequence (C125). *)
From Coq Require Import Lia.
From Verif Require Import PyBase NdModel FieldModel ReaderModel HfftModel HfftSpec HfftFacts SequenceModel SequenceFacts.

(** * C124 *)
(** after any calls, a listed transform is the one of the module with the keywords of the caller, and
    the defaults where the caller gives none *)
Theorem C124_call : forall V (module : string -> option (pyfun V)) kwargs h l name f args kw, NoDup (map fst kwargs) -> NoDup (map fst kw) -> fft_init module kwargs = Ok h -> In name fft_functions -> module name = Some f ->
  exists all, filled kwargs kw all /\ snd (fft_call name args kw (fft_calls l h)) = f args all.
Proof. exact @helper_call. Qed.
Print Assumptions C124_call.
(** with numpy.fft there are no defaults, and every function is that of the module *)
Theorem C124_numpy : forall V (module : string -> option (pyfun V)) h l name f args kw, NoDup (map fst kw) -> fft_init module [] = Ok h -> module name = Some f ->
  snd (fft_call name args kw (fft_calls l h)) = f args kw.
Proof. exact @helper_numpy. Qed.
Print Assumptions C124_numpy.
(** everything else is passed on as it is; a name which the module has not is an AttributeError *)
Theorem C124_other : forall V (module : string -> option (pyfun V)) kwargs h l name args kw, fft_init module kwargs = Ok h -> ~ In name fft_functions ->
  snd (fft_call name args kw (fft_calls l h)) = match module name with Some f => f args kw | None => Err AttributeError end.
Proof. exact @helper_other. Qed.
Print Assumptions C124_other.
Theorem C124_available : forall V (module : string -> option (pyfun V)) kwargs, (exists h, fft_init module kwargs = Ok h) <-> forall n, In n fft_functions -> module n <> None.
Proof. exact @helper_exists. Qed.
Print Assumptions C124_available.
(** a module whose functions return the number given as 'threads' *)
Definition threads_module (name : string) : option (pyfun Z) := Some (fun _ kw => match kget kw "threads" with Some n => Ok n | None => Err KeyError end).
(** rfftn is not in the list: alone of the transforms it is called without the defaults *)
Theorem C124_rfftn_refuted : exists (module : string -> option (pyfun Z)) kwargs h, fft_init module kwargs = Ok h /\ snd (fft_call "rfftn" [] [] h) = Err KeyError /\ snd (fft_call "irfftn" [] [] h) = Ok 1%Z /\ snd (fft_call "rfft" [] [] h) = Ok 1%Z.
Proof. exists threads_module, [("planner_effort"%string, 0%Z); ("threads"%string, 1%Z)]. eexists. repeat split. Qed.
Print Assumptions C124_rfftn_refuted.
Example C124_case : exists h, fft_init threads_module [("threads"%string, 1%Z)] = Ok h /\ snd (fft_call "fftn" [] [("threads"%string, 4%Z)] h) = Ok 4%Z /\
  snd (fft_call "fftn" [] [] (fft_calls [("fftn"%string, ([], [("threads"%string, 4%Z)]))] h)) = Ok 1%Z /\ NoDup (map fst [("threads"%string, 4%Z)]) /\ In "fftn"%string fft_functions.
Proof. eexists. split; [reflexivity|]. split; [reflexivity|]. split; [reflexivity|]. split; [constructor; [intros []|constructor]|]. cbn. tauto. Qed.

(** * C125 *)
Local Open Scope Z_scope.
(** whatever index returns is the position of the first dump which is the same *)
Theorem C125_index : forall D (same : D -> D -> bool) s v k, sim_index same s v = Ok k ->
  0 <= k < sim_len s /\ (exists d, sim_int s k = Ok d /\ same d v = true) /\ forall j, 0 <= j < k -> exists d, sim_int s j = Ok d /\ same d v = false.
Proof. exact @sim_index_found. Qed.
Print Assumptions C125_index.
(** if all files can be opened, membership and index are those of the list of the dumps *)
Theorem C125_contains : forall D (same : D -> D -> bool) F (op : F -> res D) v files ds, mapM op files = Ok ds -> sim_contains same (series op files) v = Ok (existsb (fun d => same d v) ds) /\
  ((exists i, sim_index same (series op files) v = Ok i) <-> existsb (fun d => same d v) ds = true) /\ (existsb (fun d => same d v) ds = false -> sim_index same (series op files) v = Err ValueError).
Proof. exact @series_contains. Qed.
Print Assumptions C125_contains.
(** files after the one which is found are not opened *)
Theorem C125_found : forall D (same : D -> D -> bool) F (op : F -> res D) v before f d after, Forall (fun x => exists e, op x = Ok e /\ same e v = false) before -> op f = Ok d -> same d v = true ->
  sim_index same (series op (before ++ f :: after)) v = Ok (Z.of_nat (length before)) /\ sim_contains same (series op (before ++ f :: after)) v = Ok true.
Proof. exact @series_found. Qed.
Print Assumptions C125_found.
Theorem C125_count : forall D (same : D -> D -> bool) F (op : F -> res D) v files ds, mapM op files = Ok ds -> sim_count same (series op files) v = Ok (Z.of_nat (length (filter (fun d => same d v) ds))).
Proof. exact @series_count. Qed.
Print Assumptions C125_count.
(** reversed() opens the files from the last to the first; exceptions come through *)
Theorem C125_reversed : forall D F (op : F -> res D) files, sim_reversed (series op files) = mapM op (rev files).
Proof. exact @series_reversed. Qed.
Print Assumptions C125_reversed.
(** a file whose opening raises IndexError hides all dumps after it *)
Theorem C125_hidden_refuted : forall D (same : D -> D -> bool) F (op : F -> res D) v before f after, Forall (fun x => exists e, op x = Ok e /\ same e v = false) before -> op f = Err IndexError ->
  sim_index same (series op (before ++ f :: after)) v = Err ValueError /\ sim_contains same (series op (before ++ f :: after)) v = Ok false.
Proof. exact @series_hidden. Qed.
Print Assumptions C125_hidden_refuted.
Example C125_case : let op z := if z =? 9 then Err IOError else if z =? 8 then Err IndexError else Ok z in
  sim_index Z.eqb (series op [5; 7; 7; 9]) 7 = Ok 1 /\ mapM op [5; 7; 7] = Ok [5; 7; 7] /\ sim_count Z.eqb (series op [5; 7; 7]) 7 = Ok 2 /\ sim_contains Z.eqb (series op [5; 7; 7]) 6 = Ok false /\
  sim_reversed (series op [5; 7; 6]) = Ok [6; 7; 5] /\ sim_contains Z.eqb (series op [5; 8; 7]) 7 = Ok false /\ Forall (fun x => exists e, op x = Ok e /\ (e =? 7) = false) [5].
Proof. intro op. do 6 (split; [reflexivity|]). constructor; [now exists 5|constructor]. Qed.
