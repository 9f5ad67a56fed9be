(** Cases for the theorems about the bookkeeping of selections. *)
From Verif Require Import PyBase NdModel LogModel LogSpec.
Local Open Scope string_scope.
(** electrons and ions, with three and two particles *)
Definition demo_ms : mlog := mkMlog [mkSlog "electron" 3 SelAll []; mkSlog "ion" 2 SelAll []] [] None.
(** 'x > 0', true for every second particle *)
Definition demo_cond : cond := mkCond "x > 0" "x > 0" None (fun s => Ok (firstn (slen s) [true; false; true])).
Definition demo_steps : list step := [Invert; Uncompress; Compress [true; true; false; false; true] "mine"; Filter demo_cond (Some "right half")].
Definition demo_end : mlog :=
  mkMlog [mkSlog "electron" 3 (SelMask [true; false; false]) ["mine"; "right half"]; mkSlog "ion" 2 (SelMask [false; true]) ["mine"; "right half"]] ["mine"; "x > 0"] None.
Definition demo_twice : mlog := madd (mkMlog [mkSlog "electron" 1 (SelMask [true]) ["a"]] ["a"] None) (mkMlog [mkSlog "electron" 1 (SelMask [false]) ["b"]] ["b"] None).
Definition demo_named_all : mlog := mkMlog [mkSlog "all" 1 SelAll []] ["a"] None.
Lemma filter_name_lost : exists m c n m', mfilter c (Some n) m = Ok m' /\ (forall s, In s (ml_all m') -> In n (sl_log s)) /\ ~ In n (ml_log m').
Proof.
  exists demo_ms, demo_cond, "right half". eexists. split; [reflexivity|]. split.
  - cbn. intros s [<-|[<-|[]]]; now left.
  - cbn. intros [H|[]]. discriminate.
Qed.
Lemma add_log_lost : exists a b n, In n (ml_log b) /\ ~ In n (ml_log (madd a b)) /\ ml_log (madd a b) <> ml_log (madd b a).
Proof. exists demo_ms, demo_end, "mine". cbn. repeat split; [now left|tauto|discriminate]. Qed.
Lemma initial_lost : exists m, fresh m /\ npart m = 5%nat /\ initial_npart (minvert m) = Err TypeError /\ shows (minvert m) = Err TypeError.
Proof. exists demo_ms. repeat split; destruct H as [<-|[<-|[]]]; reflexivity. Qed.
Lemma dict_hidden : (exists m s, In s (ml_all m) /\ dict_get (sl_name s) (getcompresslog m) <> Some (sl_log s)) /\ exists m, dict_get "all" (getcompresslog m) <> Some (ml_log m).
Proof.
  split.
  - exists demo_twice, (mkSlog "electron" 1 (SelMask [true]) ["a"]). split; [now left|]. vm_compute. discriminate.
  - exists demo_named_all. vm_compute. discriminate.
Qed.
