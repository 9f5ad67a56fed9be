(** Facts for the theorems which wrong programs had asked for. *)
From Coq Require Import Lia Permutation.
From Verif Require Import PyBase PyBaseFacts NumpyModel NdModel FieldModel HelperModel ParticleModel ParticleSpec ParticleFacts HistoryModel HistorySpec HistoryFacts HistoryLaws HistoryDemo.
From Verif Require LogModel LogSpec LogFacts LabelModel ListModel ListSpec ListLaws.

Lemma all_new sizes enum sr names w s : (forall l, Permutation l (enum l)) -> history sizes w s -> dumps_ok sizes names sr ->
  forall w1 h, ph_new_all enum sr names w = (w1, Ok h) ->
    h_sr h = sr /\ h_speciess h = names /\ let ids := nth (h_ids h) (w_ids w1) [] in NoDup ids /\ forall x, In x ids <-> exists d, In d sr /\ occurrences sizes names x d <> [].
Proof.
  intros En H D w1 h E. unfold ph_new_all in E. unfold mbind at 1 in E. destruct (ph_findids enum sr names w) as [w2 [ids|e]] eqn:F; [|discriminate].
  destruct (findids_ok sizes enum sr names w s En H D w2 ids F) as (_ & N & I). destruct (new_made sr names ids w2 w1 h E) as ((A & B & _ & _ & P) & _).
  split; [exact A|]. split; [exact B|]. cbv zeta. split; [exact (Permutation_NoDup P N)|]. intro x. rewrite <- I. split; apply Permutation_in; [now apply Permutation_sym|exact P].
Qed.
Lemma compress_logs n : forall l c l', LogModel.compress_all c n l = Ok l' -> map LogModel.sl_log l' = map (fun s => LogModel.sl_log s ++ [n])%list l.
Proof.
  induction l as [|s l IH]; intros c l' E; cbn [LogModel.compress_all] in E; [now injection E as <-|].
  apply bind_ok in E as (s' & E1 & E). apply bind_ok in E as (r' & E2 & E). injection E as <-. cbn [map]. rewrite (IH _ _ E2). f_equal.
  unfold LogModel.scompress in E1. destruct (_ =? _)%nat; [|discriminate]. now injection E1 as <-.
Qed.
Lemma compress_function f fname name m m' : LogModel.mcompressfn f fname name m = Ok m' ->
  exists c n, f m = Ok c /\ (forall g, fname = Some g -> n = g) /\ (fname = None -> n = name) /\ LogModel.ml_log m' = (LogModel.ml_log m ++ [n])%list /\
    map LogModel.sl_log (LogModel.ml_all m') = map (fun s => LogModel.sl_log s ++ [n])%list (LogModel.ml_all m) /\ LogModel.npart m' = LogModel.count (firstn (LogModel.npart m) c).
Proof.
  unfold LogModel.mcompressfn. intro E. apply bind_ok in E as (c & F & E). exists c, (match fname with Some n => n | None => name end).
  split; [exact F|]. split; [intros g ->; reflexivity|]. split; [intros ->; reflexivity|].
  pose proof (proj2 (LogFacts.compress_count m c _) m' E) as [_ N]. unfold LogModel.mcompress in E. apply bind_ok in E as (l & El & E). injection E as <-. cbn [LogModel.ml_log LogModel.ml_all].
  split; [reflexivity|]. split; [exact (compress_logs _ _ _ _ El)|exact N].
Qed.
Lemma reader_texts : (forall t, LabelModel.reader_name (LabelModel.mknamed (LabelModel.PText t) LabelModel.PNone) = LabelModel.PText t) /\
  LabelModel.reader_name (LabelModel.mknamed LabelModel.PNone LabelModel.PNone) = LabelModel.PText "None" /\
  forall b t, LabelModel.reader_name (LabelModel.mknamed (LabelModel.POther b t) LabelModel.PNone) = LabelModel.PText t.
Proof. repeat split. Qed.
Lemma component_names (D P : Type) data (shape : D -> list Z) points r mag c (o : ListModel.opts P) s : ListModel.o_theta o = None -> ListModel.o_Ntheta o = None -> ListModel.component data shape points r mag c o = Ok s ->
  In (mag, c, ListModel.sh_name s) [(false, ListModel.X, "Ex"); (false, ListModel.Y, "Ey"); (false, ListModel.Z_, "Ez"); (false, ListModel.R_, "Er"); (false, ListModel.Theta, "Etheta");
    (true, ListModel.X, "Bx"); (true, ListModel.Y, "By"); (true, ListModel.Z_, "Bz"); (true, ListModel.R_, "Br"); (true, ListModel.Theta, "Btheta")]%string.
Proof.
  intros T N E. destruct (ListLaws.component_plain data shape points r mag c o s T N E) as (key & _ & _ & S & _). rewrite S. destruct mag, c; cbn; tauto.
Qed.
