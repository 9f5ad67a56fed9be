(** Theorems which wrong programs had asked for: C39, C103, C112, C126. *)
From Coq Require Import Permutation.
From Verif Require Import PyBase NumpyModel NdModel FieldModel HelperModel ParticleModel ParticleSpec HistoryModel HistorySpec HistoryDemo TightFacts.
From Verif Require LogModel LogDemo LabelModel ListModel.

(** a history made without ids follows every id of every dump, each once *)
Theorem C39_all_new : forall sizes enum sr names w s, (forall l, Permutation l (enum l)) -> history sizes w s -> dumps_ok sizes names sr ->
  forall w1 h, ph_new_all enum sr names w = (w1, Ok h) ->
    h_sr h = sr /\ h_speciess h = names /\ let ids := nth (h_ids h) (w_ids w1) [] in NoDup ids /\ forall x, In x ids <-> exists d, In d sr /\ occurrences sizes names x d <> [].
Proof. exact all_new. Qed.
Print Assumptions C39_all_new.
Example C39_all_new_case : exists w1 h, ph_new_all (fun l => l) two ["e"%string] empty_world = (w1, Ok h) /\ nth (h_ids h) (w_ids w1) [] = [7; 3; 10; 5]%Z.
Proof. eexists. eexists. split; vm_compute; reflexivity. Qed.
(** the names of the components *)
Theorem C103_names : forall (D P : Type) data (shape : D -> list Z) points r mag c (o : ListModel.opts P) s, ListModel.o_theta o = None -> ListModel.o_Ntheta o = None -> ListModel.component data shape points r mag c o = Ok s ->
  In (mag, c, ListModel.sh_name s) [(false, ListModel.X, "Ex"); (false, ListModel.Y, "Ey"); (false, ListModel.Z_, "Ez"); (false, ListModel.R_, "Er"); (false, ListModel.Theta, "Etheta");
    (true, ListModel.X, "Bx"); (true, ListModel.Y, "By"); (true, ListModel.Z_, "Bz"); (true, ListModel.R_, "Br"); (true, ListModel.Theta, "Btheta")]%string.
Proof. exact component_names. Qed.
Print Assumptions C103_names.
Example C103_names_case : exists s, ListModel.component (fun _ => Ok [4; 5]%Z) (fun d => d) (fun _ n => Ok (if String.eqb n "x" then 4 else 5)%Z) ListModel.OpenPMD false ListModel.Y
    (ListModel.mkopts (P := Q) None None None) = Ok s /\ ListModel.sh_name s = "Ey"%string.
Proof. eexists. split; vm_compute; reflexivity. Qed.
(** compress with a function: the logs get the name of the function, or the name given if it has none,
    and what is left is what the function said *)
Theorem C112_function : forall f fname name m m', LogModel.mcompressfn f fname name m = Ok m' ->
  exists c n, f m = Ok c /\ (forall g, fname = Some g -> n = g) /\ (fname = None -> n = name) /\ LogModel.ml_log m' = (LogModel.ml_log m ++ [n])%list /\
    map LogModel.sl_log (LogModel.ml_all m') = map (fun s => LogModel.sl_log s ++ [n])%list (LogModel.ml_all m) /\ LogModel.npart m' = LogModel.count (firstn (LogModel.npart m) c).
Proof. exact compress_function. Qed.
Print Assumptions C112_function.
Example C112_function_case : exists m', LogModel.mcompressfn (fun _ => Ok [true; true; false; false; true]) (Some "fast"%string) "unknown" LogDemo.demo_ms = Ok m' /\ LogModel.npart m' = 3%nat.
Proof. eexists. split; vm_compute; reflexivity. Qed.
(** a reader without a name is called like its identifier, as a text *)
Theorem C126_identifier : (forall t, LabelModel.reader_name (LabelModel.mknamed (LabelModel.PText t) LabelModel.PNone) = LabelModel.PText t) /\
  LabelModel.reader_name (LabelModel.mknamed LabelModel.PNone LabelModel.PNone) = LabelModel.PText "None" /\
  forall b t, LabelModel.reader_name (LabelModel.mknamed (LabelModel.POther b t) LabelModel.PNone) = LabelModel.PText t.
Proof. exact reader_texts. Qed.
Print Assumptions C126_identifier.
