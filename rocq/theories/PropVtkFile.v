(** Theorems about the bytes of VTK files: C109. *)
From Coq Require Import String Ascii List ZArith QArith Lia.
From Verif Require Import PyBase AxisModel AxisSpec NdModel FieldModel FieldSpec IoModel IoSpec IoVtk IoDemo VtkFileModel VtkFileSpec VtkFileFacts VtkFileLaws VtkFileDemo.
Import ListNotations.
Local Close Scope Q_scope.
Local Open Scope string_scope.

(** scalars: the file can be read, and holds the name, the values (rounded to float or double) and the
    coordinates of the points *)
Theorem C109_scalars_partial : forall text bin real number round, reads_text text real -> reads_bytes bin number round ->
  forall spl unstag unstagger skip old type size given (f0 : field Q) rest shown, on_one_grid f0 (f0 :: rest) -> nonempty (f_shape f0) -> 2 <= length (f_shape f0) <= 3 -> length rest <= 3 ->
  number_size type = Some size -> wanted given (l_name (f_top f0)) <> "" -> plain_name (wanted given (l_name (f_top f0))) -> underscored (wanted given (l_name (f_top f0))) shown ->
  exists s w, export_file text bin old type given (l_name (f_top f0)) (export_scalars spl unstag unstagger skip (f0 :: rest)) = (Some s, Ok tt) /\ read_vtk real number s = Some (shown, w) /\ v_kind w = Scalars /\
    lists_rounded (round size) (f0 :: rest) (S (length rest)) (f_shape f0) w /\ (Forall ascending_even (f_axes f0) -> locates_points f0 w) /\ (Exists (fun ax => islinear ax = Ok false) (f_axes f0) -> locates_rounded (round size) f0 w).
Proof. exact file_scalars. Qed.
Print Assumptions C109_scalars_partial.
Theorem C109_vectors_partial : forall text bin real number round, reads_text text real -> reads_bytes bin number round ->
  forall spl unstag unstagger skip old type size given (f0 : field Q) rest shown, on_one_grid f0 (f0 :: rest) -> nonempty (f_shape f0) -> 2 <= length (f_shape f0) <= 3 -> length rest <= 2 ->
  number_size type = Some size -> wanted given (l_name (f_top f0)) <> "" -> plain_name (wanted given (l_name (f_top f0))) -> underscored (wanted given (l_name (f_top f0))) shown ->
  exists s w, export_file text bin old type given (l_name (f_top f0)) (export_vector spl unstag 0%Q unstagger skip (f0 :: rest)) = (Some s, Ok tt) /\ read_vtk real number s = Some (shown, w) /\ v_kind w = Vectors /\
    lists_rounded (round size) (f0 :: rest) 3 (f_shape f0) w /\ (Forall ascending_even (f_axes f0) -> locates_points f0 w) /\ (Exists (fun ax => islinear ax = Ok false) (f_axes f0) -> locates_rounded (round size) f0 w).
Proof. exact file_vector. Qed.
Print Assumptions C109_vectors_partial.
Example C109_case : let f := demo_field [up2 "x"; bent "y"] in
  reads_text demo_text demo_real /\ reads_bytes demo_bin demo_number demo_round /\ on_one_grid f [f; f] /\ nonempty (f_shape f) /\ Exists (fun ax => islinear ax = Ok false) (f_axes f) /\
  wanted (Some "E x") (l_name (f_top f)) <> "" /\ plain_name (wanted (Some "E x") (l_name (f_top f))) /\ underscored (wanted (Some "E x") (l_name (f_top f))) "E_x" /\
  forall spl unstag, exists s w, export_file demo_text demo_bin None "float" (Some "E x") (l_name (f_top f)) (export_scalars spl unstag true false [f; f]) = (Some s, Ok tt) /\
    read_vtk demo_real demo_number s = Some ("E_x", w) /\ v_values w = map inject_Z [0; 0; 10; 10; 1; 1; 11; 11; 2; 2; 12; 12]%Z.
Proof.
  cbv zeta. split; [exact demo_reads_text|]. split; [exact demo_reads_bytes|]. split.
  { intros g I. assert (g = demo_field [up2 "x"; bent "y"]) as -> by (destruct I as [<- | [<- | []]]; reflexivity). split; [|split; reflexivity]. apply demo_ready, Forall_cons; [apply up2_proper|apply Forall_cons; [apply bent_proper|apply Forall_nil]]. }
  split; [repeat constructor|]. split; [right; left; reflexivity|]. split; [discriminate|]. split; [cbn; repeat split; auto; lia|]. split; [cbn; repeat split; ((now left) || (right; split; [discriminate|reflexivity]))|].
  intros spl unstag. eexists. eexists. split; [reflexivity|]. split; reflexivity.
Qed.
(** whatever belongs together is read as written *)
Theorem C109_roundtrip : forall text bin real number round, reads_text text real -> reads_bytes bin number round ->
  forall old type size given field_name v shown, number_size type = Some size -> wanted given field_name <> "" -> plain_name (wanted given field_name) -> underscored (wanted given field_name) shown -> fits v ->
  exists s, export_file text bin old type given field_name (Ok v) = (Some s, Ok tt) /\ read_vtk real number s = Some (shown, rounded (round size) v).
Proof. exact export_read. Qed.
Print Assumptions C109_roundtrip.
Example C109_roundtrip_case : fits (mkVtk (Structured [2; 1; 1]%Z [0; 0; 0]%Q [1; 1; 1]%Q) 2 Vectors 3 [1; 2; 3; 4; 5; 6]%Q) /\ fits (mkVtk (Rectilinear [[1; 2]; [0]; [0]]%Q) 2 Scalars 1 [5; 6]%Q) /\ wanted (Some "") "Ex" = "Field" /\ wanted None "Ex" = "Ex".
Proof. repeat split; cbn; lia. Qed.
(** a type that is not known leaves the file alone *)
Theorem C109_type : forall text bin old type given field_name data, number_size type = None -> exists e, export_file text bin old type given field_name data = (old, Err e).
Proof. exact file_type. Qed.
Print Assumptions C109_type.
Example C109_type_case : number_size "int" = None.
Proof. reflexivity. Qed.
(** refuted: the file of a field without a name cannot be read, although writing it succeeds *)
Theorem C109_unnamed_refuted : forall text bin real number round, reads_text text real -> reads_bytes bin number round ->
  forall old type size v, number_size type = Some size -> fits v -> exists s, export_file text bin old type None "" (Ok v) = (Some s, Ok tt) /\ read_vtk real number s = None.
Proof. exact file_unnamed. Qed.
Print Assumptions C109_unnamed_refuted.
(** refuted: tabs and line breaks in a name are kept, so that the name is never read again *)
Theorem C109_blanks_refuted : forall text bin real number old type given field_name v s x name w, has_char breaking (wanted given field_name) ->
  export_file text bin old type given field_name (Ok v) = (Some s, x) -> read_vtk real number s = Some (name, w) -> ~ underscored (wanted given field_name) name.
Proof. exact file_blank. Qed.
Print Assumptions C109_blanks_refuted.
Example C109_blanks_case : exists s w, export_file demo_text demo_bin None "float" (Some (String "009" "E")) "" (Ok (mkVtk (Structured [1; 1; 1]%Z [0; 0; 0]%Q [1; 1; 1]%Q) 1 Scalars 1 [5]%Q)) = (Some s, Ok tt) /\
  read_vtk demo_real demo_number s = Some ("E", w) /\ has_char breaking (wanted (Some (String "009" "E")) "").
Proof. eexists. eexists. split; [reflexivity|]. split; [reflexivity|]. now left. Qed.
(** refuted: a name outside ascii is noticed after the file has been opened; what it held is lost *)
Theorem C109_atomic_refuted : forall text bin real number round, reads_text text real -> reads_bytes bin number round ->
  forall old type size given field_name v, number_size type = Some size -> fits v -> has_char (fun c => (128 <=? nat_of_ascii c)%nat) (wanted given field_name) ->
  exists s, export_file text bin old type given field_name (Ok v) = (Some s, Err ValueError) /\ read_vtk real number s = None.
Proof. exact file_foreign. Qed.
Print Assumptions C109_atomic_refuted.
Example C109_atomic_case : has_char (fun c => (128 <=? nat_of_ascii c)%nat) (wanted None (String "E" (String "228" ""))).
Proof. right. now left. Qed.
