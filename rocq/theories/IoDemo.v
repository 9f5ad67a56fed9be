(** Concrete files. *)
From Coq Require Import String Ascii List ZArith QArith Lia Lqa Bool.
From Verif Require Import PyBase PyBaseFacts NumpyModel AxisModel AxisSpec AxisFacts NdModel NdFacts FieldModel FieldSpec IoModel IoSpec IoFacts IoText IoVtk.
Import ListNotations.

Definition demo_axis (nm : string) (node grid : list Q) : axis := made nm "m" node grid.
Definition demo_field (axes : list axis) : field Q :=
  let sh := map ax_len axes in mkField (mkarr sh (fun idx => inject_Z (fold_left (fun s i => 10 * s + i)%Z idx 0%Z))) (mkLayer axes (repeat (Some false) (length axes)) (repeat None (length axes)) "E" "V/m") [].
Lemma demo_ready axes : Forall axis_proper axes -> ready (demo_field axes).
Proof.
  intro H. split; [|split; [exact H|reflexivity]]. unfold consistent, f_shape, f_axes, f_ats, f_tao. cbn [demo_field f_data f_top a_shape l_axes l_ats l_tao].
  split; [now rewrite map_length|]. split; [|split; now rewrite map_length, repeat_length]. intros k ax n E1 E2. rewrite nth_error_map, E1 in E2. now injection E2.
Qed.
Definition up2 nm : axis := demo_axis nm [0; 1; 2]%Q [1 # 2; 3 # 2]%Q.
Definition up3 nm : axis := demo_axis nm [0; 1; 2; 3]%Q [1 # 2; 3 # 2; 5 # 2]%Q.
Definition bent nm : axis := demo_axis nm [0; 1; 4; 9]%Q [1 # 2; 2; 6]%Q.
Lemma cells3 node grid : (length node = S (length grid)) -> length grid = 3%nat -> (forall i, (i < 3)%nat -> (nth i node 0 <?q nth i grid 0) && (nth i grid 0 <?q nth (S i) node 0) = true) -> cells_up node grid.
Proof. intros L1 L H. split; [exact L1|]. rewrite L. intros i Hi. specialize (H i Hi). apply andb_prop in H as [H1 H2]. now apply Qltb_lt in H1, H2. Qed.
Lemma up2_proper nm : axis_proper (up2 nm).
Proof. left. apply made_up. split; [reflexivity|]. intros i Hi. cbn in Hi. destruct i as [|[|i]]; [cbn; lra|cbn; lra|lia]. Qed.
Lemma up3_proper nm : axis_proper (up3 nm).
Proof. left. apply made_up. split; [reflexivity|]. intros i Hi. cbn in Hi. destruct i as [|[|[|i]]]; [cbn; lra|cbn; lra|cbn; lra|lia]. Qed.
Lemma bent_proper nm : axis_proper (bent nm).
Proof. left. apply made_up. split; [reflexivity|]. intros i Hi. cbn in Hi. destruct i as [|[|[|i]]]; [cbn; lra|cbn; lra|cbn; lra|lia]. Qed.
Lemma up2_even nm : ascending_even (up2 nm).
Proof. exists (1 # 2), 1. split; [lra|]. split; intros i Hi; cbn in Hi; repeat (destruct i as [|i]; [cbn; reflexivity|]); lia. Qed.
Lemma up3_even nm : ascending_even (up3 nm).
Proof. exists (1 # 2), 1. split; [lra|]. split; intros i Hi; cbn in Hi; repeat (destruct i as [|i]; [cbn; reflexivity|]); lia. Qed.

Lemma npz_long_names : exists f : field Q, consistent f /\ Forall axis_proper (f_axes f) /\ length (f_axes f) = 1%nat /\ forall spl, exists z g, export_npz f = Ok z /\ import_npz spl z = Ok g /\ map ax_name (f_axes f) = ["px"%string] /\ map ax_name (f_axes g) = ["p"%string].
Proof.
  exists (demo_field [up2 "px"]). assert (P : Forall axis_proper [up2 "px"]) by (constructor; [apply up2_proper|constructor]). destruct (demo_ready _ P) as (C & _). split; [exact C|]. split; [exact P|]. split; [reflexivity|]. intro spl.
  destruct (npz_general spl (demo_field [up2 "px"]) C P) as (z & g & E1 & E2 & _ & _ & E3 & _); [discriminate|cbn; lia|]. exists z, g. split; [exact E1|]. split; [exact E2|]. split; [reflexivity|exact E3].
Qed.
Lemma npz_four : exists f : field Q, consistent f /\ Forall axis_proper (f_axes f) /\ length (f_axes f) = 4%nat /\ forall spl, exists z, export_npz f = Ok z /\ import_npz spl z = Err KeyError.
Proof.
  set (axes := [up2 "x"; up2 "y"; up2 "z"; up2 "t"]). exists (demo_field axes). assert (P : Forall axis_proper axes) by (unfold axes; repeat (apply Forall_cons; [apply up2_proper|]); apply Forall_nil). destruct (demo_ready _ P) as (C & _). split; [exact C|]. split; [exact P|]. split; [reflexivity|].
  intro spl. eexists. split; reflexivity.
Qed.
Lemma npz_capital : exists f : field Q, ready f /\ f_axes f <> [] /\ (length (f_axes f) <= 3)%nat /\ Forall (fun ax => short (ax_name ax) /\ short (ax_unit ax)) (f_axes f) /\
  forall spl unstag fmt disk, disk "a.NPZ"%string = None -> exists p, export_field spl unstag fmt "a.NPZ" f = Ok p /\ load_field spl (fun n => if String.eqb n (fst p) then Some (snd p) else disk n) "a.NPZ" = Err IOError.
Proof.
  exists (demo_field [up2 "x"]). assert (P : Forall axis_proper [up2 "x"]) by (constructor; [apply up2_proper|constructor]). split; [exact (demo_ready _ P)|]. split; [discriminate|]. split; [cbn; lia|]. split; [repeat constructor|].
  intros spl unstag fmt disk D. eexists. split; [reflexivity|]. cbn [fst snd]. unfold load_field. change (negb (endswith (lower "a.NPZ") "npz")) with false. cbv iota. change (String.eqb "a.NPZ" (savez_name "a.NPZ")) with false. cbv iota. now rewrite D.
Qed.
Lemma vtk_descending : exists f : field Q, ready f /\ nonempty (f_shape f) /\ length (f_shape f) = 2%nat /\ forall spl unstag, exists v, export_scalars spl unstag true false [f] = Ok v /\ ~ locates_points f v.
Proof.
  set (down := demo_axis "x" [2; 1; 0]%Q [3 # 2; 1 # 2]%Q). set (f := demo_field [down; up2 "y"]). exists f.
  assert (P : Forall axis_proper [down; up2 "y"]).
  { constructor; [|constructor; [apply up2_proper|constructor]]. right. apply made_down. split; [reflexivity|]. intros i Hi. cbn in Hi. destruct i as [|[|i]]; [cbn; lra|cbn; lra|lia]. }
  split; [exact (demo_ready _ P)|]. split; [repeat constructor|]. split; [reflexivity|]. intros spl unstag. eexists. split; [reflexivity|]. intro C. specialize (C 0%nat 1%nat). cbn in C. assert (X := C ltac:(lia)). unfold Qeq in X. cbn in X. discriminate.
Qed.
Lemma vtk_two_points : exists f : field Q, ready f /\ nonempty (f_shape f) /\ length (f_shape f) = 2%nat /\ forall spl unstag, exists v, export_scalars spl unstag true false [f] = Ok v /\ ~ locates_points f v.
Proof.
  set (two := demo_axis "x" [0; 1; 4]%Q [1 # 2; 5 # 2]%Q). set (f := demo_field [two; up2 "y"]). exists f.
  assert (P : Forall axis_proper [two; up2 "y"]).
  { constructor; [|constructor; [apply up2_proper|constructor]]. left. apply made_up. split; [reflexivity|]. intros i Hi. cbn in Hi. destruct i as [|[|i]]; [cbn; lra|cbn; lra|lia]. }
  split; [exact (demo_ready _ P)|]. split; [repeat constructor|]. split; [reflexivity|]. intros spl unstag. eexists. split; [reflexivity|]. intro C. specialize (C 0%nat 1%nat). cbn in C. assert (X := C ltac:(lia)). unfold Qeq in X. cbn in X. discriminate.
Qed.
(** fields of one dimension cannot be written *)
Lemma vtk_one_dim {V} spl unstag u s (f : field V) n : f_shape f = [n] -> export_scalars spl unstag u s [f] = Err ValueError.
Proof. intro E. unfold export_scalars. cbn [length Nat.ltb Nat.leb]. rewrite export_split, chosen_same by (intros f' []). cbn [bind]. unfold rest_export. change (getidx [f] 0) with (Ok f). cbn [bind]. now rewrite E. Qed.
(** text *)
Definition demo_fmt (q : Q) : string := if q ==?q 0 then "0" else if q ==?q 1 then "1" else "-".
Definition demo_parse (s : string) : option Q := if String.eqb s "0" then Some 0%Q else if String.eqb s "1" then Some 1%Q else None.
Lemma demo_readable d q : (q = 0 \/ q = 1)%Q -> d = " "%char \/ d = ","%char -> readable demo_fmt demo_parse d q.
Proof. intros [-> | ->] [-> | ->]; (split; [reflexivity|split; [discriminate|reflexivity]]). Qed.
