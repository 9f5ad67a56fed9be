(** A program with Fields which share memory. *)
From Coq Require Import Lia.
From Verif Require Import PyBase PyBaseFacts NumpyModel AxisModel AxisSpec NdModel FieldModel HeapModel HeapSpec HeapFacts HeapLaws HeapApart.
Local Open Scope nat_scope.

Definition ax_x : axis := mkAxis "x" "m" [0; 1; 3; 4]%Q [1 # 2; 2; 7 # 2]%Q (0, 4)%Q 3.
Definition ax_y : axis := mkAxis "y" "m" [0; 1; 2]%Q [1 # 2; 3 # 2]%Q (0, 2)%Q 2.
Definition demo : field Q :=
  mkField (mkarr [3; 2]%Z (fun i => inject_Z (10 * nth 0 i 0 + nth 1 i 0)%Z)) (mkLayer [ax_x; ax_y] [Some false; Some false] [None; None] "E" "V/m") [].
Definition key (n : Z) : ikey := IKey (KNum (NInt n)).
Definition rows (a b : Z) : ikey := IKey (KSlice (Some (NInt a)) (Some (NInt b)) None).
(** numbers, states and origins of an object *)
Definition seen (w : world) (x : nat) : option (list Z * list Q * list (option bool) * list (option Q)) :=
  match value w x with
  | Ok f => Some (f_shape f, map (fun i => Qred (a_at (f_data f) i)) (all_idx (f_shape f)), f_ats f, f_tao f)
  | Err _ => None
  end.
(** 0: new, 1: 0[1:3, :], 2: the transpose of 1, 3: a copy of 0, 4: -0, 5: 0 + 3, 6: 0.replace_data(matrix of 2's transpose) *)
Definition build : list cmd :=
  [CNew demo; CView (VGet [rows 1 3; rows 0 2]) 0; CView (VTranspose None) 1; CCopy true 0; CMap Qopp 0; CBinary Qplus 0 3; CReduce (fold_right Qplus 0%Q) 0 (AxInt 0) false].
Definition built : world := fst (exec chord_spline build empty_world).
Definition history : list (cmd * res nat) := combine build (snd (exec chord_spline build empty_world)).
Lemma exec_length spl : forall cs w, length (snd (exec spl cs w)) = length cs.
Proof. induction cs as [|c cs IH]; intro w; [reflexivity|]. cbn [exec]. destruct (run spl c w) as [[w1 r]|e]; [specialize (IH w1); destruct (exec spl cs w1)|specialize (IH w); destruct (exec spl cs w)]; cbn in *; now rewrite IH. Qed.
Lemma fst_combine {A B} : forall (l : list A) (m : list B), length m = length l -> map fst (combine l m) = l.
Proof. induction l as [|a l IH]; intros [|b m] H; try discriminate; [reflexivity|]. cbn. injection H as H. now rewrite IH. Qed.
Lemma snd_combine {A B} : forall (l : list A) (m : list B), length m = length l -> map snd (combine l m) = m.
Proof. induction l as [|a l IH]; intros [|b m] H; try discriminate; [reflexivity|]. cbn. injection H as H. now rewrite IH. Qed.
Lemma exec_reachable spl cs : reachable spl (combine cs (snd (exec spl cs empty_world))) (fst (exec spl cs empty_world)).
Proof. unfold reachable. rewrite fst_combine, snd_combine by apply exec_length. now destruct (exec spl cs empty_world). Qed.
Lemma built_reachable : reachable chord_spline history built.
Proof. apply exec_reachable. Qed.
Definition oks (l : list (res nat)) : list (option nat) := map (fun r => match r with Ok x => Some x | Err _ => None end) l.
Lemma history_results : oks (map snd history) = [Some 0; Some 1; Some 2; Some 3; Some 4; Some 5; Some 6].
Proof. vm_compute. reflexivity. Qed.
(** all kin of an object of a history, given a set closed under the edges *)
Lemma kin_closed src h (P : nat -> bool) : (forall c r x, In (c, Ok r) h -> src c = Some x -> P r = P x) -> forall x y, kin src h x y -> P x = P y.
Proof. intros H x y K. induction K; [reflexivity|exact (H c r x H0 H1)|now symmetry|congruence]. Qed.
Definition edges_ok (src : cmd -> option nat) (h : list (cmd * res nat)) (P : nat -> bool) : bool :=
  forallb (fun p => match snd p, src (fst p) with Ok r, Some x => Bool.eqb (P r) (P x) | _, _ => true end) h.
Lemma edges_closed src h P : edges_ok src h P = true -> forall c r x, In (c, Ok r) h -> src c = Some x -> P r = P x.
Proof. unfold edges_ok. rewrite forallb_forall. intros H c r x I E. specialize (H _ I). cbn in H. rewrite E in H. now apply Bool.eqb_prop. Qed.
Lemma history_data_apart x : x = 3 \/ x = 4 \/ x = 5 \/ x = 6 -> forall y, y < 3 -> ~ kin data_source history x y.
Proof.
  intros Hx y Hy K. apply (kin_closed data_source history (fun z => z <? 3)) in K; [|apply edges_closed; vm_compute; reflexivity]. destruct Hx as [->|[->|[->| ->]]], y as [|[|[|]]]; cbn in K; try discriminate; lia.
Qed.
Lemma unary_shares : exists h w m w' r f f', reachable chord_spline h w /\ In (CMap Qopp 0, Ok 1) h /\ target m = Some 1 /\ run chord_spline m w = Ok (w', r) /\ value w 0 = Ok f /\ value w' 0 = Ok f' /\ f_ats f = [Some false; Some false] /\ f_ats f' = [Some true; Some false].
Proof.
  exists (combine [CNew demo; CMap Qopp 0] (snd (exec chord_spline [CNew demo; CMap Qopp 0] empty_world))), (fst (exec chord_spline [CNew demo; CMap Qopp 0] empty_world)), (MAts 1 0%Z (Some true)). do 4 eexists. split; [apply exec_reachable|]. split; [right; left; reflexivity|]. split; [reflexivity|]. split; [reflexivity|]. split; [reflexivity|]. split; [reflexivity|]. split; reflexivity.
Qed.
Lemma unary_shares_origins : exists h w m w' r f f', reachable chord_spline h w /\ In (CMap Qopp 0, Ok 1) h /\ target m = Some 0 /\ run chord_spline m w = Ok (w', r) /\ value w 1 = Ok f /\ value w' 1 = Ok f' /\ f_tao f = [None; None] /\ f_tao f' = [None; Some 3%Q].
Proof.
  exists (combine [CNew demo; CMap Qopp 0] (snd (exec chord_spline [CNew demo; CMap Qopp 0] empty_world))), (fst (exec chord_spline [CNew demo; CMap Qopp 0] empty_world)), (MTao 0 1%Z (Some 3%Q)). do 4 eexists. split; [apply exec_reachable|]. split; [right; left; reflexivity|]. split; [reflexivity|]. split; [reflexivity|]. split; [reflexivity|]. split; [reflexivity|]. split; reflexivity.
Qed.
