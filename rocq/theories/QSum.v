(** Finite sums of rationals (plain mathematics, used by specifications and proofs). *)
From Coq Require Import Lia Lqa Permutation.
From Verif Require Import PyBase PyBaseFacts.

Definition qsum (l : list Q) : Q := fold_right Qplus 0 l.

(** sum of f over all indices of an array of the given shape *)
Fixpoint total (sh : list Z) (f : list Z -> Q) : Q :=
  match sh with
  | [] => f []
  | n :: sh' =>
      qsum (map (fun i => total sh' (fun idx => f (Z.of_nat i :: idx))) (seq 0 (Z.to_nat n)))
  end.

Lemma qsum_nil : qsum [] = 0.
Proof. reflexivity. Qed.
Lemma qsum_cons x l : qsum (x :: l) = x + qsum l.
Proof. reflexivity. Qed.

Lemma qsum_app l m : qsum (l ++ m) == qsum l + qsum m.
Proof. induction l as [|x l IH]; cbn [app]; rewrite ?qsum_cons, ?qsum_nil; [ring|]. rewrite IH. ring. Qed.

Lemma qsum_perm l m : Permutation l m -> qsum l == qsum m.
Proof.
  induction 1; rewrite ?qsum_cons, ?qsum_nil; try lra.
Qed.

Lemma qsum_map_ext {A} (f g : A -> Q) l : (forall x, In x l -> f x == g x) ->
  qsum (map f l) == qsum (map g l).
Proof.
  induction l as [|x l IH]; intros H; cbn [map]; rewrite ?qsum_cons, ?qsum_nil; [reflexivity|].
  rewrite IH by (intros; apply H; right; assumption).
  rewrite (H x) by (left; reflexivity). reflexivity.
Qed.

Lemma qsum_map_plus {A} (f g : A -> Q) l :
  qsum (map (fun x => f x + g x) l) == qsum (map f l) + qsum (map g l).
Proof.
  induction l as [|x l IH]; cbn [map]; rewrite ?qsum_cons, ?qsum_nil; [ring|]. rewrite IH. ring.
Qed.

Lemma qsum_map_scale {A} (c : Q) (f : A -> Q) l :
  qsum (map (fun x => c * f x) l) == c * qsum (map f l).
Proof.
  induction l as [|x l IH]; cbn [map]; rewrite ?qsum_cons, ?qsum_nil; [ring|]. rewrite IH. ring.
Qed.

Lemma qsum_map_scale_r {A} (c : Q) (f : A -> Q) l :
  qsum (map (fun x => f x * c) l) == qsum (map f l) * c.
Proof.
  induction l as [|x l IH]; cbn [map]; rewrite ?qsum_cons, ?qsum_nil; [ring|]. rewrite IH. ring.
Qed.

Lemma qsum_map_zero {A} (l : list A) : qsum (map (fun _ => 0) l) == 0.
Proof. induction l as [|x l IH]; cbn [map]; rewrite ?qsum_cons, ?qsum_nil; [ring|]. rewrite IH. ring. Qed.

Lemma qsum_zero {A} (f : A -> Q) l : (forall x, In x l -> f x == 0) -> qsum (map f l) == 0.
Proof. intros H. rewrite (qsum_map_ext f (fun _ => 0)) by exact H. apply qsum_map_zero. Qed.

Lemma qsum_nonneg {A} (f : A -> Q) l : (forall x, In x l -> 0 <= f x) -> 0 <= qsum (map f l).
Proof.
  induction l as [|x l IH]; intros H; cbn [map]; rewrite ?qsum_cons, ?qsum_nil; [lra|].
  assert (0 <= f x) by (apply H; left; reflexivity).
  assert (0 <= qsum (map f l)) by (apply IH; intros; apply H; right; assumption). lra.
Qed.

Lemma qsum_le {A} (f g : A -> Q) l : (forall x, In x l -> f x <= g x) ->
  qsum (map f l) <= qsum (map g l).
Proof.
  induction l as [|x l IH]; intros H; cbn [map]; rewrite ?qsum_cons, ?qsum_nil; [lra|].
  assert (f x <= g x) by (apply H; left; reflexivity).
  assert (qsum (map f l) <= qsum (map g l)) by (apply IH; intros; apply H; right; assumption). lra.
Qed.

Lemma qsum_swap {A B} (f : A -> B -> Q) l m :
  qsum (map (fun x => qsum (map (fun y => f x y) m)) l)
  == qsum (map (fun y => qsum (map (fun x => f x y) l)) m).
Proof.
  induction l as [|x l IH].
  - cbn [map]. symmetry. apply qsum_map_zero.
  - cbn [map]. rewrite qsum_cons, IH. rewrite <- qsum_map_plus. apply qsum_map_ext. intros y _. reflexivity.
Qed.

Lemma qsum_flat_map {A B} (f : B -> Q) (g : A -> list B) l :
  qsum (map f (flat_map g l)) == qsum (map (fun x => qsum (map f (g x))) l).
Proof.
  induction l as [|x l IH]; cbn [flat_map map]; [reflexivity|].
  rewrite map_app, qsum_app, qsum_cons, IH. reflexivity.
Qed.

(** the sum of a function that vanishes except at k *)
Lemma qsum_delta (n : nat) (k : Z) (v : Q) :
  qsum (map (fun i => if (Z.of_nat i =? k)%Z then v else 0) (seq 0 n))
  == if ((0 <=? k) && (k <? Z.of_nat n))%Z then v else 0.
Proof.
  induction n as [|n IH].
  - cbn [seq map]. destruct ((0 <=? k) && (k <? Z.of_nat 0))%Z eqn:E; [lia|reflexivity].
  - rewrite seq_S, map_app, qsum_app, IH. cbn [map plus]. rewrite qsum_cons, qsum_nil.
    destruct (Z.eqb_spec (Z.of_nat n) k);
      destruct ((0 <=? k) && (k <? Z.of_nat n))%Z eqn:E1;
      destruct ((0 <=? k) && (k <? Z.of_nat (S n)))%Z eqn:E2; try lia; ring.
Qed.

Lemma qsum_filter {A} (p : A -> bool) (f : A -> Q) l :
  qsum (map f (filter p l)) == qsum (map (fun x => if p x then f x else 0) l).
Proof.
  induction l as [|x l IH]; cbn [filter map]; [reflexivity|].
  destruct (p x); cbn [map]; rewrite ?qsum_cons, IH; ring.
Qed.

Lemma total_ext sh f g : (forall idx, f idx == g idx) -> total sh f == total sh g.
Proof.
  revert f g. induction sh as [|n sh IH]; intros f g H; cbn [total]; [apply H|].
  apply qsum_map_ext. intros i _. apply IH. intros idx. apply H.
Qed.

Lemma total_plus sh f g : total sh (fun i => f i + g i) == total sh f + total sh g.
Proof.
  revert f g. induction sh as [|n sh IH]; intros f g; cbn [total]; [reflexivity|].
  rewrite <- qsum_map_plus. apply qsum_map_ext. intros i _. apply IH.
Qed.

Lemma total_scale sh c f : total sh (fun i => c * f i) == c * total sh f.
Proof.
  revert f. induction sh as [|n sh IH]; intros f; cbn [total]; [reflexivity|].
  rewrite <- qsum_map_scale. apply qsum_map_ext. intros i _. apply IH.
Qed.

Lemma total_zero sh : total sh (fun _ => 0) == 0.
Proof.
  induction sh as [|n sh IH]; cbn [total]; [reflexivity|]. apply qsum_zero. intros; exact IH.
Qed.

Lemma total_qsum {A} sh (f : A -> list Z -> Q) l :
  total sh (fun idx => qsum (map (fun a => f a idx) l)) == qsum (map (fun a => total sh (f a)) l).
Proof.
  induction l as [|a l IH].
  - cbn. apply total_zero.
  - cbn [map]. rewrite qsum_cons, <- IH, <- total_plus. apply total_ext. intros; reflexivity.
Qed.

Lemma total_nonneg sh f : (forall idx, 0 <= f idx) -> 0 <= total sh f.
Proof.
  revert f. induction sh as [|n sh IH]; intros f H; cbn [total]; [apply H|].
  apply qsum_nonneg. intros i _. apply IH. intros; apply H.
Qed.
