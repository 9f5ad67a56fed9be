(** Specifications for weighted statistics (C40). *)
From Coq Require Import Permutation Sorting.Sorted.
From Verif Require Import PyBase NumpyModel NdModel FieldModel HelperModel ParticleModel ParticleSpec.

(** the sum of the weights of all values satisfying P *)
Fixpoint weight_of (P : Q -> bool) (d w : list Q) : Q :=
  match d, w with
  | x :: d', y :: w' => (if P x then y else 0) + weight_of P d' w'
  | _, _ => 0
  end.
Definition total_weight (d w : list Q) : Q := weight_of (fun _ => true) d w.
(** first moment *)
Fixpoint moment (d w : list Q) : Q :=
  match d, w with x :: d', y :: w' => x * y + moment d' w' | _, _ => 0 end.
(** np.argsort: a permutation of the positions that puts the values in ascending order *)
Definition sorting (f : list Q -> list nat) : Prop :=
  forall d, Permutation (f d) (seq 0 (length d)) /\ Sorted Qle (map (fun i => nth i d 0) (f d)).
(** x is the smallest value such that the values up to x carry the fraction q of the weight *)
Definition is_quantile (d w : list Q) (q x : Q) : Prop :=
  In x d /\
  q * total_weight d w <= weight_of (fun y => y <=?q x) d w /\
  (forall y, In y d -> y < x -> weight_of (fun z => z <=?q y) d w < q * total_weight d w).
(** the weight of particle i: the dumped weight times the additional one *)
Definition particle_weight (wt : list string * (list Q -> Q)) (g : group) (i : nat) : Q :=
  value (g_dump g) (g_name g) i "weight" * snd wt (map (value (g_dump g) (g_name g) i) (fst wt)).
Definition particle_weights (wt : list string * (list Q -> Q)) (gs : list group) : list Q :=
  concat (map (fun g => map (particle_weight wt g) (g_sel g)) gs).
Definition no_weight : list string * (list Q -> Q) := ([], fun _ => 1).
Definition some_weight (wt : expr Q) : list string * (list Q -> Q) := (e_keys wt, e_fn wt).
Definition opt_weight (wt : option (expr Q)) := match wt with None => no_weight | Some e => some_weight e end.
(** the expression a * e + b *)
Definition linear (a b : Q) (e : expr Q) : expr Q := mkexpr (e_keys e) (fun l => a * e_fn e l + b).
(** everything an expression needs is there, and no group is empty *)
Definition readable (keys : list string) (gs : list group) : Prop :=
  forall g, In g gs -> g_sel g <> [] /\ forall key, In key keys -> known (g_dump g) (g_name g) key.
