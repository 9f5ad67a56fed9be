(** Concrete cases for C114: numexpr knows single names and two expressions of the default
    properties; arctan2 is replaced by a product here. *)
From Coq Require Import QArith Lia.
From Verif Require Import PyBase NumpyModel NdModel RegistryModel AccessModel AccessSpec.
Open Scope string_scope.

Definition few_names (e : string) : list string :=
  if String.eqb e "arctan2(py, px)" then ["px"; "py"] else if String.eqb e "arctan2(pz, py)" then ["py"; "pz"] else [e].
Definition each2 (f : Z -> Z -> Z) (a b : list Z) : list Z := map (fun p => f (fst p) (snd p)) (combine a b).
Definition few_eval (n : nat) (e : string) (args : list (pval Z)) : res (pval Z) :=
  match args with
  | [One v] => Ok (One v)
  | [Each l] => if Nat.eqb (length l) n then Ok (Each l) else Err ValueError
  | [Each a; Each b] => if Nat.eqb (length (each2 Z.mul a b)) n then Ok (Each (each2 Z.mul a b)) else Err ValueError
  | _ => Err ValueError
  end.
Definition demo1 : outside (pval Z) :=
  mkout few_names (few_eval 3)
    (fun k => if String.eqb k "mass" then Ok (One 2%Z) else if String.eqb k "x" then Ok (Each [7; 8; 9]%Z) else if String.eqb k "px" then Ok (Each [7; 8; 9]%Z)
              else if String.eqb k "py" then Ok (Each [10; 10; 10]%Z) else if String.eqb k "pz" then Ok (Each [0; 0; 0]%Z) else Err KeyError)
    (fun _ => None) (fun _ => None).
Definition demo2 : outside (pval Z) :=
  mkout few_names (few_eval 2)
    (fun k => if String.eqb k "mass" then Ok (Each [1; 4]%Z) else if String.eqb k "x" then Ok (Each [5; 6]%Z) else if String.eqb k "px" then Ok (Each [5; 6]%Z)
              else if String.eqb k "py" then Ok (Each [10; 10]%Z) else if String.eqb k "pz" then Ok (Each [0; 0]%Z) else Err KeyError)
    (fun _ => None) (fun _ => None).
Definition pair_of_species : list (species Z) := [mkspecies 3 demo1; mkspecies 2 demo2].
Lemma few_full n e args l : few_eval n e args = Ok (Each l) -> length l = n.
Proof.
  unfold few_eval. destruct args as [|[v|a] [|[w|b] [|? ?]]]; try discriminate; intro H.
  - destruct (Nat.eqb_spec (length a) n); [|discriminate H]. injection H as <-. assumption.
  - destruct (Nat.eqb_spec (length (each2 Z.mul a b)) n); [|discriminate H]. injection H as <-. assumption.
Qed.
Lemma pair_full : Forall full pair_of_species.
Proof. repeat constructor; intros e args l H; exact (few_full _ _ _ _ H). Qed.
(** two particles in one species *)
Definition moving_pair : list (species Q) :=
  [mkspecies 2 (mkout few_names (fun _ l => match l with [x] => Ok x | _ => Err ValueError end)
    (fun k => if String.eqb k "x" then Ok (Each [3 # 2; 2]) else if String.eqb k "px" then Ok (Each [1; 3]) else Err KeyError) (fun _ => None) (fun _ => None))].
