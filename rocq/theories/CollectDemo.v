(** Concrete cases for C93 to C95. *)
From Verif Require Import PyBase NumpyModel NdModel AxisModel AxisSpec FieldModel FieldSpec ParticleModel SpeciesModel DepModel DepSpec HistddModel CollectModel CollectSpec.
(** a dump with an electron, an ion and ejected electrons *)
Definition zoo : dump := mkdump ["electron"; "C6"; "ejected_electronx"; "proton"]%string 0 (fun _ _ => None) (fun _ _ => None).
Definition zoo2 : dump := mkdump ["electron"]%string 1 (fun _ _ => None) (fun _ _ => None).
Definition blank : world := mkworld [] [] [] [[]].
(** the box of the zoo moves *)
Definition moving (d : dump) (axis : string) : res (Q * Q) := if String.eqb axis "x" then Ok (d_time d * 2, d_time d * 2 + 5) else Err KeyError.
Definition both_in : world := mkworld [] [] [mksingle zoo "electron" SNone []; mksingle zoo2 "electron" SNone []] [[0; 1]%nat].
(** two particles and one scalar *)
Definition place : scalar := mkscalar "x" (Ok [3 # 2; 2]) "x" "m".
Definition speed : scalar := mkscalar "px" (Ok [1; 3]) "$P_x$" "kg m/s".
Definition plain (ns : list Z) : hist_args := mkha false false false [Some (0, 4); Some (-2, 6); None] (BSeq ns) (Some (ShInt 2)).
(** np.spacing, nearly *)
Definition fine (x : Q) : Q := x * (1 # 4503599627370496).
Definition to_int (_ : Q) : Z := int_min.
Definition same_texts (a b : list string) : bool := if list_eq_dec String.string_dec a b then true else false.
Lemma same_texts_eq a b : same_texts a b = true -> a = b.
Proof. unfold same_texts. destruct (list_eq_dec _ a b); [easy|discriminate]. Qed.
