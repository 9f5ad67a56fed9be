(** Theorems about energy densities and divergence: C60, C61. *)
From Coq Require Import QArith List ZArith Lia.
From Verif Require Import PyBase NdModel CalcModel CalcSpec CalcFacts.
Import ListNotations.
Local Open Scope Q_scope.

Theorem C60_add eps0 mu0 Ex Ey Ez Bx By Bz sh : a_shape Ex = sh -> a_shape Ey = sh -> a_shape Ez = sh -> a_shape Bx = sh -> a_shape By = sh -> a_shape Bz = sh -> 0 < eps0 -> 0 < mu0 ->
  exists e m em, energyE eps0 Ex Ey Ez = Ok e /\ energyM mu0 Bx By Bz = Ok m /\ energyEM eps0 mu0 Ex Ey Ez Bx By Bz = Ok em /\
    a_shape e = sh /\ a_shape m = sh /\ a_shape em = sh /\
    forall idx, in_shape sh idx = true ->
      let E2 := a_at Ex idx * a_at Ex idx + a_at Ey idx * a_at Ey idx + a_at Ez idx * a_at Ez idx in
      let B2 := a_at Bx idx * a_at Bx idx + a_at By idx * a_at By idx + a_at Bz idx * a_at Bz idx in
      a_at e idx == eps0 * E2 / 2 /\ a_at m idx == B2 / (2 * mu0) /\ a_at em idx == a_at e idx + a_at m idx.
Proof. exact (energies_ok eps0 mu0 Ex Ey Ez Bx By Bz sh). Qed.
Print Assumptions C60_add.
Theorem C60_sign eps0 mu0 Ex Ey Ez Bx By Bz sh : a_shape Ex = sh -> a_shape Ey = sh -> a_shape Ez = sh -> a_shape Bx = sh -> a_shape By = sh -> a_shape Bz = sh -> 0 < eps0 -> 0 < mu0 ->
  exists e m em, energyE eps0 Ex Ey Ez = Ok e /\ energyM mu0 Bx By Bz = Ok m /\ energyEM eps0 mu0 Ex Ey Ez Bx By Bz = Ok em /\
    forall idx, in_shape sh idx = true -> let zero a := a_at a idx == 0 in
      0 <= a_at e idx /\ 0 <= a_at m idx /\ 0 <= a_at em idx /\
      (zero e <-> zero Ex /\ zero Ey /\ zero Ez) /\ (zero m <-> zero Bx /\ zero By /\ zero Bz) /\ (zero em <-> (zero Ex /\ zero Ey /\ zero Ez) /\ zero Bx /\ zero By /\ zero Bz).
Proof. exact (energies_sign eps0 mu0 Ex Ey Ez Bx By Bz sh). Qed.
Print Assumptions C60_sign.
Example C60_case : let x := mkarr [2; 2]%Z (fun i => inject_Z (hd 0%Z i)) in exists em, energyEM 2 4 x x x x x x = Ok em /\ in_shape (a_shape em) [1; 0]%Z = true /\ a_at em [1; 0]%Z == 27 # 8.
Proof. eexists. split; [reflexivity|]. split; reflexivity. Qed.

(** divE sums the differences between neighbouring cells, the sizes of the cells do not enter *)
Theorem C61_cell_differences d Ex Ey Ez cx cy cz sx sy sz o h sh : (1 <= d <= 3)%nat -> length sh = d -> (forall n, In n sh -> (2 <= n)%Z) -> a_shape Ex = sh -> a_shape Ey = sh -> a_shape Ez = sh ->
  linear_on Ex cx sx o h -> linear_on Ey cy sy o h -> linear_on Ez cz sz o h ->
  exists a, divE (Z.of_nat d) Ex Ey Ez = Ok a /\ a_shape a = sh /\ forall idx, in_shape sh idx = true -> a_at a idx == trace d sx sy sz h.
Proof. exact (divE_lin d Ex Ey Ez cx cy cz sx sy sz o h sh). Qed.
Print Assumptions C61_cell_differences.
(** so that the divergence is right if all cells have size one *)
Theorem C61_unit_cells_partial d Ex Ey Ez cx cy cz sx sy sz o h sh : (1 <= d <= 3)%nat -> length sh = d -> (forall n, In n sh -> (2 <= n)%Z) -> a_shape Ex = sh -> a_shape Ey = sh -> a_shape Ez = sh ->
  linear_on Ex cx sx o h -> linear_on Ey cy sy o h -> linear_on Ez cz sz o h -> (forall k, (k < d)%nat -> nth k h 0 == 1) ->
  exists a, divE (Z.of_nat d) Ex Ey Ez = Ok a /\ a_shape a = sh /\ forall idx, in_shape sh idx = true -> a_at a idx == divergence d sx sy sz.
Proof. exact (divE_unit d Ex Ey Ez cx cy cz sx sy sz o h sh). Qed.
Print Assumptions C61_unit_cells_partial.
Example C61_case : let E := mkarr [3; 2]%Z (fun i => 1 + lin [2; 5] [7; 0] [1 # 2; 1] i) in linear_on E 1 [2; 5] [7; 0] [1 # 2; 1] /\ trace 2 [2; 5] [2; 5] [2; 5] [1 # 2; 1] == 6.
Proof. split; [|reflexivity]. split; [reflexivity|]. split; [reflexivity|]. split; [reflexivity|]. intros idx _. reflexivity. Qed.
Theorem C61_resolution_refuted : exists Ex c s o h a, linear_on Ex c s o h /\ divE 1 Ex Ex Ex = Ok a /\ in_shape (a_shape a) [0%Z] = true /\ ~ a_at a [0%Z] == divergence 1 s s s.
Proof. exact divE_wrong. Qed.
Print Assumptions C61_resolution_refuted.
Theorem C61_one_cell_refuted a k n : nth_error (a_shape a) k = Some n -> (n < 2)%Z -> np_gradient a k = Err ValueError.
Proof. exact (gradient_short a k n). Qed.
Print Assumptions C61_one_cell_refuted.
Example C61_one_cell_case : nth_error (a_shape (mkarr [1%Z] (fun _ => 0))) 0 = Some 1%Z.
Proof. reflexivity. Qed.
