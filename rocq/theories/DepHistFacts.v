(** Lemmas about the histogram functions as a whole. *)
From Coq Require Import Lia Lqa Permutation Qround Qabs ZifyBool ZifyNat.
From Verif Require Import PyBase PyBaseFacts NumpyModel NumpyFacts QSum DepSpec DepModel DepFacts.

(** *** All accesses inside the arrays *)
Lemma in_shape_cons n sh i idx : in_shape (n :: sh) (i :: idx) = true <->
  (0 <= i < n)%Z /\ in_shape sh idx = true.
Proof. cbn [in_shape]. rewrite !andb_true_iff, Z.leb_le, Z.ltb_lt. tauto. Qed.

Lemma writes1_in ub o n x w : cell_bounded o n (cell ub o x) ->
  Forall (fun iv => in_shape [n + 2 * supp o]%Z (fst iv) = true) (writes1 ub o x w).
Proof.
  intros B. unfold writes1. apply Forall_map, Forall_forall. intros k K. cbn [fst].
  apply in_shape_cons. split; [apply touched_in_bounds; assumption|reflexivity].
Qed.

Lemma writes2_in ub o n m x y w : cell_bounded o n (cell ub o x) -> cell_bounded o m (cell ub o y) ->
  Forall (fun iv => in_shape [n + 2 * supp o; m + 2 * supp o]%Z (fst iv) = true) (writes2 ub o (x, y) w).
Proof.
  intros B B'. unfold writes2. apply Forall_flat_map, Forall_forall. intros k K.
  apply Forall_map, Forall_forall. intros l L. cbn [fst].
  apply in_shape_cons. split; [apply touched_in_bounds; assumption|].
  apply in_shape_cons. split; [apply touched_in_bounds; assumption|reflexivity].
Qed.

Lemma writes3_in ub o n m q x y z w : cell_bounded o n (cell ub o x) ->
  cell_bounded o m (cell ub o y) -> cell_bounded o q (cell ub o z) ->
  Forall (fun iv => in_shape [n + 2 * supp o; m + 2 * supp o; q + 2 * supp o]%Z (fst iv) = true)
    (writes3 ub o (x, y, z) w).
Proof.
  intros B B' B''. unfold writes3. apply Forall_flat_map, Forall_forall. intros k K.
  apply Forall_flat_map, Forall_forall. intros l L.
  apply Forall_map, Forall_forall. intros p P. cbn [fst].
  apply in_shape_cons. split; [apply touched_in_bounds; assumption|].
  apply in_shape_cons. split; [apply touched_in_bounds; assumption|].
  apply in_shape_cons. split; [apply touched_in_bounds; assumption|reflexivity].
Qed.

Lemma wtail_0 ws n : wtail ws 0 n = weights_list ws n.
Proof. destruct ws; reflexivity. Qed.

(** a deposition loop run on a fresh array, in terms of the increments only;
    acceptance is restricted to the particles of the list *)
Lemma deposit_list_ok {P} accept (writes : P -> Q -> list (list Z * Q)) ws sh ps a :
  a_shape a = sh ->
  (forall p w, In p ps -> accept p = true -> Forall (fun iv => in_shape sh (fst iv) = true) (writes p w)) ->
  (length ps <= length (weights_list ws (length ps)))%nat ->
  exists a', deposit accept writes ws 0 ps a = Ok a' /\ a_shape a' = sh
    /\ forall j, a_at a' j == a_at a j + depsum accept writes (combine ps (weights_list ws (length ps))) j.
Proof.
  intros Sh HW L. rewrite <- wtail_0 in *.
  enough (G : forall ps i a, a_shape a = sh ->
    (forall p w, In p ps -> accept p = true -> Forall (fun iv => in_shape sh (fst iv) = true) (writes p w)) ->
    (length ps <= length (wtail ws i (length ps)))%nat ->
    exists a', deposit accept writes ws i ps a = Ok a' /\ a_shape a' = sh
    /\ forall j, a_at a' j == a_at a j + depsum accept writes (combine ps (wtail ws i (length ps))) j)
    by (apply G; assumption).
  clear ps a Sh HW L. induction ps as [|p ps IH]; intros i a Sh HW L; cbn [deposit].
  - exists a. repeat split; [exact Sh|]. intros j. cbn. ring.
  - cbn [length] in L. destruct (wtail ws i (S (length ps))) as [|w rest] eqn:E; [cbn in L; lia|].
    destruct (weight_at_tail _ _ _ _ _ E) as [W T].
    assert (L' : (length ps <= length (wtail ws (S i) (length ps)))%nat) by (rewrite T; cbn in L; lia).
    assert (HW' : forall p w, In p ps -> accept p = true ->
      Forall (fun iv => in_shape sh (fst iv) = true) (writes p w)) by (intros; apply HW; [right|]; assumption).
    cbn [length]. rewrite E. cbn [combine]. unfold depsum. cbn [map fst snd].
    destruct (accept p) eqn:A.
    + rewrite W. cbn [bind]. pose proof (HW p w (or_introl eq_refl) A) as F. rewrite <- Sh in F.
      destruct (add_all_ok _ a F) as (a1 & E1 & S1 & V1). rewrite E1. cbn [bind].
      destruct (IH (S i) a1) as (a' & E' & S' & V'); [congruence|exact HW'|exact L'|].
      exists a'. split; [exact E'|]. split; [exact S'|]. intros j.
      rewrite V', V1, qsum_cons. unfold depsum. rewrite T. ring.
    + destruct (IH (S i) a) as (a' & E' & S' & V'); [exact Sh|exact HW'|exact L'|].
      exists a'. split; [exact E'|]. split; [exact S'|]. intros j.
      rewrite V', qsum_cons. unfold depsum. rewrite T. ring.
Qed.

(** the parts of the histogram functions that cannot touch memory *)
Lemma np_linspace_noMem a b n : np_linspace a b n <> Err MemFault.
Proof. unfold np_linspace. destruct (n <? 0)%Z, (n =? 0)%Z, (n =? 1)%Z; discriminate. Qed.
Lemma inv_dx_noMem r n : inv_dx r n <> Err MemFault.
Proof. unfold inv_dx. destruct r. destruct (_ ==?q 0); discriminate. Qed.
Lemma order_of_noMem s : order_of s <> Err MemFault.
Proof. unfold order_of. destruct s; repeat (destruct (_ : bool)); discriminate. Qed.
Lemma np_zeros_noMem s : np_zeros s <> Err MemFault.
Proof. unfold np_zeros. destruct (forallb _ s); discriminate. Qed.
Lemma np_zeros_ok s a : np_zeros s = Ok a -> a_shape a = s /\ forall j, a_at a j = 0.
Proof. unfold np_zeros. destruct (forallb _ s); [|discriminate]. intros [= <-]. split; reflexivity. Qed.

Ltac step L :=
  match goal with
  | |- bind ?r _ <> Err MemFault =>
      let E := fresh "E" in let v := fresh "v" in
      destruct r as [v|[]] eqn:E; cbn [bind];
      [|first [discriminate | exfalso; exact (L E)]..]
  end.

Lemma histogram_no_fault ub spacing data r n ws sh :
  (n <= int_max)%Z -> (length data <= length (weights_list ws (length data)))%nat ->
  histogram ub spacing data r n ws sh <> Err MemFault.
Proof.
  intros N L. unfold histogram.
  step (np_linspace_noMem (fst (widen spacing r)) (snd (widen spacing r)) (n + 1)).
  step (inv_dx_noMem (widen spacing r) n). step (order_of_noMem sh). rename v1 into o.
  step (np_zeros_noMem [n + 2 * supp o]%Z). apply np_zeros_ok in E2 as [Sh _].
  set (xs := map _ data).
  assert (L' : (length xs <= length (weights_list ws (length xs)))%nat)
    by (subst xs; rewrite map_length; exact L).
  destruct (deposit_list_ok (accept1 ub o n) (writes1 ub o) ws [n + 2 * supp o]%Z xs v1 Sh) as (a & D & _);
    [|exact L'|].
  - intros p w _ A. rewrite accept1_acc in A. apply writes1_in. apply acc_cell_bounded; assumption.
  - rewrite D. discriminate.
Qed.

Lemma in_combine_map {A B C D} (f : A -> C) (g : B -> D) l m p q :
  In (p, q) (combine (map f l) (map g m)) -> exists a b, In (a, b) (combine l m) /\ p = f a /\ q = g b.
Proof.
  revert m. induction l as [|x l IH]; intros [|y m] H; cbn in H; try contradiction.
  destruct H as [[= <- <-]|H].
  - exists x, y. repeat split. left; reflexivity.
  - destruct (IH m H) as (a & b & I & P). exists a, b. split; [right; exact I|exact P].
Qed.

(** the second coordinate of every particle is converted to a cell number without
    undefined behaviour, or at least to a non-negative one *)
Definition second_safe ub (o : order) (r : Q * Q) (n : Z) (data : list Q) : Prop :=
  forall dx v, inv_dx r n = Ok dx -> In v data ->
    0 <= scaled (fst r) dx v -> (0 <= cell ub o (scaled (fst r) dx v))%Z.

Lemma histogram2d_no_fault ub spacing datax datay ws rx ry nx ny sh :
  (nx <= int_max)%Z -> (ny <= int_max)%Z ->
  (length datax <= length (weights_list ws (length datax)))%nat ->
  (forall o, order_of sh = Ok o -> second_safe ub o (widen spacing ry) ny datay) ->
  histogram2d ub spacing datax datay ws rx ry nx ny sh <> Err MemFault.
Proof.
  intros N N' L SF. unfold histogram2d, guard.
  destruct (Nat.eqb_spec (length datax) (length datay)) as [EL|]; cbn [bind]; [|discriminate].
  step (np_linspace_noMem (fst (widen spacing rx)) (snd (widen spacing rx)) (nx + 1)).
  step (np_linspace_noMem (fst (widen spacing ry)) (snd (widen spacing ry)) (ny + 1)).
  step (inv_dx_noMem (widen spacing rx) nx). step (inv_dx_noMem (widen spacing ry) ny).
  step (order_of_noMem sh). rename v3 into o.
  step (np_zeros_noMem [nx + 2 * supp o; ny + 2 * supp o]%Z). apply np_zeros_ok in E4 as [Sh _].
  set (xs := combine _ _).
  assert (LX : length xs = length datax)
    by (subst xs; rewrite combine_length, !map_length, <- EL; apply Nat.min_id).
  destruct (deposit_list_ok (accept2 ub o nx ny) (writes2 ub o) ws _ xs v3 Sh) as (a & D & _).
  - intros [x y] w I A. rewrite accept2_acc in A. apply andb_true_iff in A as [A1 A2].
    apply in_combine_map in I as (p & q & I & -> & ->).
    apply writes2_in; [apply acc_cell_bounded; assumption|].
    apply acc_sign_bounded; [assumption| |assumption].
    apply (SF o eq_refl); [exact E2|]. apply in_combine_r in I. exact I.
  - rewrite LX. exact L.
  - rewrite D. discriminate.
Qed.

Lemma histogram3d_no_fault ub spacing datax datay dataz ws rx ry rz nx ny nz sh :
  (nx <= int_max)%Z -> (ny <= int_max)%Z -> (nz <= int_max)%Z ->
  (length datax <= length (weights_list ws (length datax)))%nat ->
  (forall o, order_of sh = Ok o -> second_safe ub o (widen spacing ry) ny datay) ->
  (forall o, order_of sh = Ok o -> second_safe ub o (widen spacing rz) nz dataz) ->
  histogram3d ub spacing datax datay dataz ws rx ry rz nx ny nz sh <> Err MemFault.
Proof.
  intros N N' N'' L SF SF'. unfold histogram3d, guard.
  destruct (Nat.eqb_spec (length datax) (length datay)) as [EL|]; cbn [bind]; [|discriminate].
  destruct (Nat.eqb_spec (length datax) (length dataz)) as [EL'|]; cbn [bind]; [|discriminate].
  step (np_linspace_noMem (fst (widen spacing rx)) (snd (widen spacing rx)) (nx + 1)).
  step (np_linspace_noMem (fst (widen spacing ry)) (snd (widen spacing ry)) (ny + 1)).
  step (np_linspace_noMem (fst (widen spacing rz)) (snd (widen spacing rz)) (nz + 1)).
  step (inv_dx_noMem (widen spacing rx) nx). step (inv_dx_noMem (widen spacing ry) ny).
  step (inv_dx_noMem (widen spacing rz) nz).
  step (order_of_noMem sh). rename v5 into o.
  step (np_zeros_noMem [nx + 2 * supp o; ny + 2 * supp o; nz + 2 * supp o]%Z). apply np_zeros_ok in E6 as [Sh _].
  set (xs := combine _ _).
  assert (LX : length xs = length datax)
    by (subst xs; rewrite !combine_length, !map_length, <- EL, <- EL'; rewrite !Nat.min_id; reflexivity).
  destruct (deposit_list_ok (accept3 ub o nx ny nz) (writes3 ub o) ws _ xs v5 Sh) as (a & D & _).
  - intros [[x y] z] w I A. rewrite accept3_acc in A. apply andb_true_iff in A as [A A3].
    apply andb_true_iff in A as [A1 A2].
    assert (IZ : In z (map (scaled (fst (widen spacing rz)) v4) dataz)) by (apply in_combine_r in I; exact I).
    apply in_combine_l in I. apply in_combine_map in I as (p & q & I & -> & ->).
    apply in_map_iff in IZ as (r & <- & IZ).
    apply writes3_in; [apply acc_cell_bounded; assumption| |].
    + apply acc_sign_bounded; [assumption| |assumption].
      apply (SF o eq_refl); [exact E3|]. apply in_combine_r in I. exact I.
    + apply acc_third_bounded; [assumption| |assumption].
      apply (SF' o eq_refl); [exact E4|]. exact IZ.
  - rewrite LX. exact L.
  - rewrite D. discriminate.
Qed.

(** *** The histogram cell by cell *)
Definition good_range (spacing : Q -> Q) (r : Q * Q) (n : Z) : Prop :=
  fst r < snd r /\ spacing (snd r) <= snd r - fst r /\ (0 < n < int_max)%Z.

Lemma widen_good spacing r n : good_range spacing r n -> widen spacing r = r.
Proof.
  intros (A & B & _). destruct r as [a b]. cbn [fst snd widen] in *.
  rewrite qabs_pos by lra. destruct (Qltb_spec (b - a) (spacing b)); [lra|reflexivity].
Qed.

Lemma inv_dx_good spacing r n : good_range spacing r n ->
  inv_dx r n = Ok (1 / (snd r - fst r) * inject_Z n).
Proof.
  intros (A & B & _). destruct r as [a b]. cbn [fst snd inv_dx] in *.
  destruct (Qeqb_spec (b - a) 0); [lra|reflexivity].
Qed.

Lemma scaled_pos spacing r n v : good_range spacing r n ->
  scaled (fst r) (1 / (snd r - fst r) * inject_Z n) v == cell_pos r n v.
Proof.
  intros (A & B & C). destruct r as [a b]. unfold scaled, cell_pos, cell_width. cbn [fst snd] in *.
  assert (~ inject_Z n == 0) by (apply inject_Z_nz; lia). field. split; (assumption || lra).
Qed.

Lemma cell_dist_pos spacing r n i v : good_range spacing r n ->
  cell_dist r n i v == cell_pos r n v - (inject_Z i + (1#2)).
Proof.
  intros (A & B & C). destruct r as [a b].
  unfold cell_dist, cell_pos, cell_centre, cell_width. cbn [fst snd] in *.
  assert (~ inject_Z n == 0) by (apply inject_Z_nz; lia). field. split; (assumption || lra).
Qed.

Lemma upper_ok_ext d n x y : x == y -> upper_ok d n x -> upper_ok d n y.
Proof. unfold upper_ok. intros E. destruct d as [|[|[|[|d]]]]; lra. Qed.
Lemma tested_cell_ext d n x y : x == y -> tested_cell d n x -> tested_cell d n y.
Proof.
  intros E [A B]. split; [|exact (upper_ok_ext _ _ _ _ E B)].
  destruct d as [|[|[|d]]]; lra.
Qed.
Lemma tested_sign_ext d n x y : x == y -> tested_sign d n x -> tested_sign d n y.
Proof.
  intros E [A B]. split; [|exact (upper_ok_ext _ _ _ _ E B)].
  destruct d as [|[|[|d]]]; lra.
Qed.
Lemma fits_int_ext x y : x == y -> fits_int x -> fits_int y.
Proof. unfold fits_int. intros E. rewrite E. auto. Qed.

Lemma linspace_ok a b n : (0 <= n)%Z -> exists l, np_linspace a b (n + 1) = Ok l.
Proof.
  intros N. unfold np_linspace. destruct (Z.ltb_spec (n + 1) 0); [lia|].
  destruct (n + 1 =? 0)%Z, (n + 1 =? 1)%Z; eexists; reflexivity.
Qed.

Lemma np_zeros_nonneg s : Forall (fun n => (0 <= n)%Z) s -> exists a, np_zeros s = Ok a.
Proof.
  intros F. unfold np_zeros.
  assert (E : forallb (fun n => (0 <=? n)%Z) s = true).
  { apply forallb_forall. rewrite Forall_forall in F. intros x I. apply Z.leb_le, F, I. }
  rewrite E. eexists; reflexivity.
Qed.

Lemma supp_nonneg o : (0 <= supp o)%Z.
Proof. destruct o; cbn; lia. Qed.

Lemma combine_map_l {A B C} (f : A -> B) (l : list A) (w : list C) :
  combine (map f l) w = map (fun p => (f (fst p), snd p)) (combine l w).
Proof. revert w. induction l as [|x l IH]; intros [|y w]; cbn; [reflexivity..|]. rewrite IH. reflexivity. Qed.

Lemma combine_map2 {A B C D} (f : A -> C) (g : B -> D) l m :
  combine (map f l) (map g m) = map (fun p => (f (fst p), g (snd p))) (combine l m).
Proof. revert m. induction l as [|x l IH]; intros [|y m]; cbn; [reflexivity..|]. rewrite IH. reflexivity. Qed.

(** the value of cell [i] before B-splines enter: gated shares *)
Lemma histogram_shares ub spacing data r n ws sh o :
  good_range spacing r n -> order_of sh = Ok o ->
  (length data <= length (weights_list ws (length data)))%nat ->
  exists h edges, histogram ub spacing data r n ws sh = Ok (h, edges)
    /\ a_shape h = [n] /\ np_linspace (fst r) (snd r) (n + 1) = Ok edges
    /\ forall i, a_at h [i] ==
       qsum (map (fun vw => let x := scaled (fst r) (1 / (snd r - fst r) * inject_Z n) (fst vw) in
                   gated (acc_cell ub o n x) (share ub o x (i + supp o)) * snd vw)
              (combine data (weights_list ws (length data)))).
Proof.
  intros G O L. pose proof G as (G1 & G2 & G3). unfold histogram.
  rewrite (widen_good _ _ _ G), (inv_dx_good _ _ _ G).
  destruct (linspace_ok (fst r) (snd r) n) as [ed E]; [lia|]. rewrite E. cbn [bind].
  rewrite O. cbn [bind]. pose proof (supp_nonneg o).
  destruct (np_zeros_nonneg [n + 2 * supp o]%Z) as [z Z]; [repeat constructor; lia|].
  rewrite Z. cbn [bind]. apply np_zeros_ok in Z as [ZS Z0].
  set (dx := 1 / (snd r - fst r) * inject_Z n).
  destruct (deposit_list_ok (accept1 ub o n) (writes1 ub o) ws [n + 2 * supp o]%Z
     (map (scaled (fst r) dx) data) z ZS) as (a & D & DS & DV).
  - intros p w _ A. rewrite accept1_acc in A. apply writes1_in. apply acc_cell_bounded; [lia|assumption].
  - rewrite map_length. exact L.
  - rewrite D. cbn [bind]. do 2 eexists. split; [reflexivity|]. cbn [crop a_shape a_at map].
    split; [rewrite Z.max_r by lia; reflexivity|]. split; [reflexivity|]. intros i.
    rewrite DV, Z0. rewrite map_length. unfold depsum. rewrite combine_map_l, map_map. cbn [fst snd].
    rewrite Qplus_0_l. apply qsum_map_ext. intros [v w] _. cbn [fst snd].
    rewrite accept1_acc, Z.add_comm. unfold gated. destruct (acc_cell ub o n _); [apply amount_writes1|ring].
Qed.

Lemma histogram_exact ub spacing data r n ws sh o :
  good_range spacing r n -> order_of sh = Ok o ->
  (length data <= length (weights_list ws (length data)))%nat ->
  Forall (fun v => tested_cell (degree o) n (cell_pos r n v) /\ fits_int (cell_pos r n v)) data ->
  exists h edges, histogram ub spacing data r n ws sh = Ok (h, edges)
    /\ a_shape h = [n] /\ np_linspace (fst r) (snd r) (n + 1) = Ok edges
    /\ forall i, (0 <= i < n)%Z -> a_at h [i] ==
       qsum (map (fun vw => bspline (degree o) (cell_dist r n i (fst vw)) * snd vw)
              (combine data (weights_list ws (length data)))).
Proof.
  intros G O L F. destruct (histogram_shares ub spacing data r n ws sh o G O L) as (h & e & H & Sh & E & V).
  exists h, e. do 3 (split; [assumption|]). intros i I. rewrite V. apply qsum_map_ext.
  intros [v w] IN. cbn [fst snd]. apply in_combine_l in IN. rewrite Forall_forall in F.
  destruct (F v IN) as [T FI]. pose proof (scaled_pos spacing r n v G) as SP.
  rewrite acc_cell_exact; [|exact I|unfold good_range in G; lia| |].
  - rewrite (bspline_ext _ _ (cell_dist r n i v)); [reflexivity|].
    rewrite (cell_dist_pos spacing) by exact G. rewrite SP. reflexivity.
  - apply (tested_cell_ext _ _ (cell_pos r n v)); [symmetry; exact SP|exact T].
  - apply (fits_int_ext (cell_pos r n v)); [symmetry; exact SP|exact FI].
Qed.

Lemma histogram2d_shares ub spacing datax datay rx ry nx ny ws sh o :
  good_range spacing rx nx -> good_range spacing ry ny -> order_of sh = Ok o ->
  length datax = length datay ->
  (length datax <= length (weights_list ws (length datax)))%nat ->
  (forall v, In v datay -> cell_pos ry ny v < inject_Z int_max) ->
  exists h ex ey, histogram2d ub spacing datax datay ws rx ry nx ny sh = Ok (h, ex, ey)
    /\ a_shape h = [nx; ny]
    /\ np_linspace (fst rx) (snd rx) (nx + 1) = Ok ex /\ np_linspace (fst ry) (snd ry) (ny + 1) = Ok ey
    /\ forall i j, a_at h [i; j] ==
       qsum (map (fun vw =>
           let x := scaled (fst rx) (1 / (snd rx - fst rx) * inject_Z nx) (fst (fst vw)) in
           let y := scaled (fst ry) (1 / (snd ry - fst ry) * inject_Z ny) (snd (fst vw)) in
                   gated (acc_cell ub o nx x) (share ub o x (i + supp o)) *
                   gated (acc_sign ub o ny y) (share ub o y (j + supp o)) * snd vw)
              (combine (combine datax datay) (weights_list ws (length datax)))).
Proof.
  intros G G' O EL L FI. pose proof G as (G1 & G2 & G3). pose proof G' as (G1' & G2' & G3').
  unfold histogram2d, guard. rewrite (proj2 (Nat.eqb_eq _ _) EL). cbn [bind].
  rewrite (widen_good _ _ _ G), (inv_dx_good _ _ _ G).
  rewrite (widen_good _ _ _ G'), (inv_dx_good _ _ _ G').
  destruct (linspace_ok (fst rx) (snd rx) nx) as [ed E]; [lia|]. rewrite E.
  destruct (linspace_ok (fst ry) (snd ry) ny) as [ed' E']; [lia|]. rewrite E'. cbn [bind].
  rewrite O. cbn [bind]. pose proof (supp_nonneg o).
  destruct (np_zeros_nonneg [nx + 2 * supp o; ny + 2 * supp o]%Z) as [z Z]; [repeat constructor; lia|].
  rewrite Z. cbn [bind]. apply np_zeros_ok in Z as [ZS Z0].
  set (dx := 1 / (snd rx - fst rx) * inject_Z nx). set (dy := 1 / (snd ry - fst ry) * inject_Z ny).
  set (ps := combine (map _ datax) (map _ datay)).
  assert (LP : length ps = length datax)
    by (subst ps; rewrite combine_length, !map_length, <- EL; apply Nat.min_id).
  destruct (deposit_list_ok (accept2 ub o nx ny) (writes2 ub o) ws _ ps z ZS) as (a & D & DS & DV).
  - intros [x y] w I A. rewrite accept2_acc in A. apply andb_true_iff in A as [A1 A2].
    apply in_combine_map in I as (p & q & I & -> & ->).
    apply writes2_in; [apply acc_cell_bounded; [lia|assumption]|].
    apply acc_sign_bounded; [lia| |assumption]. apply cell_nonneg_fits.
    unfold dy. rewrite (scaled_pos spacing) by exact G'. apply FI. apply in_combine_r in I. exact I.
  - rewrite LP. exact L.
  - rewrite D. cbn [bind]. do 3 eexists. split; [reflexivity|]. cbn [crop a_shape a_at map].
    split; [rewrite !Z.max_r by lia; reflexivity|]. do 2 (split; [reflexivity|]). intros i j.
    rewrite DV, Z0, LP. unfold depsum. unfold ps. rewrite combine_map2, combine_map_l, map_map. cbn [fst snd].
    rewrite Qplus_0_l. apply qsum_map_ext. intros [[v v'] w] _. cbn [fst snd].
    rewrite accept2_acc, (Z.add_comm _ i), (Z.add_comm _ j). unfold gated.
    destruct (acc_cell ub o nx _), (acc_sign ub o ny _); cbn [andb]; rewrite ?amount_writes2; ring.
Qed.

Lemma histogram2d_exact ub spacing datax datay rx ry nx ny ws sh o :
  good_range spacing rx nx -> good_range spacing ry ny -> order_of sh = Ok o ->
  length datax = length datay ->
  (length datax <= length (weights_list ws (length datax)))%nat ->
  Forall (fun v => tested_cell (degree o) nx (cell_pos rx nx v) /\ fits_int (cell_pos rx nx v)) datax ->
  Forall (fun v => tested_sign (degree o) ny (cell_pos ry ny v) /\ fits_int (cell_pos ry ny v)) datay ->
  exists h ex ey, histogram2d ub spacing datax datay ws rx ry nx ny sh = Ok (h, ex, ey)
    /\ a_shape h = [nx; ny]
    /\ np_linspace (fst rx) (snd rx) (nx + 1) = Ok ex /\ np_linspace (fst ry) (snd ry) (ny + 1) = Ok ey
    /\ forall i j, (0 <= i < nx)%Z -> (0 <= j < ny)%Z -> a_at h [i; j] ==
       qsum (map (fun vw => bspline (degree o) (cell_dist rx nx i (fst (fst vw))) *
                            bspline (degree o) (cell_dist ry ny j (snd (fst vw))) * snd vw)
              (combine (combine datax datay) (weights_list ws (length datax)))).
Proof.
  intros G G' O EL L F F'. rewrite Forall_forall in F, F'.
  destruct (histogram2d_shares ub spacing datax datay rx ry nx ny ws sh o G G' O EL L)
    as (h & ex & ey & H & Sh & E & E' & V).
  { intros v I. destruct (F' v I) as [_ [_ B]]. exact B. }
  exists h, ex, ey. do 4 (split; [assumption|]). intros i j I J. rewrite V. apply qsum_map_ext.
  intros [[v v'] w] IN. cbn [fst snd]. apply in_combine_l in IN.
  destruct (F v) as [T FI]; [apply in_combine_l in IN; exact IN|].
  destruct (F' v') as [T' FI']; [apply in_combine_r in IN; exact IN|].
  pose proof (scaled_pos spacing rx nx v G) as SP. pose proof (scaled_pos spacing ry ny v' G') as SP'.
  rewrite acc_cell_exact; [|exact I|unfold good_range in G; lia| |].
  rewrite acc_sign_exact; [|exact J|unfold good_range in G'; lia| |].
  - rewrite (bspline_ext _ _ (cell_dist rx nx i v)), (bspline_ext _ (_ - (inject_Z j + _)) (cell_dist ry ny j v')); [reflexivity|..].
    + rewrite (cell_dist_pos spacing) by exact G'. rewrite SP'. reflexivity.
    + rewrite (cell_dist_pos spacing) by exact G. rewrite SP. reflexivity.
  - apply (tested_sign_ext _ _ (cell_pos ry ny v')); [symmetry; exact SP'|exact T'].
  - apply (fits_int_ext (cell_pos ry ny v')); [symmetry; exact SP'|exact FI'].
  - apply (tested_cell_ext _ _ (cell_pos rx nx v)); [symmetry; exact SP|exact T].
  - apply (fits_int_ext (cell_pos rx nx v)); [symmetry; exact SP|exact FI].
Qed.

Lemma histogram3d_shares ub spacing datax datay dataz rx ry rz nx ny nz ws sh o :
  good_range spacing rx nx -> good_range spacing ry ny -> good_range spacing rz nz -> order_of sh = Ok o ->
  length datax = length datay -> length datax = length dataz ->
  (length datax <= length (weights_list ws (length datax)))%nat ->
  (forall v, In v datay -> cell_pos ry ny v < inject_Z int_max) ->
  (forall v, In v dataz -> cell_pos rz nz v < inject_Z int_max) ->
  exists h ex ey ez, histogram3d ub spacing datax datay dataz ws rx ry rz nx ny nz sh = Ok (h, ex, ey, ez)
    /\ a_shape h = [nx; ny; nz]
    /\ np_linspace (fst rx) (snd rx) (nx + 1) = Ok ex /\ np_linspace (fst ry) (snd ry) (ny + 1) = Ok ey
    /\ np_linspace (fst rz) (snd rz) (nz + 1) = Ok ez
    /\ forall i j k, a_at h [i; j; k] ==
       qsum (map (fun vw =>
           let x := scaled (fst rx) (1 / (snd rx - fst rx) * inject_Z nx) (fst (fst (fst vw))) in
           let y := scaled (fst ry) (1 / (snd ry - fst ry) * inject_Z ny) (snd (fst (fst vw))) in
           let z := scaled (fst rz) (1 / (snd rz - fst rz) * inject_Z nz) (snd (fst vw)) in
                   gated (acc_cell ub o nx x) (share ub o x (i + supp o)) *
                   gated (acc_sign ub o ny y) (share ub o y (j + supp o)) *
                   gated (acc_third ub o nz z) (share ub o z (k + supp o)) * snd vw)
              (combine (combine (combine datax datay) dataz) (weights_list ws (length datax)))).
Proof.
  intros G G' G'' O EL EL' L FI FI'. pose proof G as (G1 & G2 & G3). pose proof G' as (G1' & G2' & G3').
  pose proof G'' as (G1'' & G2'' & G3'').
  unfold histogram3d, guard. rewrite (proj2 (Nat.eqb_eq _ _) EL), (proj2 (Nat.eqb_eq _ _) EL'). cbn [bind].
  rewrite (widen_good _ _ _ G), (inv_dx_good _ _ _ G).
  rewrite (widen_good _ _ _ G'), (inv_dx_good _ _ _ G').
  rewrite (widen_good _ _ _ G''), (inv_dx_good _ _ _ G'').
  destruct (linspace_ok (fst rx) (snd rx) nx) as [ed E]; [lia|]. rewrite E.
  destruct (linspace_ok (fst ry) (snd ry) ny) as [ed' E']; [lia|]. rewrite E'.
  destruct (linspace_ok (fst rz) (snd rz) nz) as [ed'' E'']; [lia|]. rewrite E''. cbn [bind].
  rewrite O. cbn [bind]. pose proof (supp_nonneg o).
  destruct (np_zeros_nonneg [nx + 2 * supp o; ny + 2 * supp o; nz + 2 * supp o]%Z) as [z Z]; [repeat constructor; lia|].
  rewrite Z. cbn [bind]. apply np_zeros_ok in Z as [ZS Z0].
  set (dx := 1 / (snd rx - fst rx) * inject_Z nx). set (dy := 1 / (snd ry - fst ry) * inject_Z ny).
  set (dz := 1 / (snd rz - fst rz) * inject_Z nz).
  set (ps := combine (combine (map _ datax) (map _ datay)) (map _ dataz)).
  assert (LP : length ps = length datax)
    by (subst ps; rewrite !combine_length, !map_length, <- EL, <- EL'; rewrite !Nat.min_id; reflexivity).
  destruct (deposit_list_ok (accept3 ub o nx ny nz) (writes3 ub o) ws _ ps z ZS) as (a & D & DS & DV).
  - intros [[x y] zz] w I A. rewrite accept3_acc in A. apply andb_true_iff in A as [A A3].
    apply andb_true_iff in A as [A1 A2].
    assert (IZ : In zz (map (scaled (fst rz) dz) dataz)) by (apply in_combine_r in I; exact I).
    apply in_combine_l in I. apply in_combine_map in I as (p & q & I & -> & ->).
    apply in_map_iff in IZ as (r & <- & IZ).
    apply writes3_in; [apply acc_cell_bounded; [lia|assumption]| |].
    + apply acc_sign_bounded; [lia| |assumption]. apply cell_nonneg_fits.
      unfold dy. rewrite (scaled_pos spacing) by exact G'. apply FI. apply in_combine_r in I. exact I.
    + apply acc_third_bounded; [lia| |assumption]. apply cell_nonneg_fits.
      unfold dz. rewrite (scaled_pos spacing) by exact G''. apply FI'. exact IZ.
  - rewrite LP. exact L.
  - rewrite D. cbn [bind]. do 4 eexists. split; [reflexivity|]. cbn [crop a_shape a_at map].
    split; [rewrite !Z.max_r by lia; reflexivity|]. do 3 (split; [reflexivity|]). intros i j k.
    rewrite DV, Z0, LP. unfold depsum. unfold ps. rewrite !combine_map2, combine_map_l, map_map. cbn [fst snd].
    rewrite Qplus_0_l. apply qsum_map_ext. intros [[[v v'] v''] w] _. cbn [fst snd].
    rewrite accept3_acc, (Z.add_comm _ i), (Z.add_comm _ j), (Z.add_comm _ k). unfold gated.
    destruct (acc_cell ub o nx _), (acc_sign ub o ny _), (acc_third ub o nz _); cbn [andb]; rewrite ?amount_writes3; ring.
Qed.

(** the third coordinate is tested by sign for order 1, by cell otherwise *)
Definition tested_third (deg : nat) (n : Z) (x : Q) : Prop :=
  match deg with 1%nat => tested_sign deg n x | _ => tested_cell deg n x end.

Lemma histogram3d_exact ub spacing datax datay dataz rx ry rz nx ny nz ws sh o :
  good_range spacing rx nx -> good_range spacing ry ny -> good_range spacing rz nz -> order_of sh = Ok o ->
  length datax = length datay -> length datax = length dataz ->
  (length datax <= length (weights_list ws (length datax)))%nat ->
  Forall (fun v => tested_cell (degree o) nx (cell_pos rx nx v) /\ fits_int (cell_pos rx nx v)) datax ->
  Forall (fun v => tested_sign (degree o) ny (cell_pos ry ny v) /\ fits_int (cell_pos ry ny v)) datay ->
  Forall (fun v => tested_third (degree o) nz (cell_pos rz nz v) /\ fits_int (cell_pos rz nz v)) dataz ->
  exists h ex ey ez, histogram3d ub spacing datax datay dataz ws rx ry rz nx ny nz sh = Ok (h, ex, ey, ez)
    /\ a_shape h = [nx; ny; nz]
    /\ np_linspace (fst rx) (snd rx) (nx + 1) = Ok ex /\ np_linspace (fst ry) (snd ry) (ny + 1) = Ok ey
    /\ np_linspace (fst rz) (snd rz) (nz + 1) = Ok ez
    /\ forall i j k, (0 <= i < nx)%Z -> (0 <= j < ny)%Z -> (0 <= k < nz)%Z -> a_at h [i; j; k] ==
       qsum (map (fun vw => bspline (degree o) (cell_dist rx nx i (fst (fst (fst vw)))) *
                            bspline (degree o) (cell_dist ry ny j (snd (fst (fst vw)))) *
                            bspline (degree o) (cell_dist rz nz k (snd (fst vw))) * snd vw)
              (combine (combine (combine datax datay) dataz) (weights_list ws (length datax)))).
Proof.
  intros G G' G'' O EL EL' L F F' F''. rewrite Forall_forall in F, F', F''.
  destruct (histogram3d_shares ub spacing datax datay dataz rx ry rz nx ny nz ws sh o G G' G'' O EL EL' L)
    as (h & ex & ey & ez & H & Sh & E & E' & E'' & V).
  { intros v I. destruct (F' v I) as [_ [_ B]]. exact B. }
  { intros v I. destruct (F'' v I) as [_ [_ B]]. exact B. }
  exists h, ex, ey, ez. do 5 (split; [assumption|]). intros i j k I J K. rewrite V. apply qsum_map_ext.
  intros [[[v v'] v''] w] IN. cbn [fst snd]. apply in_combine_l in IN.
  destruct (F'' v'') as [T'' FI'']; [apply in_combine_r in IN; exact IN|]. apply in_combine_l in IN.
  destruct (F v) as [T FI]; [apply in_combine_l in IN; exact IN|].
  destruct (F' v') as [T' FI']; [apply in_combine_r in IN; exact IN|].
  pose proof (scaled_pos spacing rx nx v G) as SP. pose proof (scaled_pos spacing ry ny v' G') as SP'.
  pose proof (scaled_pos spacing rz nz v'' G'') as SP''.
  rewrite acc_cell_exact; [|exact I|unfold good_range in G; lia| |].
  rewrite acc_sign_exact; [|exact J|unfold good_range in G'; lia| |].
  rewrite acc_third_exact; [|exact K|unfold good_range in G''; lia| | |].
  - rewrite (bspline_ext _ _ (cell_dist rx nx i v)), (bspline_ext _ (_ - (inject_Z j + _)) (cell_dist ry ny j v')),
      (bspline_ext _ (_ - (inject_Z k + _)) (cell_dist rz nz k v'')); [reflexivity|..].
    + rewrite (cell_dist_pos spacing) by exact G''. rewrite SP''. reflexivity.
    + rewrite (cell_dist_pos spacing) by exact G'. rewrite SP'. reflexivity.
    + rewrite (cell_dist_pos spacing) by exact G. rewrite SP. reflexivity.
  - intros D. unfold tested_third in T''. rewrite D in T''. rewrite D.
    apply (tested_sign_ext _ _ (cell_pos rz nz v'')); [symmetry; exact SP''|exact T''].
  - intros D. apply (tested_cell_ext _ _ (cell_pos rz nz v'')); [symmetry; exact SP''|].
    unfold tested_third in T''. destruct (degree o) as [|[|d]]; [exact T''|congruence|exact T''].
  - apply (fits_int_ext (cell_pos rz nz v'')); [symmetry; exact SP''|exact FI''].
  - apply (tested_sign_ext _ _ (cell_pos ry ny v')); [symmetry; exact SP'|exact T'].
  - apply (fits_int_ext (cell_pos ry ny v')); [symmetry; exact SP'|exact FI'].
  - apply (tested_cell_ext _ _ (cell_pos rx nx v)); [symmetry; exact SP|exact T].
  - apply (fits_int_ext (cell_pos rx nx v)); [symmetry; exact SP|exact FI].
Qed.
