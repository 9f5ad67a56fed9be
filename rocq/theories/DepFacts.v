(** Lemmas about particle deposition (DepModel) against DepSpec. *)
From Coq Require Import Lia Lqa Permutation Qround Qabs ZifyBool ZifyNat.
From Verif Require Import PyBase PyBaseFacts NumpyModel NumpyFacts QSum DepSpec DepModel.

(** *** Truncation *)
Lemma trunc_floor x : 0 <= x -> trunc x = Qfloor x.
Proof.
  intros H. unfold trunc, Qfloor. destruct x as [p q]. cbn [Qnum Qden].
  apply Z.quot_div_nonneg; [|lia]. unfold Qle in H; cbn in H; lia.
Qed.

Lemma trunc_nonneg x : 0 <= x ->
  (0 <= trunc x)%Z /\ inject_Z (trunc x) <= x /\ x < inject_Z (trunc x) + 1.
Proof.
  intros H. rewrite trunc_floor by exact H. repeat split.
  - change 0%Z with (Qfloor 0). apply Qfloor_resp_le. exact H.
  - apply Qfloor_le.
  - pose proof (Qlt_floor x) as L. rewrite inject_Z_plus in L. exact L.
Qed.

Lemma trunc_opp x : trunc (- x) = (- trunc x)%Z.
Proof. unfold trunc. destruct x as [p q]. cbn [Qnum Qden Qopp]. apply Z.quot_opp_l. lia. Qed.

Lemma trunc_neg x : x <= 0 ->
  (trunc x <= 0)%Z /\ x <= inject_Z (trunc x) /\ inject_Z (trunc x) - 1 < x.
Proof.
  intros H. destruct (trunc_nonneg (- x)) as (A & B & C); [lra|].
  rewrite trunc_opp in *. rewrite inject_Z_opp in *. repeat split; [lia|lra|lra].
Qed.

Lemma trunc_unique x z : 0 <= x -> inject_Z z <= x -> x < inject_Z z + 1 -> trunc x = z.
Proof.
  intros H A B. destruct (trunc_nonneg x H) as (_ & C & D).
  assert (inject_Z (trunc x) < inject_Z (z + 1)) by (rewrite inject_Z_plus; change (inject_Z 1) with 1; lra).
  assert (inject_Z z < inject_Z (trunc x + 1)) by (rewrite inject_Z_plus; change (inject_Z 1) with 1; lra).
  rewrite <- Zlt_Qlt in *. lia.
Qed.

Lemma trunc_zero x : - (1) < x -> x < 1 -> trunc x = 0%Z.
Proof.
  intros A B. destruct (Qlt_le_dec x 0) as [N|P].
  - assert (E : trunc (- x) = 0%Z) by (apply trunc_unique; change (inject_Z 0) with 0; lra).
    rewrite trunc_opp in E. lia.
  - apply trunc_unique; change (inject_Z 0) with 0; lra.
Qed.

Lemma c_int_fits ub x : 0 <= x -> x < inject_Z int_max + 1 -> c_int ub x = trunc x.
Proof.
  intros A B. unfold c_int. destruct (trunc_nonneg x A) as (C & D & E).
  assert (L : inject_Z (trunc x) < inject_Z (int_max + 1)) by (rewrite inject_Z_plus; change (inject_Z 1) with 1; lra).
  rewrite <- Zlt_Qlt in L. unfold int_min, int_max in *.
  destruct ((_ <=? _) && (_ <=? _))%Z eqn:EQ; [reflexivity|lia].
Qed.

(** *** Increments *)
Definition amount (ws : list (list Z * Q)) (j : list Z) : Q :=
  qsum (map (fun iv => if idx_eqb (fst iv) j then snd iv else 0) ws).

Lemma idx_eqb_eq a b : idx_eqb a b = true <-> a = b.
Proof.
  revert b. induction a as [|x a IH]; intros [|y b]; cbn [idx_eqb]; try (split; [discriminate || reflexivity|discriminate || reflexivity]).
  rewrite andb_true_iff, Z.eqb_eq, IH. split; [intros [-> ->]; reflexivity|intros [= -> ->]; auto].
Qed.

Lemma add_all_ok ws : forall a, Forall (fun iv => in_shape (a_shape a) (fst iv) = true) ws ->
  exists a', add_all a ws = Ok a' /\ a_shape a' = a_shape a
             /\ forall j, a_at a' j == a_at a j + amount ws j.
Proof.
  induction ws as [|[i v] ws IH]; intros a H; cbn [add_all].
  - exists a. repeat split. intros j. unfold amount. cbn [map]. rewrite qsum_nil. ring.
  - inversion H as [|? ? H1 H2]; subst. cbn [fst] in H1. unfold add_at. rewrite H1. cbn [bind].
    destruct (IH (mkarr (a_shape a) (fun j => if idx_eqb i j then a_at a j + v else a_at a j)) H2)
      as (a' & E & S & V).
    exists a'. split; [exact E|]. split; [exact S|]. intros j. rewrite V. cbn [a_at].
    unfold amount. cbn [map fst snd]. rewrite qsum_cons. destruct (idx_eqb i j); ring.
Qed.


Lemma amount_app a b j : amount (a ++ b) j == amount a j + amount b j.
Proof. unfold amount. rewrite map_app. apply qsum_app. Qed.

(** total increment of a list of weighted particles *)
Definition depsum {P} (accept : P -> bool) (writes : P -> Q -> list (list Z * Q))
    (pws : list (P * Q)) (j : list Z) : Q :=
  qsum (map (fun pw => if accept (fst pw) then amount (writes (fst pw) (snd pw)) j else 0) pws).

Definition wtail (ws : option (list Q)) (i n : nat) : list Q :=
  match ws with None => repeat 1 n | Some l => skipn i l end.

Lemma weight_at_tail ws i n w rest : wtail ws i (S n) = w :: rest ->
  weight_at ws i = Ok w /\ wtail ws (S i) n = rest.
Proof.
  destruct ws as [l|]; cbn [wtail weight_at].
  - intros H. assert (E : nth_error l i = Some w).
    { replace i with (i + 0)%nat by lia. rewrite <- nth_error_skipn, H. reflexivity. }
    rewrite E. split; [reflexivity|].
    change (S i) with (1 + i)%nat. revert H. clear.
    revert l. induction i as [|i IH]; intros l H; destruct l as [|x l]; cbn in *; try discriminate.
    + injection H. auto.
    + apply IH. exact H.
  - cbn [repeat]. intros [= <- <-]. split; reflexivity.
Qed.


(** *** One coordinate: the share of cell j of the padded array *)
Definition share ub (o : order) (x : Q) (j : Z) : Q :=
  let xr := cell ub o x in
  qsum (map (fun k => if (xr + base o + Z.of_nat k =? j)%Z
                      then wnth (weights_of o x xr) k else 0) (offsets o)).

Lemma qsum_if_mul {A} (p : A -> bool) (f : A -> Q) c l :
  qsum (map (fun k => if p k then f k * c else 0) l)
  == qsum (map (fun k => if p k then f k else 0) l) * c.
Proof.
  rewrite <- qsum_map_scale_r. apply qsum_map_ext. intros k _. destruct (p k); ring.
Qed.

Lemma amount_writes1 ub o x w j : amount (writes1 ub o x w) [j] == share ub o x j * w.
Proof.
  unfold amount, writes1, share. rewrite map_map. cbn [fst snd idx_eqb].
  rewrite <- qsum_if_mul. apply qsum_map_ext. intros k _. rewrite andb_true_r. reflexivity.
Qed.

Lemma amount_writes2 ub o x y w i j :
  amount (writes2 ub o (x, y) w) [i; j] == share ub o x i * share ub o y j * w.
Proof.
  unfold amount, writes2. rewrite qsum_flat_map.
  transitivity (qsum (map (fun k => (if (cell ub o x + base o + Z.of_nat k =? i)%Z
      then wnth (weights_of o x (cell ub o x)) k else 0) * (share ub o y j * w)) (offsets o))).
  - apply qsum_map_ext. intros k _. rewrite map_map. cbn [fst snd idx_eqb].
    destruct (Z.eqb_spec (cell ub o x + base o + Z.of_nat k) i) as [E|E]; cbn [andb].
    + unfold share. set (c := wnth _ k).
      rewrite <- qsum_map_scale_r. rewrite <- qsum_map_scale. apply qsum_map_ext.
      intros m _. rewrite andb_true_r. destruct (Z.eqb _ j); ring.
    + rewrite qsum_zero by (intros; reflexivity). ring.
  - rewrite qsum_map_scale_r. unfold share at 2. ring.
Qed.

Lemma amount_writes3 ub o x y z w i j k :
  amount (writes3 ub o (x, y, z) w) [i; j; k]
  == share ub o x i * share ub o y j * share ub o z k * w.
Proof.
  unfold amount, writes3. rewrite qsum_flat_map.
  transitivity (qsum (map (fun a => (if (cell ub o x + base o + Z.of_nat a =? i)%Z
      then wnth (weights_of o x (cell ub o x)) a else 0) * (share ub o y j * share ub o z k * w)) (offsets o))).
  - apply qsum_map_ext. intros a _. rewrite qsum_flat_map.
    transitivity (qsum (map (fun b => (if (cell ub o y + base o + Z.of_nat b =? j)%Z
      then wnth (weights_of o y (cell ub o y)) b else 0) *
      ((if (cell ub o x + base o + Z.of_nat a =? i)%Z
      then wnth (weights_of o x (cell ub o x)) a else 0) * share ub o z k * w)) (offsets o))).
    + apply qsum_map_ext. intros b _. rewrite map_map. cbn [fst snd idx_eqb].
      destruct (Z.eqb_spec (cell ub o x + base o + Z.of_nat a) i) as [E|E]; cbn [andb].
      * destruct (Z.eqb_spec (cell ub o y + base o + Z.of_nat b) j) as [E'|E']; cbn [andb].
        -- set (ca := wnth _ a). set (cb := wnth _ b). unfold share.
           transitivity (ca * cb * w * share ub o z k); [|unfold share; ring].
           unfold share. rewrite <- qsum_map_scale.
           apply qsum_map_ext. intros m _. rewrite andb_true_r.
           destruct (Z.eqb _ k); ring.
        -- rewrite qsum_zero by (intros; reflexivity). ring.
      * rewrite qsum_zero by (intros; reflexivity). ring.
    + rewrite qsum_map_scale_r. unfold share; ring.
  - rewrite qsum_map_scale_r. unfold share; ring.
Qed.

(** *** Shares are B-spline values *)
Ltac injc H :=
  repeat match type of H with
  | context [inject_Z (Zpos ?p)] => change (inject_Z (Zpos p)) with (Zpos p # 1) in H
  | context [inject_Z (Zneg ?p)] => change (inject_Z (Zneg p)) with (Zneg p # 1) in H
  end.

Definition degree (o : order) : nat :=
  match o with NGP => 0 | Tophat => 1 | Triangle => 2 | Spline3 => 3 end.

(** where the reference cell is the floor of the (shifted) position *)
Definition ref_ok (o : order) (x : Q) (xr : Z) : Prop :=
  match o with
  | NGP | Triangle => inject_Z xr <= x /\ x < inject_Z xr + 1
  | Tophat | Spline3 => inject_Z xr <= x + (1#2) /\ x + (1#2) < inject_Z xr + 1
  end.

Lemma bspline_ext n u v : u == v -> bspline n u == bspline n v.
Proof.
  intros E. assert (EA : qabs u == qabs v) by (rewrite !qabs_Qabs, E; reflexivity).
  unfold bspline. set (a := qabs u) in *. set (b := qabs v) in *. clearbody a b.
  destruct n as [|[|[|n]]].
  - destruct (Qleb_spec (- (1#2)) u), (Qleb_spec (- (1#2)) v); cbn [andb]; try lra;
      destruct (Qltb_spec u (1#2)), (Qltb_spec v (1#2)); lra.
  - destruct (Qleb_spec a 1), (Qleb_spec b 1); lra.
  - destruct (Qleb_spec a (1#2)), (Qleb_spec b (1#2)); try lra; [rewrite EA; reflexivity|].
    destruct (Qleb_spec a (3#2)), (Qleb_spec b (3#2)); try lra. rewrite EA; reflexivity.
  - destruct (Qleb_spec a 1), (Qleb_spec b 1); try lra; [rewrite EA; reflexivity|].
    destruct (Qleb_spec a 2), (Qleb_spec b 2); try lra. rewrite EA; reflexivity.
Qed.

(** beyond its reach a particle contributes nothing *)
Lemma bspline_out n u : reach n < qabs u -> bspline n u == 0.
Proof.
  unfold bspline, reach. set (a := qabs u). intros H.
  destruct n as [|[|[|n]]].
  - destruct (Qleb_spec (- (1#2)) u) as [A|A]; cbn [andb]; [|reflexivity].
    destruct (Qltb_spec u (1#2)) as [B|B]; [|reflexivity].
    subst a. unfold qabs in H. destruct (Qleb_spec 0 u); lra.
  - destruct (Qleb_spec a 1); lra.
  - destruct (Qleb_spec a (1#2)); [lra|]. destruct (Qleb_spec a (3#2)); lra.
  - destruct (Qleb_spec a 1); [lra|]. destruct (Qleb_spec a 2); lra.
Qed.

Lemma cube_nonneg a : 0 <= a -> 0 <= a * a * a.
Proof. intros. nra. Qed.

Lemma bspline_nonneg n u : 0 <= bspline n u.
Proof.
  unfold bspline. pose proof (qabs_nonneg u). set (a := qabs u) in *. clearbody a.
  destruct n as [|[|[|n]]].
  - destruct (_ && _); lra.
  - destruct (Qleb_spec a 1); lra.
  - destruct (Qleb_spec a (1#2)); [nra|]. destruct (Qleb_spec a (3#2)); nra.
  - destruct (Qleb_spec a 1).
    + assert (0 <= a * a * a) by (apply cube_nonneg; assumption).
      assert (a * a * a / 2 == (1#2) * (a * a * a)) by field. nra.
    + destruct (Qleb_spec a 2); [|lra].
      assert (0 <= (2 - a) * (2 - a) * (2 - a)) by (apply cube_nonneg; lra).
      assert ((2 - a) * (2 - a) * (2 - a) / 6 == (1#6) * ((2 - a) * (2 - a) * (2 - a))) by field. lra.
Qed.

Lemma bspline_le1 n u : bspline n u <= 1.
Proof.
  unfold bspline. pose proof (qabs_nonneg u). set (a := qabs u) in *. clearbody a.
  destruct n as [|[|[|n]]].
  - destruct (_ && _); lra.
  - destruct (Qleb_spec a 1); lra.
  - destruct (Qleb_spec a (1#2)); [nra|]. destruct (Qleb_spec a (3#2)); nra.
  - destruct (Qleb_spec a 1).
    + assert (a * a * a / 2 == (1#2) * (a * a * a)) by field. nra.
    + destruct (Qleb_spec a 2); [|lra].
      assert ((2 - a) * (2 - a) * (2 - a) / 6 == (1#6) * ((2 - a) * (2 - a) * (2 - a))) by field.
      assert ((2 - a) * (2 - a) <= 1) by nra. nra.
Qed.

Lemma share_ref ub o x i : ref_ok o x (cell ub o x) ->
  share ub o x (i + supp o) == bspline (degree o) (x - (inject_Z i + (1#2))).
Proof.
  unfold share. set (xr := cell ub o x). clearbody xr. intros R.
  set (d := (i - xr)%Z).
  assert (Ei : inject_Z i == inject_Z xr + inject_Z d)
    by (rewrite <- inject_Z_plus; unfold d; replace (xr + (i - xr))%Z with i by lia; reflexivity).
  rewrite (bspline_ext (degree o) _ (x - inject_Z xr - inject_Z d - (1#2))) by (rewrite Ei; ring).
  assert (Eif : forall k : nat, (xr + base o + Z.of_nat k =? i + supp o)%Z
                = (Z.of_nat k =? d + (supp o - base o))%Z) by (intros; unfold d; lia).
  rewrite (qsum_map_ext _ (fun k : nat => if (Z.of_nat k =? d + (supp o - base o))%Z
                      then wnth (weights_of o x xr) k else 0)) by (intros k _; rewrite Eif; reflexivity).
  clear Ei Eif. clearbody d. set (t := x - inject_Z xr).
  destruct o; cbn [ref_ok degree supp base offsets width seq map weights_of wnth nth] in *;
    rewrite ?qsum_cons, qsum_nil; cbn [Z.of_nat Pos.of_succ_nat Pos.succ].
  - (* NGP *)
    destruct (Z.eq_dec d 0) as [->|N].
    + cbn [Z.eqb Z.add Z.sub Z.opp]. unfold bspline. change (inject_Z 0) with 0.
      destruct (Qleb_spec (- (1#2)) (t - 0 - (1#2))); cbn [andb]; [|unfold t in *; lra].
      destruct (Qltb_spec (t - 0 - (1#2)) (1#2)); unfold t in *; lra.
    + destruct (Z.eqb_spec 0 (d + (0 - 0))); [lia|].
      unfold bspline.
      assert (C : (1 <= d \/ d <= -1)%Z) by lia.
      destruct C as [C|C]; rewrite Zle_Qle in C; injc C.
      * destruct (Qleb_spec (- (1#2)) (t - inject_Z d - (1#2))); cbn [andb]; [unfold t in *; lra|lra].
      * destruct (Qleb_spec (- (1#2)) (t - inject_Z d - (1#2))); cbn [andb]; [|lra].
        destruct (Qltb_spec (t - inject_Z d - (1#2)) (1#2)); unfold t in *; lra.
  - (* Tophat *)
    change (d + (1 - (1 - 1)))%Z with (d + 1)%Z.
    destruct (Z.eq_dec d (-1)) as [->|N1]; [|destruct (Z.eq_dec d 0) as [->|N2]].
    + cbn [Z.eqb Z.add Z.opp]. unfold bspline. change (inject_Z (-1)) with (- (1)).
      cbn [Z.pos_sub]. rewrite qabs_pos by (unfold t in *; lra).
      destruct (Qleb_spec (t - - (1) - (1#2)) 1); unfold t in *; cbn; lra.
    + cbn [Z.eqb Z.add]. unfold bspline. change (inject_Z 0) with 0.
      cbn. rewrite qabs_neg by (unfold t in *; lra).
      destruct (Qleb_spec (- (t - 0 - (1#2))) 1); unfold t in *; lra.
    + destruct (Z.eqb_spec 0 (d + 1)); [lia|]. destruct (Z.eqb_spec 1 (d + 1)); [lia|].
      assert (C : (1 <= d \/ d <= -2)%Z) by lia. unfold bspline.
      destruct C as [C|C]; rewrite Zle_Qle in C; injc C.
      * rewrite qabs_neg by (unfold t in *; lra).
        destruct (Qleb_spec (- (t - inject_Z d - (1#2))) 1); unfold t in *; lra.
      * rewrite qabs_pos by (unfold t in *; lra).
        destruct (Qleb_spec (t - inject_Z d - (1#2)) 1); unfold t in *; lra.
  - (* Triangle *)
    change (d + (2 - (2 - 1)))%Z with (d + 1)%Z.
    destruct (Z.eq_dec d (-1)) as [->|N1]; [|destruct (Z.eq_dec d 0) as [->|N2]; [|destruct (Z.eq_dec d 1) as [->|N3]]].
    + change (-1 + 1)%Z with 0%Z. cbn [Z.eqb]. unfold bspline. change (inject_Z (-1)) with (- (1)).
      rewrite qabs_pos by (unfold t in *; lra).
      destruct (Qleb_spec (t - - (1) - (1#2)) (1#2)); [|destruct (Qleb_spec (t - - (1) - (1#2)) (3#2))];
        fold t; [assert (T : t == 0) by (unfold t in *; lra); rewrite T; ring|ring|unfold t in *; lra].
    + change (0 + 1)%Z with 1%Z. cbn [Z.eqb]. unfold bspline. change (inject_Z 0) with 0. cbn [Pos.eqb].
      assert (A : qabs (t - 0 - (1#2)) * qabs (t - 0 - (1#2)) == (t - (1#2)) * (t - (1#2))).
      { unfold qabs. destruct (Qleb_spec 0 (t - 0 - (1#2))); ring. }
      assert (B : qabs (t - 0 - (1#2)) <= (1#2)).
      { unfold qabs. destruct (Qleb_spec 0 (t - 0 - (1#2))); unfold t in *; lra. }
      destruct (Qleb_spec (qabs (t - 0 - (1#2))) (1#2)); [|lra]. rewrite A. fold t. ring.
    + change (1 + 1)%Z with 2%Z. cbn [Z.eqb Pos.eqb]. unfold bspline. change (inject_Z 1) with 1.
      rewrite qabs_neg by (unfold t in *; lra).
      destruct (Qleb_spec (- (t - 1 - (1#2))) (1#2)); [unfold t in *; lra|].
      destruct (Qleb_spec (- (t - 1 - (1#2))) (3#2)); [fold t; ring|unfold t in *; lra].
    + destruct (Z.eqb_spec 0 (d + 1)); [lia|]. destruct (Z.eqb_spec 1 (d + 1)); [lia|].
      destruct (Z.eqb_spec 2 (d + 1)); [lia|].
      assert (C : (2 <= d \/ d <= -2)%Z) by lia. unfold bspline.
      destruct C as [C|C]; rewrite Zle_Qle in C; injc C.
      * rewrite qabs_neg by (unfold t in *; lra).
        destruct (Qleb_spec (- (t - inject_Z d - (1#2))) (1#2)); [unfold t in *; lra|].
        destruct (Qleb_spec (- (t - inject_Z d - (1#2))) (3#2)); [unfold t in *; lra|ring].
      * rewrite qabs_pos by (unfold t in *; lra).
        destruct (Qleb_spec (t - inject_Z d - (1#2)) (1#2)); [unfold t in *; lra|].
        destruct (Qleb_spec (t - inject_Z d - (1#2)) (3#2)); [|ring].
        assert (E1 : t - inject_Z d - (1#2) == 3#2) by (unfold t in *; lra). rewrite E1. ring.
  - (* Spline3 *)
    change (d + (3 - (3 - 2)))%Z with (d + 2)%Z.
    destruct (Z.eq_dec d (-2)) as [->|N1]; [|destruct (Z.eq_dec d (-1)) as [->|N2];
      [|destruct (Z.eq_dec d 0) as [->|N3]; [|destruct (Z.eq_dec d 1) as [->|N4]]]].
    + change (-2 + 2)%Z with 0%Z. cbn [Z.eqb Pos.eqb]. unfold bspline. change (inject_Z (-2)) with (- (2)).
      rewrite qabs_pos by (unfold t in *; lra).
      destruct (Qleb_spec (t - - (2) - (1#2)) 1); fold t.
      { assert (T : t == - (1#2)) by (unfold t in *; lra). rewrite T. reflexivity. }
      destruct (Qleb_spec (t - - (2) - (1#2)) 2); [field|unfold t in *; lra].
    + change (-1 + 2)%Z with 1%Z. cbn [Z.eqb Pos.eqb]. unfold bspline. change (inject_Z (-1)) with (- (1)).
      rewrite qabs_pos by (unfold t in *; lra).
      destruct (Qleb_spec (t - - (1) - (1#2)) 1); fold t; [field|unfold t in *; lra].
    + change (0 + 2)%Z with 2%Z. cbn [Z.eqb Pos.eqb]. unfold bspline. change (inject_Z 0) with 0.
      rewrite qabs_neg by (unfold t in *; lra).
      destruct (Qleb_spec (- (t - 0 - (1#2))) 1); fold t; [field|unfold t in *; lra].
    + change (1 + 2)%Z with 3%Z. cbn [Z.eqb Pos.eqb]. unfold bspline. change (inject_Z 1) with 1.
      rewrite qabs_neg by (unfold t in *; lra).
      destruct (Qleb_spec (- (t - 1 - (1#2))) 1); fold t; [unfold t in *; lra|].
      destruct (Qleb_spec (- (t - 1 - (1#2))) 2); [field|unfold t in *; lra].
    + destruct (Z.eqb_spec 0 (d + 2)); [lia|]. destruct (Z.eqb_spec 1 (d + 2)); [lia|].
      destruct (Z.eqb_spec 2 (d + 2)); [lia|]. destruct (Z.eqb_spec 3 (d + 2)); [lia|].
      assert (C : (2 <= d \/ d <= -3)%Z) by lia. unfold bspline.
      destruct C as [C|C]; rewrite Zle_Qle in C; injc C.
      * rewrite qabs_neg by (unfold t in *; lra).
        destruct (Qleb_spec (- (t - inject_Z d - (1#2))) 1); [unfold t in *; lra|].
        destruct (Qleb_spec (- (t - inject_Z d - (1#2))) 2); [unfold t in *; lra|ring].
      * rewrite qabs_pos by (unfold t in *; lra).
        destruct (Qleb_spec (t - inject_Z d - (1#2)) 1); [unfold t in *; lra|].
        destruct (Qleb_spec (t - inject_Z d - (1#2)) 2); [|ring].
        assert (E1 : t - inject_Z d - (1#2) == 2) by (unfold t in *; lra). rewrite E1. reflexivity.
Qed.

(** *** Per coordinate acceptance *)
Definition acc_cell ub (o : order) (n : Z) (x : Q) : bool :=
  match o with
  | NGP => (0 <?q x) && (x <?q inject_Z n)
  | _ => ((0 <=? cell ub o x) && (cell ub o x <=? n))%Z
  end.
Definition acc_sign ub (o : order) (n : Z) (x : Q) : bool :=
  match o with
  | NGP => (0 <?q x) && (x <?q inject_Z n)
  | _ => (0 <=?q x) && (cell ub o x <=? n)%Z
  end.
(** the third coordinate *)
Definition acc_third ub (o : order) (n : Z) (x : Q) : bool :=
  match o with Tophat => acc_sign ub o n x | _ => acc_cell ub o n x end.

Ltac bools := repeat match goal with
  | |- context [?a && ?b] => destruct a; cbn [andb]; try reflexivity
  end.

Lemma accept1_acc ub o n x : accept1 ub o n x = acc_cell ub o n x.
Proof. destruct o; reflexivity. Qed.
Lemma accept2_acc ub o n m x y : accept2 ub o n m (x, y) = acc_cell ub o n x && acc_sign ub o m y.
Proof.
  destruct o; cbn [accept2 acc_cell acc_sign].
  - destruct (0 <?q x), (0 <?q y), (x <?q inject_Z n), (y <?q inject_Z m); reflexivity.
  - destruct (0 <=? _)%Z, (0 <=?q y), (_ <=? n)%Z, (_ <=? m)%Z; reflexivity.
  - destruct (0 <=? _)%Z, (0 <=?q y), (_ <=? n)%Z, (_ <=? m)%Z; reflexivity.
  - destruct (0 <=? _)%Z, (0 <=?q y), (_ <=? n)%Z, (_ <=? m)%Z; reflexivity.
Qed.
Lemma accept3_acc ub o n m k x y z : accept3 ub o n m k (x, y, z)
  = acc_cell ub o n x && acc_sign ub o m y && acc_third ub o k z.
Proof.
  destruct o; cbn [accept3 acc_cell acc_sign acc_third].
  - destruct (0 <?q x), (0 <?q y), (0 <?q z), (x <?q inject_Z n), (y <?q inject_Z m), (z <?q inject_Z k); reflexivity.
  - destruct (0 <=? cell ub Tophat x)%Z, (0 <=?q y), (0 <=?q z), (_ <=? n)%Z, (_ <=? m)%Z, (_ <=? k)%Z; reflexivity.
  - destruct (0 <=? cell ub Triangle x)%Z, (0 <=?q y), (0 <=? cell ub Triangle z)%Z, (_ <=? n)%Z, (_ <=? m)%Z, (_ <=? k)%Z; reflexivity.
  - destruct (0 <=? cell ub Spline3 x)%Z, (0 <=?q y), (0 <=? cell ub Spline3 z)%Z, (_ <=? n)%Z, (_ <=? m)%Z, (_ <=? k)%Z; reflexivity.
Qed.

(** the index of every touched cell lies in the padded array *)
Definition cell_bounded (o : order) (n c : Z) : Prop :=
  match o with NGP => (0 <= c < n)%Z | _ => (0 <= c <= n)%Z end.

Lemma touched_in_bounds o n c k : cell_bounded o n c -> In k (offsets o) ->
  (0 <= c + base o + Z.of_nat k < n + 2 * supp o)%Z.
Proof.
  intros B I. unfold offsets in I. apply in_seq in I.
  destruct o; cbn [cell_bounded base supp width] in *; lia.
Qed.

Lemma ngp_bounded ub n x : (n <= int_max)%Z -> (0 <?q x) && (x <?q inject_Z n) = true ->
  cell_bounded NGP n (cell ub NGP x).
Proof.
  intros N H. apply andb_true_iff in H as [A B]. apply Qltb_lt in A, B.
  cbn [cell cell_bounded]. rewrite c_int_fits; [|lra|].
  - destruct (trunc_nonneg x) as (C & D & E); [lra|].
    assert (L : inject_Z (trunc x) < inject_Z n) by lra. rewrite <- Zlt_Qlt in L. lia.
  - rewrite Zle_Qle in N. lra.
Qed.

Lemma acc_cell_bounded ub o n x : (n <= int_max)%Z -> acc_cell ub o n x = true ->
  cell_bounded o n (cell ub o x).
Proof.
  intros N H. destruct o; [apply ngp_bounded; assumption|..]; cbn [acc_cell cell_bounded] in *; lia.
Qed.

Lemma acc_sign_bounded ub o n x : (n <= int_max)%Z ->
  (0 <= x -> (0 <= cell ub o x)%Z) -> acc_sign ub o n x = true ->
  cell_bounded o n (cell ub o x).
Proof.
  intros N P H. destruct o; [apply ngp_bounded; assumption|..]; cbn [acc_sign cell_bounded] in *;
    apply andb_true_iff in H as [A B]; apply Qle_bool_iff in A; specialize (P A); lia.
Qed.

Lemma acc_third_bounded ub o n x : (n <= int_max)%Z ->
  (0 <= x -> (0 <= cell ub o x)%Z) -> acc_third ub o n x = true ->
  cell_bounded o n (cell ub o x).
Proof.
  intros N P H. destruct o; cbn [acc_third] in H;
    [apply acc_cell_bounded|apply acc_sign_bounded|apply acc_cell_bounded|apply acc_cell_bounded]; assumption.
Qed.

Lemma cell_nonneg_fits ub o x : x < inject_Z int_max -> 0 <= x -> (0 <= cell ub o x)%Z.
Proof.
  intros F P. destruct o; cbn [cell].
  - rewrite c_int_fits by lra. apply trunc_nonneg. exact P.
  - rewrite c_int_fits by lra. apply trunc_nonneg. lra.
  - rewrite c_int_fits by lra. apply trunc_nonneg. exact P.
  - rewrite c_int_fits by lra. apply trunc_nonneg. lra.
Qed.

Lemma ref_ok_from ub o x :
  (match o with NGP | Triangle => 0 <= x | _ => - (1#2) <= x end) -> x < inject_Z int_max ->
  ref_ok o x (cell ub o x).
Proof.
  intros L F. destruct o; cbn [ref_ok cell].
  - rewrite c_int_fits by lra. destruct (trunc_nonneg x L) as (_ & A & B). split; assumption.
  - rewrite c_int_fits by lra. destruct (trunc_nonneg (x + (1#2))) as (_ & A & B); [lra|]. split; assumption.
  - rewrite c_int_fits by lra. destruct (trunc_nonneg x L) as (_ & A & B). split; assumption.
  - rewrite c_int_fits by lra. destruct (trunc_nonneg (x + (1#2))) as (_ & A & B); [lra|]. split; assumption.
Qed.

Lemma c_int_low ub x : x <= - (1) -> - inject_Z (2 ^ 31) <= x -> (c_int ub x <= -1)%Z.
Proof.
  intros A B. unfold c_int. destruct (trunc_neg x) as (C & D & E); [lra|].
  assert (L1 : inject_Z (trunc x) < inject_Z 0).
  { destruct (Z_lt_le_dec (trunc x) 0) as [T|T]; [rewrite <- Zlt_Qlt; exact T|].
    exfalso. assert (trunc x = 0%Z) by lia.
    destruct (trunc_nonneg (- x)) as (_ & _ & G); [lra|]. rewrite trunc_opp in G.
    rewrite H in G. change (inject_Z (- 0)) with 0 in G. assert (x == - (1)) by lra.
    assert (K : trunc x = (-1)%Z); [|lia].
    rewrite <- (Z.opp_involutive (trunc x)), <- trunc_opp.
    rewrite (trunc_unique (- x) 1); [reflexivity|lra|change (inject_Z 1) with 1; lra|change (inject_Z 1) with 1; lra]. }
  assert (L2 : inject_Z (- 2^31) < inject_Z (trunc x + 1)).
  { rewrite inject_Z_opp, inject_Z_plus. change (inject_Z 1) with 1.
    destruct (trunc_nonneg (- x)) as (_ & G & _); [lra|]. rewrite trunc_opp, inject_Z_opp in G. lra. }
  rewrite <- Zlt_Qlt in L1, L2. unfold int_min, int_max.
  destruct ((_ <=? _) && (_ <=? _))%Z eqn:EQ; lia.
Qed.

Lemma bspline_out_le n u : (0 < n)%nat -> reach n <= qabs u -> bspline n u == 0.
Proof.
  intros P H. destruct (Qlt_le_dec (reach n) (qabs u)) as [L|L]; [apply bspline_out; exact L|].
  assert (E : qabs u == reach n) by lra. clear H L.
  unfold bspline. destruct n as [|[|[|n]]]; [lia|..]; cbn [reach] in *; set (a := qabs u) in *; clearbody a.
  - destruct (Qleb_spec a 1); lra.
  - destruct (Qleb_spec a (1#2)); [lra|]. destruct (Qleb_spec a (3#2)); [|lra]. rewrite E. reflexivity.
  - destruct (Qleb_spec a 1); [lra|]. destruct (Qleb_spec a 2); [|lra]. rewrite E. reflexivity.
Qed.

(** a particle far enough from all cells overlaps none of them *)
Lemma bspline_below n x i : (0 <= i)%Z -> (0 < n)%nat -> x <= (1#2) - reach n ->
  bspline n (x - (inject_Z i + (1#2))) == 0.
Proof.
  intros I P H. rewrite Zle_Qle in I. change (inject_Z 0) with 0 in I.
  apply bspline_out_le; [exact P|].
  assert (0 < reach n) by (unfold reach; destruct n as [|[|[|n]]]; lra).
  rewrite qabs_neg by lra. lra.
Qed.
Lemma bspline_above n x b i : (i < b)%Z -> (0 < n)%nat -> inject_Z b - (1#2) + reach n <= x ->
  bspline n (x - (inject_Z i + (1#2))) == 0.
Proof.
  intros I P H. assert (I' : (i + 1 <= b)%Z) by lia. rewrite Zle_Qle, inject_Z_plus in I'.
  change (inject_Z 1) with 1 in I'. apply bspline_out_le; [exact P|].
  assert (0 < reach n) by (unfold reach; destruct n as [|[|[|n]]]; lra).
  rewrite qabs_pos by lra. lra.
Qed.

Lemma bspline0_out x i b : (0 <= i < b)%Z -> x < 0 \/ inject_Z b <= x ->
  bspline 0 (x - (inject_Z i + (1#2))) == 0.
Proof.
  intros [I J] H. assert (J' : (i + 1 <= b)%Z) by lia. rewrite Zle_Qle in I, J'.
  rewrite inject_Z_plus in J'. change (inject_Z 1) with 1 in J'. change (inject_Z 0) with 0 in I.
  unfold bspline. destruct (Qleb_spec (- (1#2)) (x - (inject_Z i + (1#2)))) as [A|A]; cbn [andb]; [|reflexivity].
  destruct (Qltb_spec (x - (inject_Z i + (1#2))) (1#2)) as [B|B]; [|reflexivity].
  destruct H; lra.
Qed.

Definition gated (acc : bool) (s : Q) : Q := if acc then s else 0.

Lemma ngp_exact ub n x i : (0 <= i < n)%Z -> (n < int_max)%Z -> ~ x == 0 -> fits_int x ->
  gated ((0 <?q x) && (x <?q inject_Z n)) (share ub NGP x (i + 0))
  == bspline 0 (x - (inject_Z i + (1#2))).
Proof.
  intros I N Z [F1 F2]. fold int_max in *. unfold gated.
  destruct (Qltb_spec 0 x) as [A|A]; cbn [andb].
  - destruct (Qltb_spec x (inject_Z n)) as [B|B].
    + apply (share_ref ub NGP). apply ref_ok_from; lra.
    + symmetry. apply (bspline0_out _ _ n); [exact I|]. right; lra.
  - symmetry. apply (bspline0_out _ _ n); [exact I|]. left. lra.
Qed.

Lemma cell_above ub o n x : (n < int_max)%Z -> 0 <= x -> x < inject_Z int_max ->
  (n < cell ub o x)%Z ->
  match o with NGP | Triangle => inject_Z n + 1 | _ => inject_Z n + (1#2) end <= x.
Proof.
  intros N P F C. assert (R : ref_ok o x (cell ub o x)) by (apply ref_ok_from; destruct o; lra).
  assert (C' : (n + 1 <= cell ub o x)%Z) by lia. rewrite Zle_Qle, inject_Z_plus in C'.
  change (inject_Z 1) with 1 in C'. destruct o; cbn [ref_ok] in R; lra.
Qed.

Lemma acc_cell_exact ub o n x i : (0 <= i < n)%Z -> (n < int_max)%Z ->
  tested_cell (degree o) n x -> fits_int x ->
  gated (acc_cell ub o n x) (share ub o x (i + supp o))
  == bspline (degree o) (x - (inject_Z i + (1#2))).
Proof.
  intros I N [T U] FI. destruct o; [apply ngp_exact; assumption|..];
  destruct FI as [F1 F2]; change (inject_Z (2 ^ 31 - 1)) with (inject_Z int_max) in *;
  cbn [acc_cell degree tested_cell upper_ok gated] in *.
  - destruct T as [T|T].
    + destruct (Z.leb_spec (cell ub Tophat x) n) as [C|C].
      * assert (R : ref_ok Tophat x (cell ub Tophat x)) by (apply ref_ok_from; assumption).
        assert (0 <= cell ub Tophat x)%Z.
        { cbn [cell]. rewrite c_int_fits by lra. apply trunc_nonneg. lra. }
        rewrite (proj2 (Z.leb_le _ _) H). cbn [andb gated]. apply share_ref. exact R.
      * rewrite andb_false_r. cbn [gated]. symmetry. apply (bspline_above _ _ n); [lia|lia|].
        destruct (Qlt_le_dec x 0) as [X|X].
        -- exfalso. cbn [cell] in C. rewrite c_int_fits in C by lra.
           rewrite (trunc_unique _ 0) in C; [lia|lra|change (inject_Z 0) with 0; lra|change (inject_Z 0) with 0; lra].
        -- pose proof (cell_above ub Tophat n x N X F2 C) as CA. cbv iota in CA. cbn [reach]. lra.
    + assert (C : (cell ub Tophat x <= -1)%Z).
      { cbn [cell]. apply c_int_low; [lra|]. change (inject_Z (2^31)) with (inject_Z (int_max + 1)).
        rewrite inject_Z_plus. change (inject_Z 1) with 1. lra. }
      destruct (Z.leb_spec 0 (cell ub Tophat x)); [lia|]. cbn [andb gated]. symmetry.
      apply bspline_below; [lia|lia|cbn [reach]; lra].
  - destruct T as [T|T].
    + destruct (Z.leb_spec (cell ub Triangle x) n) as [C|C].
      * assert (R : ref_ok Triangle x (cell ub Triangle x)) by (apply ref_ok_from; assumption).
        assert (0 <= cell ub Triangle x)%Z by (apply cell_nonneg_fits; lra).
        rewrite (proj2 (Z.leb_le _ _) H). cbn [andb gated]. apply share_ref. exact R.
      * rewrite andb_false_r. cbn [gated]. symmetry. apply (bspline_above _ _ n); [lia|lia|].
        pose proof (cell_above ub Triangle n x N T F2 C) as CA. cbv iota in CA. cbn [reach]. lra.
    + assert (C : (cell ub Triangle x <= -1)%Z).
      { cbn [cell]. apply c_int_low; [lra|]. change (inject_Z (2^31)) with (inject_Z (int_max + 1)).
        rewrite inject_Z_plus. change (inject_Z 1) with 1. lra. }
      destruct (Z.leb_spec 0 (cell ub Triangle x)); [lia|]. cbn [andb gated]. symmetry.
      apply bspline_below; [lia|lia|cbn [reach]; lra].
  - destruct T as [T|T].
    + destruct (Z.leb_spec (cell ub Spline3 x) n) as [C|C].
      * assert (R : ref_ok Spline3 x (cell ub Spline3 x)) by (apply ref_ok_from; assumption).
        assert (0 <= cell ub Spline3 x)%Z.
        { cbn [cell]. rewrite c_int_fits by lra. apply trunc_nonneg. lra. }
        rewrite (proj2 (Z.leb_le _ _) H). cbn [andb gated]. apply share_ref. exact R.
      * rewrite andb_false_r. cbn [gated]. symmetry. apply (bspline_above _ _ n); [lia|lia|].
        destruct (Qlt_le_dec x 0) as [X|X].
        -- exfalso. cbn [cell] in C. rewrite c_int_fits in C by lra.
           rewrite (trunc_unique _ 0) in C; [lia|lra|change (inject_Z 0) with 0; lra|change (inject_Z 0) with 0; lra].
        -- pose proof (cell_above ub Spline3 n x N X F2 C) as CA. cbv iota in CA. cbn [reach]. destruct U; lra.
    + assert (C : (cell ub Spline3 x <= -1)%Z).
      { cbn [cell]. apply c_int_low; [lra|]. change (inject_Z (2^31)) with (inject_Z (int_max + 1)).
        rewrite inject_Z_plus. change (inject_Z 1) with 1. lra. }
      destruct (Z.leb_spec 0 (cell ub Spline3 x)); [lia|]. cbn [andb gated]. symmetry.
      apply bspline_below; [lia|lia|cbn [reach]; lra].
Qed.

Lemma acc_sign_exact ub o n x i : (0 <= i < n)%Z -> (n < int_max)%Z ->
  tested_sign (degree o) n x -> fits_int x ->
  gated (acc_sign ub o n x) (share ub o x (i + supp o))
  == bspline (degree o) (x - (inject_Z i + (1#2))).
Proof.
  intros I N [T U] FI. destruct (Qlt_le_dec x 0) as [X|X].
  - destruct o; [apply ngp_exact; assumption|..]; cbn [acc_sign degree] in *;
      (destruct (Qleb_spec 0 x); [lra|]); cbn [andb gated]; symmetry;
      (apply bspline_below; [lia|lia|]); cbn [reach]; destruct T; lra.
  - rewrite <- (acc_cell_exact ub o n x i I N); [|split; [destruct o; cbn [degree] in *; lra|exact U]|exact FI].
    destruct FI as [_ F]. change (inject_Z (2 ^ 31 - 1)) with (inject_Z int_max) in *.
    destruct o; [reflexivity|..]; cbn [acc_sign acc_cell];
      (destruct (Qleb_spec 0 x); [|lra]);
      rewrite (proj2 (Z.leb_le _ _) (cell_nonneg_fits ub _ x F X)); reflexivity.
Qed.

Lemma acc_third_exact ub o n x i : (0 <= i < n)%Z -> (n < int_max)%Z ->
  (degree o = 1%nat -> tested_sign (degree o) n x) ->
  (degree o <> 1%nat -> tested_cell (degree o) n x) -> fits_int x ->
  gated (acc_third ub o n x) (share ub o x (i + supp o))
  == bspline (degree o) (x - (inject_Z i + (1#2))).
Proof.
  intros I N A B F. destruct o; cbn [acc_third].
  - apply acc_cell_exact; try assumption. apply B. discriminate.
  - apply acc_sign_exact; try assumption. apply A. reflexivity.
  - apply acc_cell_exact; try assumption. apply B. discriminate.
  - apply acc_cell_exact; try assumption. apply B. discriminate.
Qed.
