(** Additivity, order independence, linearity in the weights and symmetry. *)
From Coq Require Import Lia Lqa Permutation ZifyBool ZifyNat.
From Verif Require Import PyBase PyBaseFacts NumpyModel NumpyFacts QSum DepSpec DepModel DepFacts DepHistFacts DepSumFacts.

Lemma combine_fst_snd {A B} (l : list (A * B)) : combine (map fst l) (map snd l) = l.
Proof. induction l as [|[a b] l IH]; cbn; [reflexivity|]. rewrite IH. reflexivity. Qed.

(** particles as (position, weight) *)
Definition hist1 ub spacing r n sh (ps : list (Q * Q)) : res (arr * list Q) :=
  histogram ub spacing (map fst ps) r n (Some (map snd ps)) sh.
Definition hist2 ub spacing rx ry nx ny sh (ps : list (Q * Q * Q)) : res (arr * list Q * list Q) :=
  histogram2d ub spacing (map (fun p => fst (fst p)) ps) (map (fun p => snd (fst p)) ps)
    (Some (map snd ps)) rx ry nx ny sh.
Definition hist3 ub spacing rx ry rz nx ny nz sh (ps : list (Q * Q * Q * Q))
    : res (arr * list Q * list Q * list Q) :=
  histogram3d ub spacing (map (fun p => fst (fst (fst p))) ps) (map (fun p => snd (fst (fst p))) ps)
    (map (fun p => snd (fst p)) ps) (Some (map snd ps)) rx ry rz nx ny nz sh.

Lemma hist1_linear ub spacing r n sh o : good_range spacing r n -> order_of sh = Ok o ->
  exists c : Z -> Q -> Q, forall ps, exists h e, hist1 ub spacing r n sh ps = Ok (h, e) /\ a_shape h = [n]
    /\ np_linspace (fst r) (snd r) (n + 1) = Ok e
    /\ forall i, a_at h [i] == qsum (map (fun vw => c i (fst vw) * snd vw) ps).
Proof.
  intros G O. eexists. intros ps.
  destruct (histogram_shares ub spacing (map fst ps) r n (Some (map snd ps)) sh o G O) as (h & e & H & Sh & E & V).
  { cbn [weights_list]. rewrite !map_length. lia. }
  exists h, e. do 3 (split; [assumption|]). intros i. rewrite V. cbn [weights_list]. rewrite combine_fst_snd.
  apply qsum_map_ext. intros vw _. cbv zeta. 
  instantiate (1 := fun i v => gated (acc_cell ub o n (scaled (fst r) (1 / (snd r - fst r) * inject_Z n) v))
     (share ub o (scaled (fst r) (1 / (snd r - fst r) * inject_Z n) v) (i + supp o))). reflexivity.
Qed.

Lemma combine3 {A B C} (l : list (A * B * C)) :
  combine (combine (map (fun p => fst (fst p)) l) (map (fun p => snd (fst p)) l)) (map snd l) = l.
Proof. induction l as [|[[a b] c] l IH]; cbn; [reflexivity|]. rewrite IH. reflexivity. Qed.
Lemma combine4 {A B C D} (l : list (A * B * C * D)) :
  combine (combine (combine (map (fun p => fst (fst (fst p))) l) (map (fun p => snd (fst (fst p))) l))
     (map (fun p => snd (fst p)) l)) (map snd l) = l.
Proof. induction l as [|[[[a b] c] d] l IH]; cbn; [reflexivity|]. rewrite IH. reflexivity. Qed.

Lemma hist2_linear ub spacing rx ry nx ny sh o : good_range spacing rx nx -> good_range spacing ry ny ->
  order_of sh = Ok o ->
  exists c : Z -> Z -> Q * Q -> Q, forall ps,
    (forall p, In p ps -> cell_pos ry ny (snd (fst p)) < inject_Z int_max) ->
    exists h ex ey, hist2 ub spacing rx ry nx ny sh ps = Ok (h, ex, ey) /\ a_shape h = [nx; ny]
    /\ forall i j, a_at h [i; j] == qsum (map (fun vw => c i j (fst vw) * snd vw) ps).
Proof.
  intros G G' O. eexists. intros ps F.
  destruct (histogram2d_shares ub spacing (map (fun p => fst (fst p)) ps) (map (fun p => snd (fst p)) ps)
     rx ry nx ny (Some (map snd ps)) sh o G G' O) as (h & ex & ey & H & Sh & _ & _ & V).
  { rewrite !map_length. reflexivity. }
  { cbn [weights_list]. rewrite !map_length. lia. }
  { intros v I. apply in_map_iff in I as (p & <- & I). apply F, I. }
  exists h, ex, ey. do 2 (split; [assumption|]). intros i j. rewrite V. cbn [weights_list]. rewrite combine3.
  apply qsum_map_ext. intros vw _. cbv zeta.
  instantiate (1 := fun i j v =>
     gated (acc_cell ub o nx (scaled (fst rx) (1 / (snd rx - fst rx) * inject_Z nx) (fst v)))
       (share ub o (scaled (fst rx) (1 / (snd rx - fst rx) * inject_Z nx) (fst v)) (i + supp o)) *
     gated (acc_sign ub o ny (scaled (fst ry) (1 / (snd ry - fst ry) * inject_Z ny) (snd v)))
       (share ub o (scaled (fst ry) (1 / (snd ry - fst ry) * inject_Z ny) (snd v)) (j + supp o))). reflexivity.
Qed.

Lemma hist3_linear ub spacing rx ry rz nx ny nz sh o : good_range spacing rx nx -> good_range spacing ry ny ->
  good_range spacing rz nz -> order_of sh = Ok o ->
  exists c : Z -> Z -> Z -> Q * Q * Q -> Q, forall ps,
    (forall p, In p ps -> cell_pos ry ny (snd (fst (fst p))) < inject_Z int_max
                          /\ cell_pos rz nz (snd (fst p)) < inject_Z int_max) ->
    exists h ex ey ez, hist3 ub spacing rx ry rz nx ny nz sh ps = Ok (h, ex, ey, ez) /\ a_shape h = [nx; ny; nz]
    /\ forall i j k, a_at h [i; j; k] == qsum (map (fun vw => c i j k (fst vw) * snd vw) ps).
Proof.
  intros G G' G'' O. eexists. intros ps F.
  destruct (histogram3d_shares ub spacing (map (fun p => fst (fst (fst p))) ps) (map (fun p => snd (fst (fst p))) ps)
     (map (fun p => snd (fst p)) ps) rx ry rz nx ny nz (Some (map snd ps)) sh o G G' G'' O)
     as (h & ex & ey & ez & H & Sh & _ & _ & _ & V).
  { rewrite !map_length. reflexivity. }
  { rewrite !map_length. reflexivity. }
  { cbn [weights_list]. rewrite !map_length. lia. }
  { intros v I. apply in_map_iff in I as (p & <- & I). apply F, I. }
  { intros v I. apply in_map_iff in I as (p & <- & I). apply F, I. }
  exists h, ex, ey, ez. do 2 (split; [assumption|]). intros i j k. rewrite V. cbn [weights_list]. rewrite combine4.
  apply qsum_map_ext. intros vw _. cbv zeta.
  instantiate (1 := fun i j k v =>
     gated (acc_cell ub o nx (scaled (fst rx) (1 / (snd rx - fst rx) * inject_Z nx) (fst (fst v))))
       (share ub o (scaled (fst rx) (1 / (snd rx - fst rx) * inject_Z nx) (fst (fst v))) (i + supp o)) *
     gated (acc_sign ub o ny (scaled (fst ry) (1 / (snd ry - fst ry) * inject_Z ny) (snd (fst v))))
       (share ub o (scaled (fst ry) (1 / (snd ry - fst ry) * inject_Z ny) (snd (fst v))) (j + supp o)) *
     gated (acc_third ub o nz (scaled (fst rz) (1 / (snd rz - fst rz) * inject_Z nz) (snd v)))
       (share ub o (scaled (fst rz) (1 / (snd rz - fst rz) * inject_Z nz) (snd v)) (k + supp o))). reflexivity.
Qed.

(** equality of histograms, cell by cell *)
Definition arr_eq (a b : arr) : Prop :=
  a_shape a = a_shape b /\ forall idx, in_shape (a_shape a) idx = true -> a_at a idx == a_at b idx.
Definition arr_add (a b : arr) : arr := mkarr (a_shape a) (fun idx => a_at a idx + a_at b idx).
Definition arr_scale (c : Q) (a : arr) : arr := mkarr (a_shape a) (fun idx => c * a_at a idx).

Lemma in_shape_1 n idx : in_shape [n] idx = true -> exists i, idx = [i] /\ (0 <= i < n)%Z.
Proof.
  destruct idx as [|i [|j idx]]; cbn [in_shape]; try discriminate.
  - intros H. exists i. split; [reflexivity|]. lia.
  - rewrite andb_false_r. discriminate.
Qed.
Lemma in_shape_2 n m idx : in_shape [n; m] idx = true ->
  exists i j, idx = [i; j] /\ (0 <= i < n)%Z /\ (0 <= j < m)%Z.
Proof.
  destruct idx as [|i idx]; [discriminate|]. intros H. apply in_shape_cons in H as [I H].
  apply in_shape_1 in H as (j & -> & J). exists i, j. auto.
Qed.
Lemma in_shape_3 n m q idx : in_shape [n; m; q] idx = true ->
  exists i j k, idx = [i; j; k] /\ (0 <= i < n)%Z /\ (0 <= j < m)%Z /\ (0 <= k < q)%Z.
Proof.
  destruct idx as [|i idx]; [discriminate|]. intros H. apply in_shape_cons in H as [I H].
  apply in_shape_2 in H as (j & k & -> & J & K). exists i, j, k. auto.
Qed.

Lemma hist1_additive ub spacing r n sh o ps qs : good_range spacing r n -> order_of sh = Ok o ->
  exists hp hq h e, hist1 ub spacing r n sh ps = Ok (hp, e) /\ hist1 ub spacing r n sh qs = Ok (hq, e)
    /\ hist1 ub spacing r n sh (ps ++ qs) = Ok (h, e) /\ arr_eq h (arr_add hp hq).
Proof.
  intros G O. destruct (hist1_linear ub spacing r n sh o G O) as [c C].
  destruct (C ps) as (hp & e & H1 & S1 & L1 & V1). destruct (C qs) as (hq & e2 & H2 & S2 & L2 & V2).
  destruct (C (ps ++ qs)) as (h & e3 & H3 & S3 & L3 & V3).
  assert (e2 = e) by congruence. assert (e3 = e) by congruence. subst.
  exists hp, hq, h, e. do 3 (split; [assumption|]). split; [cbn [arr_add a_shape]; congruence|].
  intros idx I. rewrite S3 in I. apply in_shape_1 in I as (i & -> & _). cbn [arr_add a_at].
  rewrite V1, V2, V3, map_app. apply qsum_app.
Qed.

Lemma hist1_permutation ub spacing r n sh o ps qs : good_range spacing r n -> order_of sh = Ok o ->
  Permutation ps qs ->
  exists hp hq e, hist1 ub spacing r n sh ps = Ok (hp, e) /\ hist1 ub spacing r n sh qs = Ok (hq, e)
    /\ arr_eq hp hq.
Proof.
  intros G O P. destruct (hist1_linear ub spacing r n sh o G O) as [c C].
  destruct (C ps) as (hp & e & H1 & S1 & L1 & V1). destruct (C qs) as (hq & e2 & H2 & S2 & L2 & V2).
  assert (e2 = e) by congruence. subst.
  exists hp, hq, e. do 2 (split; [assumption|]). split; [congruence|].
  intros idx I. rewrite S1 in I. apply in_shape_1 in I as (i & -> & _).
  rewrite V1, V2. apply qsum_perm. apply Permutation_map. exact P.
Qed.

Lemma hist1_scaling ub spacing r n sh o ps k : good_range spacing r n -> order_of sh = Ok o ->
  exists hp hq e, hist1 ub spacing r n sh ps = Ok (hp, e)
    /\ hist1 ub spacing r n sh (map (fun p => (fst p, k * snd p)) ps) = Ok (hq, e)
    /\ arr_eq hq (arr_scale k hp).
Proof.
  intros G O. destruct (hist1_linear ub spacing r n sh o G O) as [c C].
  destruct (C ps) as (hp & e & H1 & S1 & L1 & V1).
  destruct (C (map (fun p => (fst p, k * snd p)) ps)) as (hq & e2 & H2 & S2 & L2 & V2).
  assert (e2 = e) by congruence. subst.
  exists hp, hq, e. do 2 (split; [assumption|]). split; [cbn [arr_scale a_shape]; congruence|].
  intros idx I. rewrite S2 in I. apply in_shape_1 in I as (i & -> & _). cbn [arr_scale a_at].
  rewrite V1, V2, map_map. rewrite <- qsum_map_scale. apply qsum_map_ext. intros [v w] _. cbn [fst snd]. ring.
Qed.

(** 2d: all three in one statement *)
Lemma hist2_laws ub spacing rx ry nx ny sh o : good_range spacing rx nx -> good_range spacing ry ny ->
  order_of sh = Ok o -> forall ps qs k,
  (forall p, In p (ps ++ qs) -> cell_pos ry ny (snd (fst p)) < inject_Z int_max) ->
  exists hp hq h hk hr, 
    rmap (fun x => fst (fst x)) (hist2 ub spacing rx ry nx ny sh ps) = Ok hp
    /\ rmap (fun x => fst (fst x)) (hist2 ub spacing rx ry nx ny sh qs) = Ok hq
    /\ rmap (fun x => fst (fst x)) (hist2 ub spacing rx ry nx ny sh (ps ++ qs)) = Ok h
    /\ rmap (fun x => fst (fst x)) (hist2 ub spacing rx ry nx ny sh (map (fun p => (fst p, k * snd p)) ps)) = Ok hk
    /\ arr_eq h (arr_add hp hq) /\ arr_eq hk (arr_scale k hp)
    /\ (forall rs, Permutation (ps ++ qs) rs ->
          rmap (fun x => fst (fst x)) (hist2 ub spacing rx ry nx ny sh rs) = Ok (hr rs) /\ arr_eq h (hr rs)).
Proof.
  intros G G' O ps qs k F. destruct (hist2_linear ub spacing rx ry nx ny sh o G G' O) as [c C].
  destruct (C ps) as (hp & ? & ? & H1 & S1 & V1); [intros; apply F, in_or_app; left; assumption|].
  destruct (C qs) as (hq & ? & ? & H2 & S2 & V2); [intros; apply F, in_or_app; right; assumption|].
  destruct (C (ps ++ qs)) as (h & ? & ? & H3 & S3 & V3); [exact F|].
  destruct (C (map (fun p => (fst p, k * snd p)) ps)) as (hk & ? & ? & H4 & S4 & V4).
  { intros p I. apply in_map_iff in I as (q & <- & I). cbn [fst]. apply F, in_or_app. left; exact I. }
  exists hp, hq, h, hk. exists (fun rs => match rmap (fun x => fst (fst x)) (hist2 ub spacing rx ry nx ny sh rs)
     with Ok a => a | Err _ => h end).
  rewrite H1, H2, H3, H4. cbn [rmap fst]. do 4 (split; [reflexivity|]). split; [|split].
  - split; [cbn [arr_add a_shape]; congruence|]. intros idx I. rewrite S3 in I.
    apply in_shape_2 in I as (i & j & -> & _). cbn [arr_add a_at]. rewrite V1, V2, V3, map_app. apply qsum_app.
  - split; [cbn [arr_scale a_shape]; congruence|]. intros idx I. rewrite S4 in I.
    apply in_shape_2 in I as (i & j & -> & _). cbn [arr_scale a_at].
    rewrite V1, V4, map_map. rewrite <- qsum_map_scale. apply qsum_map_ext. intros [v w] _. cbn [fst snd]. ring.
  - intros rs P. destruct (C rs) as (hr & ? & ? & H5 & S5 & V5).
    { intros p I. apply F. eapply Permutation_in; [apply Permutation_sym; exact P|exact I]. }
    rewrite H5. cbn [rmap fst]. split; [reflexivity|]. split; [congruence|].
    intros idx I. rewrite S3 in I. apply in_shape_2 in I as (i & j & -> & _).
    rewrite V3, V5. apply qsum_perm, Permutation_map, P.
Qed.

Lemma hist3_laws ub spacing rx ry rz nx ny nz sh o : good_range spacing rx nx -> good_range spacing ry ny ->
  good_range spacing rz nz -> order_of sh = Ok o -> forall ps qs k,
  (forall p, In p (ps ++ qs) -> cell_pos ry ny (snd (fst (fst p))) < inject_Z int_max
                                /\ cell_pos rz nz (snd (fst p)) < inject_Z int_max) ->
  let H := fun l => rmap (fun x => fst (fst (fst x))) (hist3 ub spacing rx ry rz nx ny nz sh l) in
  exists hp hq h hk hr,
    H ps = Ok hp /\ H qs = Ok hq /\ H (ps ++ qs) = Ok h
    /\ H (map (fun p => (fst p, k * snd p)) ps) = Ok hk
    /\ arr_eq h (arr_add hp hq) /\ arr_eq hk (arr_scale k hp)
    /\ (forall rs, Permutation (ps ++ qs) rs -> H rs = Ok (hr rs) /\ arr_eq h (hr rs)).
Proof.
  intros G G' G'' O ps qs k F H. destruct (hist3_linear ub spacing rx ry rz nx ny nz sh o G G' G'' O) as [c C].
  destruct (C ps) as (hp & ? & ? & ? & H1 & S1 & V1); [intros; apply F, in_or_app; left; assumption|].
  destruct (C qs) as (hq & ? & ? & ? & H2 & S2 & V2); [intros; apply F, in_or_app; right; assumption|].
  destruct (C (ps ++ qs)) as (h & ? & ? & ? & H3 & S3 & V3); [exact F|].
  destruct (C (map (fun p => (fst p, k * snd p)) ps)) as (hk & ? & ? & ? & H4 & S4 & V4).
  { intros p I. apply in_map_iff in I as (q & <- & I). cbn [fst]. apply F, in_or_app. left; exact I. }
  exists hp, hq, h, hk. exists (fun rs => match H rs with Ok a => a | Err _ => h end).
  unfold H. rewrite H1, H2, H3, H4. cbn [rmap fst]. do 4 (split; [reflexivity|]). split; [|split].
  - split; [cbn [arr_add a_shape]; congruence|]. intros idx I. rewrite S3 in I.
    apply in_shape_3 in I as (i & j & l & -> & _). cbn [arr_add a_at]. rewrite V1, V2, V3, map_app. apply qsum_app.
  - split; [cbn [arr_scale a_shape]; congruence|]. intros idx I. rewrite S4 in I.
    apply in_shape_3 in I as (i & j & l & -> & _). cbn [arr_scale a_at].
    rewrite V1, V4, map_map. rewrite <- qsum_map_scale. apply qsum_map_ext. intros [v w] _. cbn [fst snd]. ring.
  - intros rs P. destruct (C rs) as (hr & ? & ? & ? & H5 & S5 & V5).
    { intros p I. apply F. eapply Permutation_in; [apply Permutation_sym; exact P|exact I]. }
    rewrite H5. cbn [rmap fst]. split; [reflexivity|]. split; [congruence|].
    intros idx I. rewrite S3 in I. apply in_shape_3 in I as (i & j & l & -> & _).
    rewrite V3, V5. apply qsum_perm, Permutation_map, P.
Qed.

(** giving no weights is giving weight one *)
Lemma no_weights_1 ub spacing data r n sh o : good_range spacing r n -> order_of sh = Ok o ->
  exists h h' e, histogram ub spacing data r n None sh = Ok (h, e)
    /\ histogram ub spacing data r n (Some (repeat 1 (length data))) sh = Ok (h', e) /\ arr_eq h h'.
Proof.
  intros G O.
  destruct (histogram_shares ub spacing data r n None sh o G O) as (h & e & H & Sh & E & V).
  { cbn [weights_list]. rewrite repeat_length. lia. }
  destruct (histogram_shares ub spacing data r n (Some (repeat 1 (length data))) sh o G O) as (h' & e' & H' & Sh' & E' & V').
  { cbn [weights_list]. rewrite repeat_length. lia. }
  assert (e' = e) by congruence. subst.
  exists h, h', e. do 2 (split; [assumption|]). split; [congruence|].
  intros idx I. rewrite Sh in I. apply in_shape_1 in I as (i & -> & _). rewrite V, V'. reflexivity.
Qed.

(** *** Symmetry in two dimensions *)
Lemma acc_sign_cell ub o n x : x < inject_Z int_max -> 0 <= x -> acc_sign ub o n x = acc_cell ub o n x.
Proof.
  intros F P. pose proof (cell_nonneg_fits ub o x F P) as C.
  destruct o; cbn [acc_sign acc_cell]; [reflexivity|..];
    rewrite (proj2 (Z.leb_le _ _) C), (proj2 (Qle_bool_iff _ _) P); reflexivity.
Qed.

(** not below the range, and in the range of C ints *)
Definition not_below spacing (d : nat) (r : Q * Q) (n : Z) (v : Q) : Prop :=
  good_range spacing r n /\ (d = 0%nat \/ fst r <= v) /\ cell_pos r n v < inject_Z int_max.

Lemma cell_pos_nonneg spacing r n v : good_range spacing r n -> fst r <= v -> 0 <= cell_pos r n v.
Proof.
  intros G L. unfold cell_pos. apply Qle_shift_div_l; [apply (width_pos spacing), G|]. lra.
Qed.

Lemma not_below_acc ub spacing o r n v : not_below spacing (degree o) r n v ->
  let x := scaled (fst r) (1 / (snd r - fst r) * inject_Z n) v in
  acc_sign ub o n x = acc_cell ub o n x.
Proof.
  intros (G & B & F) x. destruct B as [Z|B]; [destruct o; try discriminate; reflexivity|].
  apply acc_sign_cell; unfold x; rewrite (scaled_pos spacing) by exact G; [exact F|].
  apply (cell_pos_nonneg spacing); assumption.
Qed.

Lemma hist2_transpose ub spacing d rx ry nx ny (ps : list (Q * Q * Q)) :
  valid_order d -> good_range spacing rx nx -> good_range spacing ry ny ->
  (forall p, In p ps -> not_below spacing d rx nx (fst (fst p)) /\ not_below spacing d ry ny (snd (fst p))) ->
  exists h h', rmap (fun x => fst (fst x)) (hist2 ub spacing rx ry nx ny (ShInt (Z.of_nat d)) ps) = Ok h
    /\ rmap (fun x => fst (fst x)) (hist2 ub spacing ry rx ny nx (ShInt (Z.of_nat d))
          (map (fun p => (snd (fst p), fst (fst p), snd p)) ps)) = Ok h'
    /\ a_shape h = [nx; ny] /\ a_shape h' = [ny; nx]
    /\ forall i j, (0 <= i < nx)%Z -> (0 <= j < ny)%Z -> a_at h [i; j] == a_at h' [j; i].
Proof.
  intros V G G' F. destruct (order_of_valid d V) as (o & <- & O).
  unfold hist2. rewrite !map_map. cbn [fst snd].
  destruct (histogram2d_shares ub spacing (map (fun p => fst (fst p)) ps) (map (fun p => snd (fst p)) ps)
     rx ry nx ny (Some (map snd ps)) _ o G G' O) as (h & ex & ey & H & Sh & _ & _ & X).
  { rewrite !map_length. reflexivity. }
  { cbn [weights_list]. rewrite !map_length. lia. }
  { intros v I. apply in_map_iff in I as (p & <- & I). apply F, I. }
  destruct (histogram2d_shares ub spacing (map (fun p => snd (fst p)) ps) (map (fun p => fst (fst p)) ps)
     ry rx ny nx (Some (map snd ps)) _ o G' G O) as (h' & ex' & ey' & H' & Sh' & _ & _ & X').
  { rewrite !map_length. reflexivity. }
  { cbn [weights_list]. rewrite !map_length. lia. }
  { intros v I. apply in_map_iff in I as (p & <- & I). apply F, I. }
  change (map (fun x : Q * Q * Q => snd x) ps) with (map snd ps).
  exists h, h'. rewrite H, H'. cbn [rmap fst]. do 4 (split; [assumption || reflexivity|]).
  intros i j I J. rewrite X, X'. cbn [weights_list]. rewrite combine3.
  assert (C3 : combine (combine (map (fun p : Q * Q * Q => snd (fst p)) ps) (map (fun p => fst (fst p)) ps)) (map snd ps)
     = map (fun p => (snd (fst p), fst (fst p), snd p)) ps).
  { clear. induction ps as [|[[a b] c] ps IH]; cbn; [reflexivity|]. rewrite IH. reflexivity. }
  rewrite !map_length in *. rewrite C3, map_map. cbn [fst snd].
  apply qsum_map_ext. intros [[v v'] w] IN. cbn [fst snd]. destruct (F _ IN) as [A B]. cbn [fst snd] in A, B.
  rewrite (not_below_acc ub spacing o ry ny v' B), (not_below_acc ub spacing o rx nx v A). ring.
Qed.
