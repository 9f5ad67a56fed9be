(** The sum over all cells of the padded arrays. *)
From Coq Require Import Lia Lqa ZifyBool ZifyNat.
From Verif Require Import PyBase PyBaseFacts NumpyModel NumpyFacts QSum DepSpec DepModel DepFacts DepHistFacts DepSumFacts DepPadModel DepPadSpec.

Lemma total_point sh idx v : in_shape sh idx = true -> total sh (fun j => if idx_eqb idx j then v else 0) == v.
Proof.
  revert idx. induction sh as [|n sh IH]; intros [|k idx] H; cbn [in_shape] in H; try discriminate; cbn [total]; [reflexivity|].
  apply andb_true_iff in H as [H H3]. apply andb_true_iff in H as [H1 H2].
  rewrite (qsum_map_ext _ (fun i => if (Z.of_nat i =? k)%Z then v else 0)).
  - rewrite qsum_delta. destruct ((0 <=? k) && (k <? Z.of_nat (Z.to_nat n)))%Z eqn:E; [reflexivity|lia].
  - intros i _. cbn [idx_eqb]. rewrite (Z.eqb_sym k). destruct (Z.of_nat i =? k)%Z; cbn [andb]; [now apply IH|apply total_zero].
Qed.
Lemma add_at_total a idx v a' : add_at a idx v = Ok a' -> a_shape a' = a_shape a /\ total (a_shape a') (a_at a') == total (a_shape a) (a_at a) + v.
Proof.
  unfold add_at. destruct (in_shape (a_shape a) idx) eqn:E; [|discriminate]. intro H. injection H as <-. cbn [a_shape a_at]. split; [reflexivity|].
  transitivity (total (a_shape a) (a_at a) + total (a_shape a) (fun j => if idx_eqb idx j then v else 0)); [|now rewrite (total_point _ _ v E)].
  rewrite <- total_plus. apply total_ext. intro j. destruct (idx_eqb idx j); ring.
Qed.
Lemma add_all_total ws : forall a a', add_all a ws = Ok a' -> a_shape a' = a_shape a /\ total (a_shape a') (a_at a') == total (a_shape a) (a_at a) + qsum (map snd ws).
Proof.
  induction ws as [|[idx v] ws IH]; intros a a' H; cbn [add_all] in H.
  - injection H as <-. split; [reflexivity|]. cbn. ring.
  - apply bind_ok in H as (b & H1 & H2). apply add_at_total in H1 as [S1 T1]. apply IH in H2 as [S2 T2]. split; [congruence|]. rewrite T2, T1. cbn [map snd]. rewrite qsum_cons. ring.
Qed.
Lemma wtail_end ws i n : wtail ws i (S n) = [] -> wtail ws (S i) n = [].
Proof. destruct ws as [l|]; cbn [wtail]; [|discriminate]. intro H. apply length_zero_iff_nil. apply length_zero_iff_nil in H. rewrite skipn_length in *. lia. Qed.
Lemma wtail_at ws i n w : weight_at ws i = Ok w -> exists r, wtail ws i (S n) = w :: r.
Proof.
  destruct ws as [l|]; cbn [weight_at wtail].
  - destruct (nth_error l i) as [x|] eqn:E; [|discriminate]. intro H. injection H as <-. exists (skipn (S i) l). revert l E. induction i as [|i IH]; intros [|y l] E; try discriminate; cbn in *; [injection E as <-; reflexivity|now apply IH].
  - intro H. injection H as <-. now exists (repeat 1 n).
Qed.
Lemma deposit_total {P} accept (writes : P -> Q -> list (list Z * Q)) ws :
  (forall p w, qsum (map snd (writes p w)) == w) ->
  forall ps i a a', deposit accept writes ws i ps a = Ok a' ->
    a_shape a' = a_shape a /\ total (a_shape a') (a_at a') == total (a_shape a) (a_at a) + qsum (passed accept (combine ps (wtail ws i (length ps)))).
Proof.
  intro W. induction ps as [|p ps IH]; intros i a a' H; cbn [deposit] in H.
  - injection H as <-. split; [reflexivity|]. cbn. ring.
  - destruct (accept p) eqn:A.
    + apply bind_ok in H as (w & H1 & H). apply bind_ok in H as (b & H2 & H3). apply add_all_total in H2 as [S2 T2]. apply IH in H3 as [S3 T3]. split; [congruence|].
      destruct (wtail_at ws i (length ps) w H1) as [r E]. destruct (weight_at_tail _ _ _ _ _ E) as [_ T].
      rewrite T3, T2, W, T. cbn [length]. rewrite E. cbn [combine]. unfold passed. cbn [filter fst]. rewrite A. cbn [map snd]. rewrite qsum_cons. ring.
    + apply IH in H as [S3 T3]. split; [exact S3|]. rewrite T3. cbn [length]. destruct (wtail ws i (S (length ps))) as [|w r] eqn:E.
      * rewrite (wtail_end _ _ _ E). cbn [combine]. now destruct ps.
      * destruct (weight_at_tail _ _ _ _ _ E) as [_ T]. rewrite T. cbn [combine]. unfold passed. cbn [filter fst]. now rewrite A.
Qed.
Lemma writes1_sum ub o x w : qsum (map snd (writes1 ub o x w)) == w.
Proof. unfold writes1. rewrite map_map. cbn [snd]. rewrite qsum_map_scale_r, wnth_sum. ring. Qed.
Lemma writes2_sum ub o p w : qsum (map snd (writes2 ub o p w)) == w.
Proof.
  destruct p as [x y]. unfold writes2. rewrite qsum_flat_map.
  rewrite (qsum_map_ext _ (fun xs => wnth (weights_of o x (cell ub o x)) xs * w)); [rewrite qsum_map_scale_r, wnth_sum; ring|].
  intros xs _. rewrite map_map. cbn [snd]. rewrite qsum_map_scale_r, qsum_map_scale, wnth_sum. ring.
Qed.
Lemma writes3_sum ub o p w : qsum (map snd (writes3 ub o p w)) == w.
Proof.
  destruct p as [[x y] z]. unfold writes3. rewrite qsum_flat_map.
  rewrite (qsum_map_ext _ (fun xs => wnth (weights_of o x (cell ub o x)) xs * w)); [rewrite qsum_map_scale_r, wnth_sum; ring|].
  intros xs _. rewrite qsum_flat_map. rewrite (qsum_map_ext _ (fun ys => wnth (weights_of o x (cell ub o x)) xs * wnth (weights_of o y (cell ub o y)) ys * w)).
  - rewrite qsum_map_scale_r, qsum_map_scale, wnth_sum. ring.
  - intros ys _. rewrite map_map. cbn [snd]. rewrite qsum_map_scale_r, qsum_map_scale, wnth_sum. ring.
Qed.
Lemma zeros_total sh a : np_zeros sh = Ok a -> a_shape a = sh /\ total (a_shape a) (a_at a) == 0.
Proof. unfold np_zeros. destruct (forallb _ sh); [|discriminate]. intro H. injection H as <-. split; [reflexivity|apply total_zero]. Qed.

(** * The functions *)
Lemma padded1_hist ub spacing data r n ws sh : histogram ub spacing data r n ws sh = rmap (fun '(P, s, e) => (crop s [n] P, e)) (padded1 ub spacing data r n ws sh).
Proof.
  unfold histogram, padded1. destruct (np_linspace _ _ _); [|reflexivity]. cbn [bind]. destruct (inv_dx _ _); [|reflexivity]. cbn [bind]. destruct (order_of sh); [|reflexivity]. cbn [bind].
  destruct (np_zeros _); [|reflexivity]. cbn [bind]. now destruct (deposit _ _ _ _ _ _).
Qed.
Lemma padded2_hist ub spacing dx dy ws rx ry nx ny sh : histogram2d ub spacing dx dy ws rx ry nx ny sh = rmap (fun '(P, s, ex, ey) => (crop s [nx; ny] P, ex, ey)) (padded2 ub spacing dx dy ws rx ry nx ny sh).
Proof.
  unfold histogram2d, padded2. destruct (guard _ _); [|reflexivity]. cbn [bind]. destruct (np_linspace _ _ (nx + 1)); [|reflexivity]. cbn [bind]. destruct (np_linspace _ _ (ny + 1)); [|reflexivity]. cbn [bind].
  destruct (inv_dx _ nx); [|reflexivity]. cbn [bind]. destruct (inv_dx _ ny); [|reflexivity]. cbn [bind]. destruct (order_of sh); [|reflexivity]. cbn [bind].
  destruct (np_zeros _); [|reflexivity]. cbn [bind]. now destruct (deposit _ _ _ _ _ _).
Qed.
Lemma padded3_hist ub spacing dx dy dz ws rx ry rz nx ny nz sh : histogram3d ub spacing dx dy dz ws rx ry rz nx ny nz sh = rmap (fun '(P, s, ex, ey, ez) => (crop s [nx; ny; nz] P, ex, ey, ez)) (padded3 ub spacing dx dy dz ws rx ry rz nx ny nz sh).
Proof.
  unfold histogram3d, padded3. destruct (guard _ _); [|reflexivity]. cbn [bind]. destruct (guard _ _); [|reflexivity]. cbn [bind]. destruct (np_linspace _ _ (nx + 1)); [|reflexivity]. cbn [bind]. destruct (np_linspace _ _ (ny + 1)); [|reflexivity]. cbn [bind]. destruct (np_linspace _ _ (nz + 1)); [|reflexivity]. cbn [bind].
  destruct (inv_dx _ nx); [|reflexivity]. cbn [bind]. destruct (inv_dx _ ny); [|reflexivity]. cbn [bind]. destruct (inv_dx _ nz); [|reflexivity]. cbn [bind]. destruct (order_of sh); [|reflexivity]. cbn [bind].
  destruct (np_zeros _); [|reflexivity]. cbn [bind]. now destruct (deposit _ _ _ _ _ _).
Qed.
Lemma inv_dx_ok r n d : inv_dx r n = Ok d -> d = 1 / (snd r - fst r) * inject_Z n.
Proof. destruct r as [a b]. unfold inv_dx. destruct (b - a ==?q 0); [discriminate|]. intro H. now injection H as <-. Qed.
Lemma combine_map_l {A B C} (f : A -> B) (l : list A) (m : list C) : combine (map f l) m = map (fun p => (f (fst p), snd p)) (combine l m).
Proof. revert m. induction l as [|x l IH]; intros [|y m]; cbn; try reflexivity. now rewrite IH. Qed.
Lemma passed_map {P P'} (f : P -> P') accept l ws : passed accept (combine (map f l) ws) = passed (fun p => accept (f p)) (combine l ws).
Proof.
  unfold passed. rewrite combine_map_l. induction (combine l ws) as [|[p w] r IH]; cbn [map filter fst snd]; [reflexivity|]. destruct (accept (f p)); cbn [map snd]; now rewrite IH.
Qed.
Lemma padded1_total ub spacing data r n ws sh P s e : padded1 ub spacing data r n ws sh = Ok (P, s, e) ->
  exists o, order_of sh = Ok o /\ s = supp o /\ a_shape P = [n + 2 * s]%Z /\
    total (a_shape P) (a_at P) == qsum (passed (fun v => accept1 ub o n (scaled_in spacing r n v)) (combine data (weights_list ws (length data)))).
Proof.
  unfold padded1. intro H. apply bind_ok in H as (ed & _ & H). apply bind_ok in H as (d & D & H). apply bind_ok in H as (o & O & H). apply bind_ok in H as (a & A & H). apply bind_ok in H as (b & B & H).
  injection H as <- <- _. exists o. split; [exact O|]. split; [reflexivity|]. apply zeros_total in A as [A1 A2]. apply (deposit_total _ _ _ (writes1_sum ub o)) in B as [B1 B2].
  split; [congruence|]. rewrite B2, A2, wtail_0, map_length, passed_map. apply inv_dx_ok in D. subst d. unfold scaled_in. ring.
Qed.
Lemma pair_map {A B C D} (f : A -> B) (g : C -> D) l m : combine (map f l) (map g m) = map (fun p => (f (fst p), g (snd p))) (combine l m).
Proof. revert m. induction l as [|x l IH]; intros [|y m]; cbn; try reflexivity. now rewrite IH. Qed.
Lemma padded2_total ub spacing datax datay ws rx ry nx ny sh P s ex ey : padded2 ub spacing datax datay ws rx ry nx ny sh = Ok (P, s, ex, ey) ->
  exists o, order_of sh = Ok o /\ s = supp o /\ a_shape P = [nx + 2 * s; ny + 2 * s]%Z /\
    total (a_shape P) (a_at P) == qsum (passed (fun v => accept2 ub o nx ny (scaled_in spacing rx nx (fst v), scaled_in spacing ry ny (snd v))) (combine (combine datax datay) (weights_list ws (length datax)))).
Proof.
  unfold padded2. intro H. apply bind_ok in H as (u & G & H). apply guard_ok in G. apply Nat.eqb_eq in G. apply bind_ok in H as (e1 & _ & H). apply bind_ok in H as (e2 & _ & H). apply bind_ok in H as (d1 & D1 & H). apply bind_ok in H as (d2 & D2 & H). apply bind_ok in H as (o & O & H). apply bind_ok in H as (a & A & H). apply bind_ok in H as (b & B & H).
  injection H as <- <- _ _. exists o. split; [exact O|]. split; [reflexivity|]. apply zeros_total in A as [A1 A2]. apply (deposit_total _ _ _ (writes2_sum ub o)) in B as [B1 B2].
  split; [congruence|]. rewrite combine_length, !map_length, <- G, Nat.min_id in B2. rewrite B2, A2, wtail_0, pair_map, passed_map. apply inv_dx_ok in D1, D2. subst d1 d2. unfold scaled_in. ring.
Qed.
Lemma padded3_total ub spacing datax datay dataz ws rx ry rz nx ny nz sh P s ex ey ez : padded3 ub spacing datax datay dataz ws rx ry rz nx ny nz sh = Ok (P, s, ex, ey, ez) ->
  exists o, order_of sh = Ok o /\ s = supp o /\ a_shape P = [nx + 2 * s; ny + 2 * s; nz + 2 * s]%Z /\
    total (a_shape P) (a_at P) == qsum (passed (fun v => accept3 ub o nx ny nz (scaled_in spacing rx nx (fst (fst v)), scaled_in spacing ry ny (snd (fst v)), scaled_in spacing rz nz (snd v))) (combine (combine (combine datax datay) dataz) (weights_list ws (length datax)))).
Proof.
  unfold padded3. intro H. apply bind_ok in H as (u & G & H). apply guard_ok in G. apply Nat.eqb_eq in G. apply bind_ok in H as (u' & G' & H). apply guard_ok in G'. apply Nat.eqb_eq in G'. apply bind_ok in H as (e1 & _ & H). apply bind_ok in H as (e2 & _ & H). apply bind_ok in H as (e3 & _ & H). apply bind_ok in H as (d1 & D1 & H). apply bind_ok in H as (d2 & D2 & H). apply bind_ok in H as (d3 & D3 & H). apply bind_ok in H as (o & O & H). apply bind_ok in H as (a & A & H). apply bind_ok in H as (b & B & H).
  injection H as <- <- _ _ _. exists o. split; [exact O|]. split; [reflexivity|]. apply zeros_total in A as [A1 A2]. apply (deposit_total _ _ _ (writes3_sum ub o)) in B as [B1 B2].
  split; [congruence|]. rewrite !combine_length, !map_length, <- G, <- G', !Nat.min_id in B2. rewrite B2, A2, wtail_0, !pair_map, passed_map. apply inv_dx_ok in D1, D2, D3. subst d1 d2 d3. unfold scaled_in. cbn [fst snd]. ring.
Qed.
