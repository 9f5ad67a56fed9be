(** Axes with uniform grids: construction, spacing, conjugate grids. *)
From Coq Require Import Reals String Lra Lia ZArith List Ring.
From Verif Require Import PyBase PyBaseFacts NumpyModel NdModel NdFacts FieldModel CplxModel CplxFacts FftModel FftSpec FftKernel.
Import ListNotations.
Local Open Scope R_scope.

Lemma Rltb_true a b : a < b -> Rltb a b = true.
Proof. intro H. unfold Rltb. destruct (Rlt_dec a b); [reflexivity|contradiction]. Qed.
Lemma Rltb_false a b : b <= a -> Rltb a b = false.
Proof. intro H. unfold Rltb. destruct (Rlt_dec a b); [lra|reflexivity]. Qed.
Lemma Rleb_true a b : a <= b -> Rleb a b = true.
Proof. intro H. unfold Rleb. destruct (Rle_dec a b); [reflexivity|contradiction]. Qed.
Lemma removelast_seq {A} (f : nat -> A) s n : removelast (map f (seq s (S n))) = map f (seq s n).
Proof. rewrite seq_S, map_app. cbn [map]. apply removelast_last. Qed.
Lemma tl_seq {A} (f : nat -> A) s n : tl (map f (seq s (S n))) = map (fun i => f (S i)) (seq s n).
Proof. cbn [seq map tl]. rewrite <- seq_shift, map_map. reflexivity. Qed.
Lemma map2_map {A B D E} (h : B -> D -> E) (f : A -> B) (g : A -> D) l : map2 h (map f l) (map g l) = map (fun i => h (f i) (g i)) l.
Proof. induction l as [|x l IH]; [reflexivity|]. cbn. now rewrite IH. Qed.
Lemma combine_map {A B D} (f : A -> B) (g : A -> D) l : combine (map f l) (map g l) = map (fun i => (f i, g i)) l.
Proof. induction l as [|x l IH]; [reflexivity|]. cbn. now rewrite IH. Qed.
Lemma forallb_map_true {A B} (p : B -> bool) (f : A -> B) l : (forall x, In x l -> p (f x) = true) -> forallb p (map f l) = true.
Proof. induction l as [|x l IH]; intro H; [reflexivity|]. cbn. rewrite H by now left. apply IH. intros; apply H; now right. Qed.
Lemma last_seq {A} (f : nat -> A) s n d : last (map f (seq s (S n))) d = f (s + n)%nat.
Proof. rewrite seq_S, map_app. cbn [map]. apply last_last. Qed.
Lemma point_S u i : point u (Z.of_nat (S i)) = point u (Z.of_nat i) + u_dx u.
Proof. unfold point. rewrite Nat2Z.inj_succ, <- Z.add_1_r, plus_IZR. ring. Qed.
Lemma diffs_grid u : diffs (grid_of u) = map (fun _ => u_dx u) (seq 0 (u_n u - 1)).
Proof.
  unfold diffs, grid_of. destruct (u_n u) as [|n]; [reflexivity|]. rewrite removelast_seq, tl_seq, map2_map, Nat.sub_succ, Nat.sub_0_r.
  apply map_ext. intro i. rewrite point_S. ring.
Qed.
Lemma monotone_grid u : 0 < u_dx u -> rmonotonicity (grid_of u) = 1%Z.
Proof.
  intro P. unfold rmonotonicity. rewrite diffs_grid. rewrite forallb_map_true; [reflexivity|]. intros. now apply Rltb_true.
Qed.
(** the nodes made from a uniform grid are uniform; also for negative spacing *)
Lemma nodes_grid spl u : (2 <= u_n u)%nat -> linear_spline spl -> rnodes spl (grid_of u) = Ok (node_of u).
Proof.
  intros N Sp. destruct (u_n u) as [|[|m]] eqn:En; try lia.
  assert (Len : length (grid_of u) = S (S m)) by (unfold grid_of; rewrite map_length, seq_length; exact En).
  set (inner := if (3 <? length (grid_of u))%nat then map (fun i => spl (map INR (seq 0 (length (grid_of u)))) (grid_of u) (INR i + / 2)) (seq 0 (length (grid_of u) - 1)) else rmeans (grid_of u)).
  assert (E : inner = map (fun i => point u (Z.of_nat (S i)) - u_dx u / 2) (seq 0 (S m))).
  { unfold inner. destruct (Nat.ltb_spec 3 (length (grid_of u))) as [L|L].
    - rewrite Len. cbn [Nat.sub]. apply map_ext. intro i. rewrite point_S. unfold grid_of. rewrite En.
      rewrite (map_ext (fun i => point u (Z.of_nat i)) (fun i => u_x0 u + INR i * u_dx u)) by (intro k; unfold point; now rewrite <- INR_IZR_INZ).
      rewrite Sp by lia. unfold point. rewrite <- INR_IZR_INZ. field.
    - unfold rmeans, grid_of. rewrite En, removelast_seq, tl_seq, map2_map. apply map_ext. intro i. rewrite point_S. field. }
  assert (G : rnodes spl (grid_of u) = Ok ((point u 0 + (point u 0 - hd 0 inner)) :: inner ++ [last (grid_of u) 0 + (last (grid_of u) 0 - last inner 0)])).
  { unfold inner. unfold grid_of at 1. rewrite En. cbn [seq map]. unfold rnodes.
    replace (point u (Z.of_nat 0) :: point u (Z.of_nat 1) :: map (fun i : nat => point u (Z.of_nat i)) (seq 2 m)) with (grid_of u) by (unfold grid_of; rewrite En; reflexivity).
    reflexivity. }
  rewrite G, E. f_equal. unfold grid_of. rewrite En, !last_seq. cbn [Nat.add]. cbn [seq map hd].
  unfold node_of. rewrite En. cbn [seq map]. f_equal; [rewrite point_S; cbn [Z.of_nat]; field|]. rewrite <- !seq_shift, !map_map.
  change (seq 0 (S m)) with (0%nat :: seq 1 m) in *. cbn [app map]. f_equal.
  transitivity (map (fun x => point u (Z.of_nat (S (S x))) - u_dx u / 2) (seq 0 (S m))).
  - rewrite seq_S, map_app. cbn [map Nat.add]. f_equal. f_equal. rewrite !point_S. field.
  - cbn [seq map]. f_equal. rewrite <- seq_shift, map_map. reflexivity.
Qed.
Lemma mk_axis_grid spl name unit u : proper u -> linear_spline spl -> rmk_axis spl name unit (grid_of u) = Ok (mkra name unit (grid_of u) (node_of u)).
Proof.
  intros [N P] Sp. unfold rmk_axis. rewrite monotone_grid by exact P. cbn [Z.eqb negb guard bind]. rewrite nodes_grid by assumption. cbn [bind].
  unfold grid_of at 1, node_of at 1. rewrite removelast_seq, combine_map, forallb_map_true; [reflexivity|]. intros i I. cbn [fst snd]. apply Rltb_true. lra.
Qed.
Lemma rclose_refl x : rclose x x = true.
Proof. unfold rclose. apply Rleb_true. replace (x - x) with 0 by ring. rewrite Rabs_R0. assert (H := Rabs_pos x). lra. Qed.
Lemma islinear_grid ax u : ra_node ax = node_of u -> length (ra_grid ax) = u_n u -> rislinear ax = true.
Proof.
  intros Nd Lg. unfold rislinear. rewrite Lg. destruct (Nat.ltb_spec (u_n u) 3) as [L|L]; [reflexivity|]. rewrite Nd.
  assert (Ll : length (node_of u) = S (u_n u)) by (unfold node_of; now rewrite map_length, seq_length).
  assert (E : rlinspace (hd 0 (node_of u)) (last (node_of u) 0) (length (node_of u)) = node_of u).
  { rewrite Ll. unfold rlinspace, node_of. rewrite last_seq. cbn [hd seq map Nat.add Nat.sub]. rewrite Nat.sub_0_r.
    assert (N0 : INR (u_n u) <> 0) by (apply not_0_INR; lia). f_equal; [unfold point; cbn; ring|]. apply map_ext. intro i. unfold point. rewrite <- !INR_IZR_INZ. cbn [INR]. field. exact N0. }
  rewrite E. clear. induction (node_of u) as [|x l IH]; [reflexivity|]. cbn [combine forallb fst snd]. now rewrite rclose_refl, IH.
Qed.
Lemma grid_length u : length (grid_of u) = u_n u.
Proof. unfold grid_of. now rewrite map_length, seq_length. Qed.
Lemma spacing_grid ax u : axis_is ax u -> rspacing ax = Ok (u_dx u).
Proof.
  intros (G & Nd & [N P]). unfold rspacing. rewrite (islinear_grid ax u Nd) by (rewrite G; apply grid_length). cbn [negb]. rewrite Nd.
  assert (E : forall k, (k <= u_n u)%nat -> getidx (node_of u) (Z.of_nat k) = Ok (point u (Z.of_nat k) - u_dx u / 2)).
  { intros k L. rewrite (getidx_at _ k 0) by (unfold node_of; rewrite map_length, seq_length; lia). f_equal. unfold node_of.
    rewrite (nth_indep _ 0 ((fun i => point u (Z.of_nat i) - u_dx u / 2) 0%nat)) by (rewrite map_length, seq_length; lia). rewrite (map_nth (fun i => point u (Z.of_nat i) - u_dx u / 2)).
    now rewrite seq_nth by lia. }
  change 1%Z with (Z.of_nat 1). change 0%Z with (Z.of_nat 0) at 1. rewrite !E by lia. cbn [bind]. f_equal. rewrite point_S. match goal with |- Rabs ?x = _ => replace x with (u_dx u) by ring end. apply Rabs_right. lra.
Qed.
Lemma grid_at u k : (k < u_n u)%nat -> nth k (grid_of u) 0 = point u (Z.of_nat k).
Proof.
  intro L. unfold grid_of. rewrite (nth_indep _ 0 (point u (Z.of_nat 0))) by (rewrite map_length, seq_length; lia). rewrite (map_nth (fun i => point u (Z.of_nat i))).
  now rewrite seq_nth by lia.
Qed.
Lemma grid_first u : (2 <= u_n u)%nat -> getidx (grid_of u) 0 = Ok (u_x0 u).
Proof.
  intro L. change 0%Z with (Z.of_nat 0). rewrite (getidx_at _ 0 0) by (rewrite grid_length; lia). rewrite grid_at by lia. f_equal. unfold point. cbn. ring.
Qed.
Lemma dual_proper o u : proper u -> proper (dual o u).
Proof.
  intros [N P]. split; [exact N|]. cbn [dual u_dx]. assert (In0 : 0 < INR (u_n u)) by (apply lt_0_INR; lia). assert (Hpi := PI_RGT_0).
  apply Rmult_lt_0_compat; [lra|]. apply Rinv_0_lt_compat. now apply Rmult_lt_0_compat.
Qed.
Lemma dual_spacing o u : proper u -> u_dx (dual o u) * u_dx u = 2 * PI / INR (u_n u).
Proof.
  intros [N P]. cbn [dual u_dx]. field. split; first [lra | apply not_0_INR; lia].
Qed.
Lemma fftshift_freq n d : (0 < n)%nat -> d <> 0 -> fftshift (map (fun x => 2 * PI * x) (fftfreq n d)) = grid_of (dual None (mkuni n 0 d)).
Proof.
  intros N D. assert (N0 : INR n <> 0) by (apply not_0_INR; lia). assert (Hh : ((n - 1) / 2 + 1 = n - n / 2)%nat).
  { assert (A := Nat.div_mod n 2 ltac:(lia)). assert (B := Nat.mod_upper_bound n 2 ltac:(lia)). assert (A' := Nat.div_mod (n - 1) 2 ltac:(lia)). assert (B' := Nat.mod_upper_bound (n - 1) 2 ltac:(lia)). lia. }
  assert (Hl : (n / 2 <= n)%nat) by (apply Nat.lt_le_incl, Nat.div_lt; lia).
  unfold fftshift, fftfreq. rewrite !map_length, app_length, !map_length, !seq_length, Hh. replace (n - n / 2 + n / 2)%nat with n by lia.
  rewrite !map_app. rewrite skipn_app, firstn_app. rewrite !map_length, !seq_length. rewrite Nat.sub_diag. cbn [skipn firstn]. rewrite app_nil_r.
  rewrite skipn_all2 by (rewrite !map_length, seq_length; lia). rewrite firstn_all2 by (rewrite !map_length, seq_length; lia). cbn [app].
  unfold grid_of. cbn [dual u_n u_dx u_x0]. replace (seq 0 n) with (seq 0 (n / 2) ++ seq (n / 2) (n - n / 2)) by (rewrite <- seq_app; f_equal; lia).
  rewrite map_app. rewrite !map_map. f_equal.
  - apply map_ext. intro i. unfold point. cbn [dual u_n u_x0 u_dx]. rewrite minus_IZR, <- !INR_IZR_INZ. field. split; assumption.
  - replace (seq (n / 2) (n - n / 2)) with (map (fun i => (n / 2 + i)%nat) (seq 0 (n - n / 2))).
    2:{ clear. generalize (n - n / 2)%nat as k. generalize (n / 2)%nat as s. induction s as [|s IH]; intro k; [now rewrite map_id|]. rewrite <- seq_shift, <- IH, map_map. reflexivity. }
    rewrite !map_map. apply map_ext. intro i. unfold point. cbn [dual u_n u_x0 u_dx]. rewrite Nat2Z.inj_add, plus_IZR, <- !INR_IZR_INZ. field. split; assumption.
Qed.
Lemma grid_translate u v : u_n v = u_n u -> u_dx v = u_dx u -> map (fun x => x + (u_x0 v - u_x0 u)) (grid_of u) = grid_of v.
Proof. intros N D. unfold grid_of. rewrite map_map, N. apply map_ext. intro i. unfold point. rewrite D. ring. Qed.
(** _conjugate_grid *)
Lemma conjugate_grid_ok f a ax u o : nth_error (rf_axes f) a = Some ax -> axis_is ax u -> nth_error (a_shape (rf_data f)) a = Some (Z.of_nat (u_n u)) ->
  nth_error (rf_tao f) a = Some o -> conjugate_axis f (Z.of_nat a) = Ok (grid_of (dual o u)).
Proof.
  intros A I Sh O. destruct I as (G & Nd & Pr). assert (I : axis_is ax u) by (split; [|split]; assumption). unfold conjugate_axis.
  assert (E : forall {X} (l : list X) x, nth_error l a = Some x -> getidx l (Z.of_nat a) = Ok x).
  { intros X l x H. apply getidx_some. exists a. split; [|exact H]. apply py_pos_nat. apply nth_error_Some. congruence. }
  rewrite (E _ _ _ A). cbn [bind]. rewrite (spacing_grid ax u I). cbn [bind]. rewrite (E _ _ _ Sh). cbn [bind]. rewrite (E _ _ _ O). cbn [bind].
  destruct Pr as [N P]. rewrite Nat2Z.id, fftshift_freq by (lia || lra).
  replace (grid_of (dual None (mkuni (u_n u) 0 (u_dx u)))) with (grid_of (dual None u)) by reflexivity. destruct o as [x|]; [|reflexivity].
  rewrite grid_first by exact N. cbn [bind]. f_equal. exact (grid_translate (dual None u) (dual (Some x) u) eq_refl eq_refl).
Qed.
(** the conjugate of the conjugate, with the origin remembered *)
Lemma dual_dual o u : proper u -> dual (Some (u_x0 u)) (dual o u) = u.
Proof.
  intros [N P]. destruct u as [n x0 dx]. unfold dual. cbn [u_n u_x0 u_dx] in *. f_equal. assert (H := PI_RGT_0). field. repeat split; first [lra | apply not_0_INR; lia].
Qed.
