(** Lemmas about what is drawn. *)
From Coq Require Import Lia Lqa Qfield Qabs.
From Verif Require Import PyBase PyBaseFacts NumpyModel NumpyFacts NdModel NdFacts AxisModel AxisSpec AxisFacts FieldModel FieldSpec FieldReduceFacts DepSpec HistddModel HistddFacts PlotModel PlotSpec.

(** * Logarithmic or not *)
Lemma values_in a v : In v (values a) <-> exists i, in_shape (a_shape a) i = true /\ a_at a i = v.
Proof.
  unfold values. rewrite in_map_iff. split; intros (i & A & B); exists i; [split; [now apply all_idx_In|exact A]|split; [exact B|now apply all_idx_In]].
Qed.
Lemma use_log_iff wanted a : use_log wanted (values a) = true <-> loggable wanted a.
Proof.
  unfold use_log, loggable. rewrite !andb_true_iff, negb_true_iff. split.
  - intros [[W N] P]. split; [exact W|]. split.
    + intros i I. destruct (Qlt_le_dec (a_at a i) 0) as [L|G]; [|exact G]. exfalso. assert (X : existsb (fun v => v <?q 0) (values a) = true); [|congruence]. apply existsb_exists. exists (a_at a i). split; [apply values_in; now exists i|now apply Qltb_lt].
    + apply existsb_exists in P. destruct P as (v & V & P). apply values_in in V. destruct V as (i & I & <-). exists i. split; [exact I|now apply Qltb_lt].
  - intros (W & N & i & I & P). repeat split; [exact W| |].
    + destruct (existsb _ (values a)) eqn:X; [|reflexivity]. apply existsb_exists in X. destruct X as (v & V & L). apply values_in in V. destruct V as (j & J & <-). apply Qltb_lt in L. specialize (N j J). lra.
    + apply existsb_exists. exists (a_at a i). split; [apply values_in; now exists i|now apply Qltb_lt].
Qed.
(** * One dimension *)
Lemma one_axis {V} (g : field V) n : consistent g -> f_shape g = [n] -> exists ax, f_axes g = [ax] /\ ax_len ax = n.
Proof.
  intros (L & C & _) E. rewrite E in L. destruct (f_axes g) as [|ax [|? ?]] eqn:A; cbn in L; try lia. exists ax. split; [reflexivity|]. apply (C 0%nat); [reflexivity|now rewrite E].
Qed.
Lemma two_axes {V} (g : field V) nx ny : consistent g -> f_shape g = [nx; ny] -> exists ax ay, f_axes g = [ax; ay] /\ ax_len ax = nx /\ ax_len ay = ny.
Proof.
  intros (L & C & _) E. rewrite E in L. destruct (f_axes g) as [|ax [|ay [|? ?]]] eqn:A; cbn in L; try lia. exists ax, ay. split; [reflexivity|]. split; [apply (C 0%nat)|apply (C 1%nat)]; rewrite ?E; reflexivity.
Qed.
Lemma zrange_nth n i : (0 <= i < n)%Z -> nth (Z.to_nat i) (zrange n) 0%Z = i.
Proof. intro H. unfold zrange. change 0%Z with (Z.of_nat 0) at 1. rewrite map_nth, seq_nth by lia. lia. Qed.
Lemma zrange_len n : length (zrange n) = Z.to_nat n.
Proof. unfold zrange. now rewrite map_length, seq_length. Qed.
Lemma values_1d (a : nda Q) n : a_shape a = [n] -> length (values a) = Z.to_nat n /\ forall i, (0 <= i < n)%Z -> nth (Z.to_nat i) (values a) 0 = a_at a [i].
Proof.
  intro E. unfold values. rewrite E. cbn [all_idx]. assert (F : flat_map (fun i : Z => map (cons i) [[]]) (zrange n) = map (fun i => [i]) (zrange n)) by (induction (zrange n) as [|x l IH]; [reflexivity|cbn; now rewrite <- IH]). rewrite F, map_map. split; [now rewrite map_length, zrange_len|].
  intros i I. rewrite (nth_indep _ 0 (a_at a [0%Z])) by (rewrite map_length, zrange_len; lia). rewrite (map_nth (fun i => a_at a [i])). now rewrite zrange_nth.
Qed.
Lemma line_drawn spl k f g n : plain_1d k -> field_squeeze spl f = Ok g -> consistent g -> f_shape g = [n] -> (0 < n)%Z ->
  exists ax y log, f_axes g = [ax] /\ draw_1d spl k f = Ok [Line (ax_grid ax) y log] /\ length y = Z.to_nat n /\ (forall i, (0 <= i < n)%Z -> nth (Z.to_nat i) y 0 = a_at (f_data g) [i])
    /\ (log = true <-> loggable (orelse (k_log10plot k) true) (f_data g)).
Proof.
  intros (K1 & K2 & K3 & K4) S C E N. destruct (one_axis g n C E) as (ax & A & _). exists ax, (values (f_data g)), (use_log (orelse (k_log10plot k) true) (values (f_data g))). split; [exact A|].
  split; [|split; [|split; [|apply use_log_iff]]; now apply (values_1d (f_data g) n)].
  unfold draw_1d. rewrite K1, K2, K3, K4, S. cbn [given orb bind]. rewrite E. assert (D : dims [n] = 1%Z) by (unfold dims; cbn [zprod fold_right]; destruct (Z.eqb_spec (n * 1) 0); [lia|reflexivity]). rewrite D. cbn [Z.eqb Pos.eqb guard bind]. now rewrite A.
Qed.
Lemma line_refused spl k f : k_savecsv k <> None \/ k_clim k <> None \/ k_lineoutx k <> None \/ k_lineouty k <> None -> draw_1d spl k f = Err TypeError.
Proof. intro H. unfold draw_1d. destruct (k_savecsv k), (k_clim k), (k_lineoutx k), (k_lineouty k); try reflexivity. tauto. Qed.
(** * Two dimensions *)
Lemma upright_transposed (a : nda Q) nx ny : a_shape a = [nx; ny] -> upright a (transposed a) nx ny.
Proof. intro E. split; [unfold transposed, nd_transpose; cbn; now rewrite E|]. intros i j _ _. reflexivity. Qed.
Lemma dims_2 nx ny : (0 < nx)%Z -> (0 < ny)%Z -> dims [nx; ny] = 2%Z.
Proof. intros A B. unfold dims. cbn [zprod fold_right]. destruct (Z.eqb_spec (nx * (ny * 1)) 0); [nia|reflexivity]. Qed.
Definition limits_of (k : kwargs) (log linear : bool) (m : nda Q) : res (list drawing) :=
  match k_clim k with
  | Some (lo, hi) => Ok [Limits lo hi]
  | None => if log then Ok [] else if linear then let! d := symmetric (values m) in Ok [d] else Err IndexError
  end.
Lemma draw_2d_eq spl k f g nx ny ax ay lx ly : field_squeeze spl f = Ok g -> f_shape g = [nx; ny] -> (0 < nx)%Z -> (0 < ny)%Z -> f_axes g = [ax; ay] -> islinear ax = Ok lx -> islinear ay = Ok ly ->
  let m := transposed (f_data g) in let log := use_log (orelse (k_log10plot k) true) (values (f_data g)) in
  draw_2d spl k f =
    (let! lim := limits_of k log (lx && ly) m in
     let! ox := if orelse (k_lineoutx k) false then let! d := lineout_x m ny nx (ax_extent ax) log in Ok [d] else Ok [] in
     let! oy := if orelse (k_lineouty k) false then let! d := lineout_y m ny nx (ax_extent ay) log in Ok [d] else Ok [] in
     Ok ((if lx && ly then Image m log (ax_extent ax) (ax_extent ay) else Mesh (ax_node ax) (ax_node ay) m log) :: lim ++ ox ++ oy)).
Proof.
  intros S E X Y A Lx Ly m log. unfold draw_2d. rewrite S. cbn [bind]. rewrite E, (dims_2 nx ny X Y), A. cbn [Z.eqb Pos.eqb orb guard bind mapM]. rewrite Lx, Ly. cbn [bind]. assert (C : is_color [nx; ny] = false) by (unfold is_color; now rewrite dims_2). rewrite C. cbn [forallb]. rewrite andb_true_r. reflexivity.
Qed.
Lemma linspace_some a b n : (0 <= n)%Z -> exists l, np_linspace a b n = Ok l.
Proof. intro H. now apply np_linspace_total. Qed.
Lemma lineout_x_ok m ny nx e log : exists x y, lineout_x m ny nx e log = Ok (LineoutX x y log) /\ np_linspace (fst e) (snd e) (Z.of_nat (Z.to_nat nx)) = Ok x /\ y = map (fun i => rmean (column m ny i)) (zrange nx).
Proof. unfold lineout_x. rewrite map_length, zrange_len. destruct (linspace_some (fst e) (snd e) (Z.of_nat (Z.to_nat nx))) as (x & ->); [lia|]. cbn [bind]. eauto. Qed.
Lemma lineout_y_ok m ny nx e log : exists x y, lineout_y m ny nx e log = Ok (LineoutY x y log) /\ np_linspace (fst e) (snd e) (Z.of_nat (Z.to_nat ny)) = Ok x /\ y = map (fun j => rmean (row m nx j)) (zrange ny).
Proof. unfold lineout_y. rewrite map_length, zrange_len. destruct (linspace_some (fst e) (snd e) (Z.of_nat (Z.to_nat ny))) as (x & ->); [lia|]. cbn [bind]. eauto. Qed.
(** ** the edges of the pixels *)
Lemma proper_nodes ax : axis_proper ax -> length (ax_node ax) = S (length (ax_grid ax)) /\ describes ax.
Proof. intros [[[L _] D]|[[L _] D]]; now split. Qed.
Lemma pixels_near ax : axis_proper ax -> islinear ax = Ok true -> (3 <= ax_len ax)%Z -> pixels_match near ax.
Proof.
  intros P I L k K. destruct (proper_nodes ax P) as (N & D0 & D1 & Dn). unfold ax_len in *. unfold islinear in I. destruct (Z.ltb_spec (ax_n ax) 3); [lia|]. unfold h_islinear in I. destruct (ax_node ax) as [|g0 gr] eqn:Eg; [discriminate|]. rewrite <- Eg in *.
  destruct (np_linspace g0 (last (ax_node ax) g0) (Z.of_nat (length (ax_node ax)))) as [l|e] eqn:El; [|discriminate]. cbn [bind] in I. injection I as I. destruct (np_linspace_ok _ _ _ _ El) as [Ll V]. rewrite Nat2Z.id in Ll.
  rewrite np_all_map2_iff in I by (now symmetry). specialize (I (Z.to_nat k)). assert (Lk : (Z.to_nat k < length (ax_node ax))%nat) by lia. specialize (I Lk). specialize (V (Z.to_nat k) ltac:(lia) ltac:(lia)).
  apply Qle_bool_iff in I. unfold near.
  assert (E : pixel_edge (ax_extent ax) (ax_n ax) k == nth (Z.to_nat k) l 0).
  { rewrite V. unfold pixel_edge. rewrite Z2Nat.id by lia. rewrite D0, D1. replace (Z.of_nat (length (ax_node ax)) - 1)%Z with (ax_n ax) by lia.
    assert (E0 : nth 0 (ax_node ax) 0 = g0) by (rewrite Eg; reflexivity). assert (E1 : last (ax_node ax) g0 = nth (length (ax_grid ax)) (ax_node ax) 0) by (rewrite last_nth, N; cbn [Nat.sub]; rewrite Nat.sub_0_r; apply nth_indep; lia). rewrite E0, E1. reflexivity. }
  rewrite (qabs_compat _ _ E). assert (E' : nth (Z.to_nat k) (ax_node ax) 0 - pixel_edge (ax_extent ax) (ax_n ax) k == nth (Z.to_nat k) (ax_node ax) 0 - nth (Z.to_nat k) l 0) by (rewrite E; reflexivity). rewrite (qabs_compat _ _ E'). exact I.
Qed.
Lemma pixels_uniform ax a b n : axis_uniform a b n ax -> (1 <= n)%nat -> islinear ax = Ok true /\ pixels_match Qeq ax.
Proof.
  intros U N. split; [exact (uniform_islinear a b n ax N U)|]. destruct U as (L1 & L2 & Ln & E0 & E1 & V & _). intros k K. unfold ax_len in *. rewrite V by lia. unfold pixel_edge. rewrite E0, E1, Ln, Z2Nat.id by lia. reflexivity.
Qed.
(** ** the color scale *)
Lemma symmetric_ok (m : nda Q) : (exists i, in_shape (a_shape m) i = true) -> exists b, symmetric (values m) = Ok (Limits (- b) b) /\ scale_for m b.
Proof.
  intros (i0 & I0). assert (N : values m <> []) by (intro E; assert (J : In (a_at m i0) (values m)) by (apply values_in; now exists i0); now rewrite E in J).
  destruct (np_min_ok _ N) as (lo & Elo & Ilo & Blo). destruct (np_max_ok _ N) as (hi & Ehi & Ihi & Bhi). unfold symmetric. rewrite Elo, Ehi. cbn [bind]. eexists. split; [reflexivity|].
  assert (LH : lo <= hi) by now apply Blo. apply values_in in Ilo, Ihi. destruct Ilo as (i & I & Vi). destruct Ihi as (j & J & Vj). unfold q_max. destruct (Qleb_spec (qabs lo) (qabs hi)) as [Q|Q].
  - split; [|exists j; split; [exact J|now rewrite Vj]]. intros x X. assert (A := Blo (a_at m x) ltac:(apply values_in; eauto)). assert (B := Bhi (a_at m x) ltac:(apply values_in; eauto)). rewrite !qabs_Qabs in *. apply Qabs_case; intro S; [pose proof (Qle_Qabs hi); lra|]. pose proof (Qle_Qabs (- lo)) as T. rewrite Qabs_opp in T. lra.
  - split; [|exists i; split; [exact I|now rewrite Vi]]. intros x X. assert (A := Blo (a_at m x) ltac:(apply values_in; eauto)). assert (B := Bhi (a_at m x) ltac:(apply values_in; eauto)). apply Qnot_le_lt in Q. rewrite !qabs_Qabs in *. apply Qabs_case; intro S; [pose proof (Qle_Qabs hi); lra|]. pose proof (Qle_Qabs (- lo)) as T. rewrite Qabs_opp in T. lra.
Qed.
Lemma in_shape_2 nx ny i j : in_shape [nx; ny] [i; j] = true <-> (0 <= i < nx)%Z /\ (0 <= j < ny)%Z.
Proof. cbn. rewrite !andb_true_iff, !Z.leb_le, !Z.ltb_lt. tauto. Qed.
Lemma in_shape_2_inv nx ny idx : in_shape [nx; ny] idx = true -> exists i j, idx = [i; j].
Proof. destruct idx as [|i [|j [|? ?]]]; cbn; intro H; rewrite ?andb_false_r in H; try discriminate. now exists i, j. Qed.
Lemma scale_transposed (a : nda Q) nx ny b : a_shape a = [nx; ny] -> scale_for (transposed a) b -> scale_for a b.
Proof.
  intros E (A & B). destruct (upright_transposed a nx ny E) as [S U]. rewrite S in *. split.
  - intros i I. rewrite E in I. destruct (in_shape_2_inv _ _ _ I) as (x & y & ->). apply in_shape_2 in I. rewrite <- U by lia. apply A. apply in_shape_2. tauto.
  - destruct B as (i & I & Q). destruct (in_shape_2_inv _ _ _ I) as (y & x & ->). apply in_shape_2 in I. exists [x; y]. rewrite E. split; [apply in_shape_2; tauto|]. now rewrite <- U by lia.
Qed.
(** * The theorems about images *)
Lemma image_drawn spl k f g nx ny ax ay : two_dim spl f g nx ny ax ay -> islinear ax = Ok true -> islinear ay = Ok true ->
  exists m log rest, draw_2d spl k f = Ok (Image m log (ax_extent ax) (ax_extent ay) :: rest) /\ upright (f_data g) m nx ny /\ (log = true <-> loggable (orelse (k_log10plot k) true) (f_data g)).
Proof.
  intros (S & C & E & X & Y & A) Lx Ly. rewrite (draw_2d_eq spl k f g nx ny ax ay true true S E X Y A Lx Ly). cbv zeta. set (m := transposed (f_data g)). set (log := use_log _ _). cbn [andb].
  destruct (upright_transposed (f_data g) nx ny E) as [Sm Um].
  assert (L : exists lim, limits_of k log true m = Ok lim).
  { unfold limits_of. destruct (k_clim k) as [[lo hi]|]; [eauto|]. destruct log; [eauto|]. destruct (symmetric_ok m) as (b & -> & _); [|cbn [bind]; eauto]. exists [0; 0]%Z. fold m in Sm. rewrite Sm. apply in_shape_2. lia. }
  destruct L as (lim & ->). cbn [bind]. destruct (lineout_x_ok m ny nx (ax_extent ax) log) as (x1 & y1 & -> & _). destruct (lineout_y_ok m ny nx (ax_extent ay) log) as (x2 & y2 & -> & _).
  exists m, log. destruct (orelse (k_lineoutx k) false), (orelse (k_lineouty k) false); cbn [bind]; (eexists; split; [reflexivity|]; split; [now split|apply use_log_iff]).
Qed.
Lemma mesh_drawn spl k f g nx ny ax ay lx ly : two_dim spl f g nx ny ax ay -> islinear ax = Ok lx -> islinear ay = Ok ly -> lx && ly = false -> k_clim k <> None \/ loggable (orelse (k_log10plot k) true) (f_data g) ->
  exists m log rest, draw_2d spl k f = Ok (Mesh (ax_node ax) (ax_node ay) m log :: rest) /\ upright (f_data g) m nx ny /\ (log = true <-> loggable (orelse (k_log10plot k) true) (f_data g)).
Proof.
  intros (S & C & E & X & Y & A) Lx Ly B H. rewrite (draw_2d_eq spl k f g nx ny ax ay lx ly S E X Y A Lx Ly). cbv zeta. rewrite B. set (m := transposed (f_data g)). set (log := use_log _ _).
  destruct (upright_transposed (f_data g) nx ny E) as [Sm Um].
  assert (L : exists lim, limits_of k log false m = Ok lim).
  { unfold limits_of. destruct (k_clim k) as [[lo hi]|]; [eauto|]. destruct H as [H|H]; [congruence|]. apply use_log_iff in H. fold log in H. rewrite H. eauto. }
  destruct L as (lim & ->). cbn [bind]. destruct (lineout_x_ok m ny nx (ax_extent ax) log) as (x1 & y1 & -> & _). destruct (lineout_y_ok m ny nx (ax_extent ay) log) as (x2 & y2 & -> & _).
  exists m, log. destruct (orelse (k_lineoutx k) false), (orelse (k_lineouty k) false); cbn [bind]; (eexists; split; [reflexivity|]; split; [now split|apply use_log_iff]).
Qed.
Lemma mesh_fails spl k f g nx ny ax ay lx ly : two_dim spl f g nx ny ax ay -> islinear ax = Ok lx -> islinear ay = Ok ly -> lx && ly = false -> k_clim k = None -> ~ loggable (orelse (k_log10plot k) true) (f_data g) -> draw_2d spl k f = Err IndexError.
Proof.
  intros (S & C & E & X & Y & A) Lx Ly B K N. rewrite (draw_2d_eq spl k f g nx ny ax ay lx ly S E X Y A Lx Ly). cbv zeta. rewrite B. unfold limits_of. rewrite K. destruct (use_log _ _) eqn:U; [apply use_log_iff in U; contradiction|reflexivity].
Qed.
(** the color scale *)
Lemma scale_drawn spl k f g nx ny ax ay : two_dim spl f g nx ny ax ay -> islinear ax = Ok true -> islinear ay = Ok true -> k_clim k = None -> ~ loggable (orelse (k_log10plot k) true) (f_data g) ->
  exists im b rest, draw_2d spl k f = Ok (im :: Limits (- b) b :: rest) /\ scale_for (f_data g) b.
Proof.
  intros (S & C & E & X & Y & A) Lx Ly K N. rewrite (draw_2d_eq spl k f g nx ny ax ay true true S E X Y A Lx Ly). cbv zeta. set (m := transposed (f_data g)). set (log := use_log _ _). cbn [andb].
  destruct (upright_transposed (f_data g) nx ny E) as [Sm Um]. assert (Lg : log = false) by (destruct log eqn:U; [apply use_log_iff in U; contradiction|reflexivity]). unfold limits_of. rewrite K. destruct (symmetric_ok m) as (b & Eb & Sb); [exists [0; 0]%Z; fold m in Sm; rewrite Sm; apply in_shape_2; lia|]. rewrite Lg, Eb. cbn [bind].
  destruct (lineout_x_ok m ny nx (ax_extent ax) false) as (x1 & y1 & -> & _). destruct (lineout_y_ok m ny nx (ax_extent ay) false) as (x2 & y2 & -> & _).
  eexists. exists b. destruct (orelse (k_lineoutx k) false), (orelse (k_lineouty k) false); cbn [bind app]; (eexists; split; [reflexivity|]; exact (scale_transposed _ _ _ _ E Sb)).
Qed.
Lemma clim_drawn spl k f g nx ny ax ay lo hi : two_dim spl f g nx ny ax ay -> islinear ax = Ok true -> islinear ay = Ok true -> k_clim k = Some (lo, hi) -> exists im rest, draw_2d spl k f = Ok (im :: Limits lo hi :: rest).
Proof.
  intros (S & C & E & X & Y & A) Lx Ly K. rewrite (draw_2d_eq spl k f g nx ny ax ay true true S E X Y A Lx Ly). cbv zeta. set (m := transposed (f_data g)). set (log := use_log _ _). unfold limits_of. rewrite K. cbn [bind andb].
  destruct (lineout_x_ok m ny nx (ax_extent ax) log) as (x1 & y1 & -> & _). destruct (lineout_y_ok m ny nx (ax_extent ay) log) as (x2 & y2 & -> & _).
  destruct (orelse (k_lineoutx k) false), (orelse (k_lineouty k) false); cbn [bind app]; eauto.
Qed.
(** * Lineouts *)
Lemma rmean_sum (f : Z -> Q) n : (0 < n)%Z -> rmean (map f (zrange n)) == sum_below (fun j => f (Z.of_nat j)) (Z.to_nat n) / inject_Z n.
Proof.
  intro N. unfold rmean. rewrite map_length, zrange_len, Z2Nat.id by lia. unfold zrange. rewrite map_map.
  assert (G : forall l a, rsum (l ++ [a]) == rsum l + a) by (intros l a; induction l as [|x l IH]; cbn; [ring|]; unfold rsum in *; rewrite IH; ring).
  assert (H : forall m, rsum (map (fun j => f (Z.of_nat j)) (seq 0 m)) == sum_below (fun j => f (Z.of_nat j)) m) by (induction m as [|m IH]; [reflexivity|]; rewrite seq_S, map_app; cbn [map sum_below Nat.add]; rewrite G, IH; reflexivity).
  rewrite H. reflexivity.
Qed.
Lemma sum_below_ext f g n : (forall i, (i < n)%nat -> f i = g i) -> sum_below f n = sum_below g n.
Proof. intro H. induction n as [|n IH]; [reflexivity|]. cbn. rewrite H by lia. rewrite IH; [reflexivity|]. intros; apply H; lia. Qed.
(** the values and the positions of the lineout along x *)
Lemma lineout_x_drawn spl k f g nx ny ax ay : two_dim spl f g nx ny ax ay -> islinear ax = Ok true -> islinear ay = Ok true -> k_lineoutx k = Some true -> (2 <= nx)%Z ->
  exists ds x y log, draw_2d spl k f = Ok ds /\ In (LineoutX x y log) ds /\ length x = Z.to_nat nx /\ length y = Z.to_nat nx /\ forall i, (0 <= i < nx)%Z ->
    nth (Z.to_nat i) y 0 == sum_below (fun j => a_at (f_data g) [i; Z.of_nat j]) (Z.to_nat ny) / inject_Z ny
    /\ nth (Z.to_nat i) x 0 == fst (ax_extent ax) + inject_Z i * ((snd (ax_extent ax) - fst (ax_extent ax)) / inject_Z (nx - 1)).
Proof.
  intros (S & C & E & X & Y & A) Lx Ly K N. rewrite (draw_2d_eq spl k f g nx ny ax ay true true S E X Y A Lx Ly). cbv zeta. rewrite K. set (m := transposed (f_data g)). set (log := use_log _ _). cbn [andb orelse].
  destruct (upright_transposed (f_data g) nx ny E) as [Sm Um]. fold m in Sm, Um.
  assert (L : exists lim, limits_of k log true m = Ok lim).
  { unfold limits_of. destruct (k_clim k) as [[lo hi]|]; [eauto|]. destruct log; [eauto|]. destruct (symmetric_ok m) as (b & -> & _); [|cbn [bind]; eauto]. exists [0; 0]%Z. rewrite Sm. apply in_shape_2. lia. }
  destruct L as (lim & ->). cbn [bind]. destruct (lineout_x_ok m ny nx (ax_extent ax) log) as (x1 & y1 & -> & Ex & ->). destruct (lineout_y_ok m ny nx (ax_extent ay) log) as (x2 & y2 & -> & _). cbn [bind].
  assert (O : forall c : bool, exists oy, (if c then Ok [LineoutY x2 y2 log] else Ok []) = Ok oy) by (intros []; eauto). destruct (O (orelse (k_lineouty k) false)) as (oy & ->). cbn [bind].
  eexists. exists x1, (map (fun i => rmean (column m ny i)) (zrange nx)), log. split; [reflexivity|]. split; [right; apply in_or_app; right; now left|].
  destruct (np_linspace_ok _ _ _ _ Ex) as [Ll V]. split; [now rewrite Ll, Nat2Z.id|]. split; [now rewrite map_length, zrange_len|]. intros i I. split.
  - rewrite (nth_indep _ 0 (rmean (column m ny 0))) by (rewrite map_length, zrange_len; lia). rewrite (map_nth (fun i => rmean (column m ny i))), zrange_nth by lia. unfold column. rewrite (rmean_sum (fun j => a_at m [j; i]) ny Y). rewrite (sum_below_ext _ (fun j => a_at (f_data g) [i; Z.of_nat j])); [reflexivity|]. intros j J. apply Um; lia.
  - rewrite V by lia. rewrite !Z2Nat.id by lia. reflexivity.
Qed.
Lemma lineout_y_drawn spl k f g nx ny ax ay : two_dim spl f g nx ny ax ay -> islinear ax = Ok true -> islinear ay = Ok true -> k_lineouty k = Some true -> (2 <= ny)%Z ->
  exists ds x y log, draw_2d spl k f = Ok ds /\ In (LineoutY x y log) ds /\ length x = Z.to_nat ny /\ length y = Z.to_nat ny /\ forall j, (0 <= j < ny)%Z ->
    nth (Z.to_nat j) y 0 == sum_below (fun i => a_at (f_data g) [Z.of_nat i; j]) (Z.to_nat nx) / inject_Z nx
    /\ nth (Z.to_nat j) x 0 == fst (ax_extent ay) + inject_Z j * ((snd (ax_extent ay) - fst (ax_extent ay)) / inject_Z (ny - 1)).
Proof.
  intros (S & C & E & X & Y & A) Lx Ly K N. rewrite (draw_2d_eq spl k f g nx ny ax ay true true S E X Y A Lx Ly). cbv zeta. rewrite K. set (m := transposed (f_data g)). set (log := use_log _ _). cbn [andb orelse].
  destruct (upright_transposed (f_data g) nx ny E) as [Sm Um]. fold m in Sm, Um.
  assert (L : exists lim, limits_of k log true m = Ok lim).
  { unfold limits_of. destruct (k_clim k) as [[lo hi]|]; [eauto|]. destruct log; [eauto|]. destruct (symmetric_ok m) as (b & -> & _); [|cbn [bind]; eauto]. exists [0; 0]%Z. rewrite Sm. apply in_shape_2. lia. }
  destruct L as (lim & ->). cbn [bind]. destruct (lineout_y_ok m ny nx (ax_extent ay) log) as (x1 & y1 & -> & Ex & ->). destruct (lineout_x_ok m ny nx (ax_extent ax) log) as (x2 & y2 & -> & _). cbn [bind].
  assert (O : forall c : bool, exists ox, (if c then Ok [LineoutX x2 y2 log] else Ok []) = Ok ox) by (intros []; eauto). destruct (O (orelse (k_lineoutx k) false)) as (ox & ->). cbn [bind].
  eexists. exists x1, (map (fun j => rmean (row m nx j)) (zrange ny)), log. split; [reflexivity|]. split; [right; apply in_or_app; right; apply in_or_app; right; now left|].
  destruct (np_linspace_ok _ _ _ _ Ex) as [Ll V]. split; [now rewrite Ll, Nat2Z.id|]. split; [now rewrite map_length, zrange_len|]. intros j J. split.
  - rewrite (nth_indep _ 0 (rmean (row m nx 0))) by (rewrite map_length, zrange_len; lia). rewrite (map_nth (fun j => rmean (row m nx j))), zrange_nth by lia. unfold row. rewrite (rmean_sum (fun i => a_at m [j; i]) nx X). rewrite (sum_below_ext _ (fun i => a_at (f_data g) [Z.of_nat i; j])); [reflexivity|]. intros i I. apply Um; lia.
  - rewrite V by lia. rewrite !Z2Nat.id by lia. reflexivity.
Qed.
(** how far the positions are from the grid points *)
Lemma lineout_shift ax a b n i : axis_uniform a b n ax -> (2 <= n)%nat -> (i < n)%nat ->
  fst (ax_extent ax) + inject_Z (Z.of_nat i) * ((snd (ax_extent ax) - fst (ax_extent ax)) / inject_Z (Z.of_nat n - 1)) - nth i (ax_grid ax) 0
  == (inject_Z (Z.of_nat i) / inject_Z (Z.of_nat n - 1) - (1 # 2)) * ((b - a) / inject_Z (Z.of_nat n)).
Proof.
  intros (_ & _ & _ & E0 & E1 & _ & V) N I. rewrite E0, E1, V by exact I. assert (A : ~ inject_Z (Z.of_nat n) == 0) by (apply inject_Z_nz; lia). assert (B : ~ inject_Z (Z.of_nat n - 1) == 0) by (apply inject_Z_nz; lia).
  assert (Q : inject_Z (Z.of_nat n) == inject_Z (Z.of_nat n - 1) + 1) by (unfold Z.sub; rewrite inject_Z_plus; change (inject_Z (- (1))) with (- (1)); ring). revert A B Q. generalize (inject_Z (Z.of_nat n)), (inject_Z (Z.of_nat n - 1)), (inject_Z (Z.of_nat i)). intros x y z A B Q. rewrite Q in *. field. split; assumption.
Qed.
(** * Axes which count as linear *)
Lemma between_small x y a b : (a <= x <= b \/ b <= x <= a) -> (a <= y <= b \/ b <= y <= a) -> qabs (x - y) <= qabs (b - a).
Proof. intros X Y. rewrite !qabs_Qabs. apply Qabs_case; intro; apply Qabs_case; intro; destruct X, Y; lra. Qed.
Lemma nodes_between ax i : axis_proper ax -> (i < length (ax_node ax))%nat -> let a := nth 0 (ax_node ax) 0 in let b := nth (length (ax_grid ax)) (ax_node ax) 0 in a <= nth i (ax_node ax) 0 <= b \/ b <= nth i (ax_node ax) 0 <= a.
Proof.
  intros P I a b. destruct P as [[C _]|[C _]]; [left|right]; pose proof C as [L _].
  - pose proof (cells_up_sincr_node _ _ C) as M. split.
    + destruct i as [|i]; [apply Qle_refl|]. apply Qlt_le_weak, M; lia.
    + destruct (Nat.eq_dec i (length (ax_grid ax))) as [->|]; [apply Qle_refl|]. apply Qlt_le_weak, M; lia.
  - pose proof (cells_down_sdecr_node _ _ C) as M. split.
    + destruct (Nat.eq_dec i (length (ax_grid ax))) as [->|]; [apply Qle_refl|]. apply Qlt_le_weak, M; lia.
    + destruct i as [|i]; [apply Qle_refl|]. apply Qlt_le_weak, M; lia.
Qed.
Lemma lerp_between a b t : 0 <= t <= 1 -> a <= a + t * (b - a) <= b \/ b <= a + t * (b - a) <= a.
Proof. intros [T0 T1]. destruct (Qlt_le_dec b a); [right|left]; split; nra. Qed.
Lemma small_islinear ax : axis_proper ax -> qabs (snd (ax_extent ax) - fst (ax_extent ax)) <= 1 # 100000000 -> islinear ax = Ok true.
Proof.
  intros P E. destruct (proper_nodes ax P) as (N & D0 & D1 & Dn). unfold islinear. destruct (Z.ltb_spec (ax_n ax) 3); [reflexivity|]. unfold h_islinear. destruct (ax_node ax) as [|g0 gr] eqn:Eg; [cbn in N; lia|]. rewrite <- Eg in *.
  destruct (np_linspace_total g0 (last (ax_node ax) g0) (Z.of_nat (length (ax_node ax)))) as [l El]; [lia|]. rewrite El. cbn [bind]. f_equal. destruct (np_linspace_ok _ _ _ _ El) as [Ll V]. rewrite Nat2Z.id in Ll.
  assert (E0 : nth 0 (ax_node ax) 0 = g0) by (rewrite Eg; reflexivity). assert (E1 : last (ax_node ax) g0 = nth (length (ax_grid ax)) (ax_node ax) 0) by (rewrite last_nth, N; cbn [Nat.sub]; rewrite Nat.sub_0_r; apply nth_indep; lia).
  apply np_all_map2_iff; [now symmetry|]. intros i I. apply Qle_bool_iff.
  assert (B : qabs (nth i (ax_node ax) 0 - nth i l 0) <= qabs (nth (length (ax_grid ax)) (ax_node ax) 0 - nth 0 (ax_node ax) 0)).
  { apply between_small; [now apply nodes_between|]. specialize (V i ltac:(lia) ltac:(lia)). rewrite E1, <- E0 in V.
    assert (T : 0 <= inject_Z (Z.of_nat i) / inject_Z (Z.of_nat (length (ax_node ax)) - 1) <= 1).
    { assert (Pz : 0 < inject_Z (Z.of_nat (length (ax_node ax)) - 1)) by (change 0 with (inject_Z 0); rewrite <- Zlt_Qlt; lia). split; [apply Qle_shift_div_l; [exact Pz|]; rewrite Qmult_0_l; change 0 with (inject_Z 0); rewrite <- Zle_Qle; lia|apply Qle_shift_div_r; [exact Pz|]; rewrite Qmult_1_l, <- Zle_Qle; lia]. }
    assert (Z0 : ~ inject_Z (Z.of_nat (length (ax_node ax)) - 1) == 0) by (apply inject_Z_nz; lia).
    assert (W : nth i l 0 == nth 0 (ax_node ax) 0 + inject_Z (Z.of_nat i) / inject_Z (Z.of_nat (length (ax_node ax)) - 1) * (nth (length (ax_grid ax)) (ax_node ax) 0 - nth 0 (ax_node ax) 0)) by (rewrite V; field; exact Z0).
    rewrite W. now apply lerp_between. }
  assert (F : qabs (snd (ax_extent ax) - fst (ax_extent ax)) == qabs (nth (length (ax_grid ax)) (ax_node ax) 0 - nth 0 (ax_node ax) 0)) by (apply qabs_compat; rewrite D0, D1; reflexivity). pose proof (qabs_nonneg (nth i l 0)). lra.
Qed.
Lemma few_islinear ax : (ax_len ax <= 2)%Z -> islinear ax = Ok true.
Proof. intro L. unfold islinear. unfold ax_len in L. destruct (Z.ltb_spec (ax_n ax) 3); [reflexivity|lia]. Qed.
(** * plotFields1d and plotField *)
Lemma infos_eqb_spec a b : infos_eqb a b = true <-> a = b.
Proof. revert b. induction a as [|x a IH]; intros [|y b]; cbn; try (split; congruence). rewrite andb_true_iff, String.eqb_eq, IH. split; [intros [-> ->]; reflexivity|intros [= -> ->]; auto]. Qed.
Lemma draw_fields_infos spl k clear fs ds is : draw_fields spl k clear fs = Ok (ds, is) -> is = map (fun f => if (dims (f_shape (fst f)) <=? 0)%Z then snd f else if clear then [] else snd f) fs.
Proof.
  revert ds is. induction fs as [|[f i] fs IH]; intros ds is E; cbn [draw_fields] in E; [now injection E as <- <-|]. cbn [map fst snd]. destruct (dims (f_shape f) <=? 0)%Z.
  - destruct (draw_fields spl k clear fs) as [[d2 i2]|] eqn:Q; [|discriminate]. cbn [bind fst snd] in E. injection E as <- <-. f_equal. eapply IH. reflexivity.
  - destruct (draw_1d spl k f); [|discriminate]. cbn [bind] in E. destruct (draw_fields spl k clear fs) as [[d2 i2]|] eqn:Q; [|discriminate]. cbn [bind fst snd] in E. injection E as <- <-. f_equal. eapply IH. reflexivity.
Qed.
Lemma infos_kept spl k fs ds is : (forall f g, In f fs -> In g fs -> snd f = snd g) -> plot_fields_1d spl k fs = Ok (ds, is) -> is = map snd fs.
Proof.
  intros H E. destruct fs as [|[f0 i0] fs]; [discriminate|]. unfold plot_fields_1d in E. assert (C : forallb (fun f => infos_eqb (snd f) i0) ((f0, i0) :: fs) = true).
  { apply forallb_forall. intros f F. apply infos_eqb_spec. apply (H f (f0, i0)); [exact F|now left]. }
  rewrite C in E. apply draw_fields_infos in E. rewrite E. apply map_ext. intro f. cbn [negb]. now destruct (_ <=? _)%Z.
Qed.
Lemma infos_lost spl k fs ds is : (exists f g, In f fs /\ In g fs /\ snd f <> snd g) -> (forall f, In f fs -> (0 < dims (f_shape (fst f)))%Z) -> plot_fields_1d spl k fs = Ok (ds, is) -> is = map (fun _ => []) fs.
Proof.
  intros (f & g & F & G & N) D E. destruct fs as [|[f0 i0] fs]; [discriminate|]. unfold plot_fields_1d in E. assert (C : forallb (fun f => infos_eqb (snd f) i0) ((f0, i0) :: fs) = false).
  { destruct (forallb _ _) eqn:Q; [|reflexivity]. rewrite forallb_forall in Q. pose proof (Q f F) as A. pose proof (Q g G) as B. apply infos_eqb_spec in A, B. congruence. }
  rewrite C in E. apply draw_fields_infos in E. rewrite E. apply map_ext_in. intros x X. specialize (D x X). cbn [negb]. destruct (Z.leb_spec (dims (f_shape (fst x))) 0); [lia|reflexivity].
Qed.
Lemma autoreduce_dropped fuel spl maxlen k f g r : field_squeeze spl f = Ok g -> field_autoreduce fuel spl g maxlen = Ok r -> plot_field fuel spl true maxlen k (Some f) = plot_field fuel spl false maxlen k (Some f).
Proof. intros S A. unfold plot_field. rewrite S. cbn [bind]. now rewrite A. Qed.
Lemma plot_1d fuel spl maxlen k f g : field_squeeze spl f = Ok g -> dims (f_shape g) = 1%Z -> plot_field fuel spl false maxlen k (Some f) = draw_1d spl k g.
Proof.
  intros S D. unfold plot_field. rewrite S. cbn [bind]. rewrite D. cbn [Z.leb Z.compare Z.eqb Pos.eqb]. unfold plot_fields_1d. cbn [draw_fields forallb snd infos_eqb negb andb]. rewrite D. cbn [Z.leb Z.compare]. destruct (draw_1d spl k g) as [d|e]; [cbn; now rewrite app_nil_r|reflexivity].
Qed.
Lemma plot_2d fuel spl maxlen k f g : field_squeeze spl f = Ok g -> dims (f_shape g) = 2%Z -> plot_field fuel spl false maxlen k (Some f) = draw_2d spl k g.
Proof. intros S D. unfold plot_field. rewrite S. cbn [bind]. now rewrite D. Qed.
Lemma plot_0d fuel spl maxlen k f g : field_squeeze spl f = Ok g -> f_shape g = [] -> plot_field fuel spl false maxlen k (Some f) = Ok [NoData].
Proof. intros S E. unfold plot_field. rewrite S. cbn [bind]. now rewrite E. Qed.
Lemma plot_3d fuel spl maxlen k f g a b c : field_squeeze spl f = Ok g -> f_shape g = [a; b; c] -> (0 < a)%Z -> (0 < b)%Z -> (0 < c)%Z -> c <> 3%Z -> c <> 4%Z -> plot_field fuel spl false maxlen k (Some f) = Err BareException.
Proof.
  intros S E A B C N3 N4. unfold plot_field. rewrite S. cbn [bind]. rewrite E. assert (D : dims [a; b; c] = 3%Z) by (unfold dims; cbn [zprod fold_right]; destruct (Z.eqb_spec (a * (b * (c * 1))) 0); [nia|reflexivity]). unfold is_color. rewrite D. cbn. destruct (Z.eqb_spec c 3); [lia|]. destruct (Z.eqb_spec c 4); [lia|reflexivity].
Qed.
Lemma savecsv_2d spl f a b c d : draw_2d spl (mkkw a b c d (Some true)) f = draw_2d spl (mkkw a b c d None) f.
Proof. reflexivity. Qed.
(** images of colors *)
Lemma color_image spl k f g a b n : field_squeeze spl f = Ok g -> f_shape g = [a; b; n] -> (0 < a)%Z -> (0 < b)%Z -> n = 3%Z \/ n = 4%Z ->
  Forall (fun ax => islinear ax = Ok true) (f_axes g) -> draw_2d spl k f = Ok [Color].
Proof.
  intros S E A B N L. unfold draw_2d. rewrite S. cbn [bind]. rewrite E.
  assert (D : dims [a; b; n] = 3%Z) by (unfold dims; cbn [zprod fold_right]; destruct (Z.eqb_spec (a * (b * (n * 1))) 0); [nia|reflexivity]).
  assert (I : is_color [a; b; n] = true) by (unfold is_color; rewrite D; destruct N; subst n; reflexivity).
  rewrite D, I. cbn [guard bind Z.eqb Pos.eqb orb].
  assert (M : exists l, mapM islinear (f_axes g) = Ok l /\ forallb (fun b => b) l = true).
  { clear - L. induction L as [|x l P _ [m [M F]]]; [exists []; split; reflexivity|]. exists (true :: m). cbn [mapM]. rewrite P. cbn [bind]. rewrite M. split; [reflexivity|exact F]. }
  destruct M as [l [-> F]]. cbn [bind]. now rewrite F.
Qed.
Lemma color_plot fuel spl maxlen k f g h a b n : field_squeeze spl f = Ok g -> field_squeeze spl g = Ok h -> f_shape g = [a; b; n] -> f_shape h = [a; b; n] -> (0 < a)%Z -> (0 < b)%Z -> n = 3%Z \/ n = 4%Z ->
  Forall (fun ax => islinear ax = Ok true) (f_axes h) -> plot_field fuel spl false maxlen k (Some f) = Ok [Color].
Proof.
  intros S T E E' A B N L. unfold plot_field. rewrite S. cbn [bind]. rewrite E.
  assert (D : dims [a; b; n] = 3%Z) by (unfold dims; cbn [zprod fold_right]; destruct (Z.eqb_spec (a * (b * (n * 1))) 0); [nia|reflexivity]).
  assert (I : is_color [a; b; n] = true) by (unfold is_color; rewrite D; destruct N; subst n; reflexivity).
  rewrite D, I. cbn [Z.leb Z.compare Z.eqb Pos.eqb orb]. now apply (color_image spl k g h a b n).
Qed.
