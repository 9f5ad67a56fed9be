(** Fields which can be plotted, and concrete ones. *)
From Coq Require Import Lia Lqa.
From Verif Require Import PyBase PyBaseFacts NumpyModel NumpyFacts NdModel NdFacts AxisModel AxisSpec AxisFacts AxisInterpFacts FieldModel FieldSpec FieldIndexFacts HistddModel PlotModel PlotSpec PlotFacts IoSpec IoDemo.

Lemma entries_of_length {A} (d : A) l ks : length (entries_at d l ks) = length ks.
Proof. unfold entries_at. apply map_length. Qed.
Lemma long_positive sh : FieldSpec.nonempty sh -> Forall (fun n => (1 < n)%Z) (entries_at 0%Z sh (long_dims sh)).
Proof.
  intro H. apply Forall_forall. intros n I. unfold entries_at in I. apply in_map_iff in I as (k & <- & K). unfold long_dims in K. apply filter_In in K as [K1 K2]. apply in_seq in K1. unfold FieldSpec.nonempty in H. rewrite Forall_forall in H. specialize (H (nth k sh 0%Z) ltac:(apply nth_In; lia)). destruct (Z.eqb_spec (nth k sh 0%Z) 1); [discriminate|lia].
Qed.
Lemma squeezed_2d spl (f : field Q) : ready f -> FieldSpec.nonempty (f_shape f) -> length (long_dims (f_shape f)) = 2%nat ->
  exists g nx ny ax ay, two_dim spl f g nx ny ax ay /\ squeezed f g /\ axis_proper ax /\ axis_proper ay /\ (1 < nx)%Z /\ (1 < ny)%Z.
Proof.
  intros (C & P & I) N L. destruct (squeeze_total spl f C P I N ltac:(lia)) as (g & S & Q & Cg & Pg & _). pose proof Q as (Q1 & Q2 & _). pose proof (long_positive _ N) as LP.
  pose proof (entries_of_length 0%Z (f_shape f) (long_dims (f_shape f))) as E. destruct (entries_at 0%Z (f_shape f) (long_dims (f_shape f))) as [|nx [|ny [|]]] eqn:Es; cbn in E; try lia.
  destruct (two_axes g nx ny Cg) as (ax & ay & A & _); [congruence|]. inversion LP as [|? ? B1 LP2]; subst. inversion LP2 as [|? ? B2 _]; subst. rewrite A in Pg. inversion Pg as [|? ? P1 Pg2]; subst. inversion Pg2 as [|? ? P2 _]; subst.
  exists g, nx, ny, ax, ay. split; [|repeat split; try assumption; try lia; try apply Q; apply Cg]. unfold two_dim. split; [exact S|]. split; [exact Cg|]. split; [congruence|]. split; [lia|]. split; [lia|exact A].
Qed.
Lemma squeezed_1d spl (f : field Q) : ready f -> FieldSpec.nonempty (f_shape f) -> length (long_dims (f_shape f)) = 1%nat ->
  exists g n, field_squeeze spl f = Ok g /\ consistent g /\ f_shape g = [n] /\ (1 < n)%Z /\ squeezed f g.
Proof.
  intros (C & P & I) N L. destruct (squeeze_total spl f C P I N ltac:(lia)) as (g & S & Q & Cg & _). pose proof Q as (Q1 & _). pose proof (long_positive _ N) as LP.
  pose proof (entries_of_length 0%Z (f_shape f) (long_dims (f_shape f))) as E. destruct (entries_at 0%Z (f_shape f) (long_dims (f_shape f))) as [|nx [|]] eqn:Es; cbn in E; try lia. inversion LP as [|? ? B1 _]; subst.
  exists g, nx. auto.
Qed.
Lemma squeezed_0d spl (f : field Q) : ready f -> FieldSpec.nonempty (f_shape f) -> long_dims (f_shape f) = [] -> exists g, field_squeeze spl f = Ok g /\ f_shape g = [].
Proof. intros (C & P & I) N L. destruct (squeeze_total spl f C P I N ltac:(rewrite L; cbn; lia)) as (g & S & (Q1 & _) & _). exists g. split; [exact S|]. rewrite Q1, L. reflexivity. Qed.

(** f minus something *)
Definition lowered (d : Q) (f : field Q) : field Q := mkField (mkarr (f_shape f) (fun idx => a_at (f_data f) idx - d)) (f_top f) (f_inner f).
Lemma lowered_ready d f : ready f -> ready (lowered d f).
Proof. intros (C & P & I). split; [exact C|]. split; [exact P|exact I]. Qed.
Definition two_cells nm : axis := demo_axis nm [0; 1; 4]%Q [1 # 2; 5 # 2]%Q.
Definition tiny nm : axis := demo_axis nm [0; 1 # 1000000000; 4 # 1000000000; 9 # 1000000000]%Q [1 # 2000000000; 2 # 1000000000; 6 # 1000000000]%Q.
Definition one_cell nm : axis := demo_axis nm [0; 1]%Q [1 # 2]%Q.
Definition five nm : axis := demo_axis nm [0; 1; 2; 3; 4; 5]%Q [1 # 2; 3 # 2; 5 # 2; 7 # 2; 9 # 2]%Q.
Lemma two_cells_proper nm : axis_proper (two_cells nm).
Proof. left. apply made_up. split; [reflexivity|]. intros i Hi. cbn in Hi. destruct i as [|[|i]]; [cbn; lra|cbn; lra|lia]. Qed.
Lemma tiny_proper nm : axis_proper (tiny nm).
Proof. left. apply made_up. split; [reflexivity|]. intros i Hi. cbn in Hi. destruct i as [|[|[|i]]]; [cbn; lra|cbn; lra|cbn; lra|lia]. Qed.
Lemma one_cell_proper nm : axis_proper (one_cell nm).
Proof. left. apply made_up. split; [reflexivity|]. intros i Hi. cbn in Hi. destruct i as [|i]; [cbn; lra|lia]. Qed.
Lemma five_proper nm : axis_proper (five nm).
Proof. left. apply made_up. split; [reflexivity|]. intros i Hi. cbn in Hi. do 5 (destruct i as [|i]; [cbn; lra|]). lia. Qed.
Lemma pair_ready a b : axis_proper a -> axis_proper b -> ready (demo_field [a; b]).
Proof. intros A B. apply demo_ready. constructor; [exact A|constructor; [exact B|constructor]]. Qed.
Lemma single_ready a : axis_proper a -> ready (demo_field [a]).
Proof. intros A. apply demo_ready. constructor; [exact A|constructor]. Qed.
(** what squeezing leaves of two axes, and whether these count as linear *)
Definition lin_is (b : bool) (ax : axis) : bool := match islinear ax with Ok c => Bool.eqb b c | Err _ => false end.
Lemma lin_is_spec b ax : lin_is b ax = true -> islinear ax = Ok b.
Proof. unfold lin_is. destruct (islinear ax) as [c|]; [|discriminate]. intro H. apply Bool.eqb_prop in H. now subst. Qed.
Definition both (p q : axis -> bool) (g : field Q) : bool := match f_axes g with [ax; ay] => p ax && q ay | _ => false end.
Lemma squeezed_case spl (f : field Q) (p q : axis -> bool) : ready f -> FieldSpec.nonempty (f_shape f) -> length (long_dims (f_shape f)) = 2%nat -> (match field_squeeze spl f with Ok g => both p q g | Err _ => false end) = true ->
  exists g nx ny ax ay, two_dim spl f g nx ny ax ay /\ squeezed f g /\ axis_proper ax /\ axis_proper ay /\ p ax = true /\ q ay = true.
Proof.
  intros R N L H. destruct (squeezed_2d spl f R N L) as (g & nx & ny & ax & ay & T & S & P1 & P2 & _). exists g, nx, ny, ax, ay. pose proof T as (E & _ & _ & _ & _ & A). rewrite E in H. unfold both in H. rewrite A in H. apply andb_prop in H as [H1 H2]. auto 8.
Qed.
(** * Witnesses *)
(** two cells of different widths, and cells of nanometers *)
Lemma two_unequal : exists (f : field Q) g ax ay, ready f /\ two_dim chord_spline f g 2 3 ax ay /\ axis_proper ax /\ axis_proper ay /\
  (exists m log rest, draw_2d chord_spline no_kwargs f = Ok (Image m log (ax_extent ax) (ax_extent ay) :: rest)) /\ ~ pixels_match near ax.
Proof.
  set (f := demo_field [two_cells "x"; up3 "y"]). assert (R : ready f) by (apply pair_ready; [apply two_cells_proper|apply up3_proper]). exists f.
  destruct (squeezed_case chord_spline f (fun ax => lin_is true ax && (ax_len ax =? 2)%Z && negb (Qle_bool (qabs (nth 1 (ax_node ax) 0 - pixel_edge (ax_extent ax) 2 1)) ((1 # 100000000) + (1 # 100000) * qabs (pixel_edge (ax_extent ax) 2 1)))) (lin_is true)) as (g & nx & ny & ax & ay & T & S & P1 & P2 & H1 & H2); [exact R|repeat constructor|reflexivity|vm_compute; reflexivity|].
  apply andb_prop in H1 as [H1 H4]. apply andb_prop in H1 as [H1 H3]. apply lin_is_spec in H1, H2. apply Z.eqb_eq in H3. exists g, ax, ay. split; [exact R|]. pose proof S as (S1 & _). pose proof T as (_ & _ & Sg & _). rewrite Sg in S1. injection S1 as -> ->. change (nth 0 (f_shape f) 0%Z) with 2%Z in T. change (nth 1 (f_shape f) 0%Z) with 3%Z in T. split; [exact T|]. split; [exact P1|]. split; [exact P2|]. split.
  - destruct (image_drawn chord_spline no_kwargs f g 2 3 ax ay T H1 H2) as (m & log & rest & E & _). exists m, log, rest. exact E.
  - intro M. specialize (M 1%Z ltac:(rewrite H3; lia)). rewrite H3 in M. change (Z.to_nat 1) with 1%nat in M. unfold near in M. apply Qle_bool_iff in M. rewrite M in H4. discriminate.
Qed.
Lemma small_unequal : exists (f : field Q) g ax ay, ready f /\ two_dim chord_spline f g 3 3 ax ay /\ axis_proper ax /\ axis_proper ay /\
  (exists m log rest, draw_2d chord_spline no_kwargs f = Ok (Image m log (ax_extent ax) (ax_extent ay) :: rest)) /\ pixel_edge (ax_extent ax) 3 1 == 3 * nth 1 (ax_node ax) 0 /\ 0 < nth 1 (ax_node ax) 0.
Proof.
  set (f := demo_field [tiny "x"; up3 "y"]). assert (R : ready f) by (apply pair_ready; [apply tiny_proper|apply up3_proper]). exists f.
  destruct (squeezed_case chord_spline f (fun ax => lin_is true ax && Qeq_bool (pixel_edge (ax_extent ax) 3 1) (3 * nth 1 (ax_node ax) 0) && (0 <?q nth 1 (ax_node ax) 0)) (lin_is true)) as (g & nx & ny & ax & ay & T & S & P1 & P2 & H1 & H2); [exact R|repeat constructor|reflexivity|vm_compute; reflexivity|].
  apply andb_prop in H1 as [H1 H4]. apply andb_prop in H1 as [H1 H3]. apply lin_is_spec in H1, H2. apply Qeq_bool_iff in H3. apply Qltb_lt in H4. exists g, ax, ay. split; [exact R|]. pose proof S as (S1 & _). pose proof T as (_ & _ & Sg & _). rewrite Sg in S1. injection S1 as -> ->. change (nth 0 (f_shape f) 0%Z) with 3%Z in T. change (nth 1 (f_shape f) 0%Z) with 3%Z in T. split; [exact T|]. split; [exact P1|]. split; [exact P2|]. split; [|split; [exact H3|exact H4]].
  destruct (image_drawn chord_spline no_kwargs f g 3 3 ax ay T H1 H2) as (m & log & rest & E & _). exists m, log, rest. exact E.
Qed.
(** a field which is changed by its reduction is drawn unreduced *)
Definition line_length (n : Z) (r : res (list drawing)) : bool := match r with Ok [Line x _ _] => (Z.of_nat (length x) =? n)%Z | _ => false end.
Definition length_is (n : Z) (r : res (field Q)) : bool := match r with Ok g => match f_shape g with [m] => (m =? n)%Z | _ => false end | Err _ => false end.
Lemma not_reduced : exists (f : field Q), ready f /\ length_is 5 (Ok f) = true /\ length_is 2 (field_autoreduce 10 chord_spline f 3) = true /\ line_length 5 (plot_field 10 chord_spline true 3 no_kwargs (Some f)) = true.
Proof. exists (demo_field [five "x"]). split; [apply single_ready, five_proper|]. split; [reflexivity|]. split; vm_compute; reflexivity. Qed.
Lemma signed_mesh : exists (f : field Q) g ax ay, ready f /\ two_dim chord_spline f g 3 3 ax ay /\ islinear ax = Ok false /\ islinear ay = Ok true /\ draw_2d chord_spline no_kwargs f = Err IndexError.
Proof.
  set (f := lowered 100 (demo_field [bent "x"; up3 "y"])). assert (R : ready f) by (apply lowered_ready, pair_ready; [apply bent_proper|apply up3_proper]). exists f.
  destruct (squeezed_case chord_spline f (lin_is false) (lin_is true)) as (g & nx & ny & ax & ay & T & S & P1 & P2 & H1 & H2); [exact R|repeat constructor|reflexivity|vm_compute; reflexivity|].
  apply lin_is_spec in H1, H2. exists g, ax, ay. split; [exact R|]. pose proof S as (S1 & _). pose proof T as (_ & _ & Sg & _). rewrite Sg in S1. injection S1 as -> ->. change (nth 0 (f_shape f) 0%Z) with 3%Z in T. change (nth 1 (f_shape f) 0%Z) with 3%Z in T. split; [exact T|]. split; [exact H1|]. split; [exact H2|]. destruct (draw_2d chord_spline no_kwargs f) as [d|e] eqn:D.
  - exfalso. assert (X : (match draw_2d chord_spline no_kwargs f with Ok _ => true | Err _ => false end) = false) by (vm_compute; reflexivity). rewrite D in X. discriminate.
  - assert (X : (match draw_2d chord_spline no_kwargs f with Err IndexError => true | _ => false end) = true) by (vm_compute; reflexivity). rewrite D in X. destruct e; try discriminate. reflexivity.
Qed.
(** the cases for the theorems: a linear and a bent field, both with values drawn logarithmically or not *)
Definition flat (d : Q) : field Q := lowered d (demo_field [up3 "x"; up3 "y"]).
Lemma flat_case d : exists g ax ay, ready (flat d) /\ two_dim chord_spline (flat d) g 3 3 ax ay /\ axis_proper ax /\ axis_proper ay /\ islinear ax = Ok true /\ islinear ay = Ok true /\ squeezed (flat d) g.
Proof.
  assert (R : ready (flat d)) by (apply lowered_ready, pair_ready; apply up3_proper).
  destruct (squeezed_case chord_spline (flat d) (lin_is true) (lin_is true)) as (g & nx & ny & ax & ay & T & S & P1 & P2 & H1 & H2); [exact R|repeat constructor|reflexivity|vm_compute; reflexivity|].
  apply lin_is_spec in H1, H2. exists g, ax, ay. split; [exact R|]. pose proof S as (S1 & _). pose proof T as (_ & _ & Sg & _). rewrite Sg in S1. injection S1 as -> ->. split; [exact T|]. auto.
Qed.
Lemma curved_case : exists f g ax ay, ready f /\ two_dim chord_spline f g 3 3 ax ay /\ islinear ax = Ok false /\ islinear ay = Ok true /\ loggable true (f_data g).
Proof.
  set (f := demo_field [bent "x"; up3 "y"]). assert (R : ready f) by (apply pair_ready; [apply bent_proper|apply up3_proper]). exists f.
  destruct (squeezed_case chord_spline f (lin_is false) (lin_is true)) as (g & nx & ny & ax & ay & T & S & P1 & P2 & H1 & H2); [exact R|repeat constructor|reflexivity|vm_compute; reflexivity|].
  apply lin_is_spec in H1, H2. exists g, ax, ay. split; [exact R|]. pose proof S as (S1 & _). pose proof T as (Sq & _ & Sg & _). rewrite Sg in S1. injection S1 as -> ->. split; [exact T|]. split; [exact H1|]. split; [exact H2|]. apply use_log_iff. destruct (ok_such (field_squeeze chord_spline f) (fun g => use_log true (values (f_data g)))) as (g2 & E2 & U); [vm_compute; reflexivity|]. rewrite Sq in E2. injection E2 as <-. exact U.
Qed.
Lemma flat_signed g nx ny ax ay : two_dim chord_spline (flat 100) g nx ny ax ay -> ~ loggable true (f_data g).
Proof.
  intros (Sq & _) L. apply use_log_iff in L. destruct (ok_such (field_squeeze chord_spline (flat 100)) (fun g => negb (use_log true (values (f_data g))))) as (g2 & E2 & U); [vm_compute; reflexivity|]. rewrite Sq in E2. injection E2 as <-. rewrite L in U. discriminate.
Qed.
Lemma single_sample : exists f : field Q, ready f /\ f_shape f = [1%Z] /\ a_at (f_data f) [0%Z] == 42 /\ plot_field 0 chord_spline false 4000 no_kwargs (Some f) = Ok [NoData].
Proof.
  set (f := lowered (- (42)) (demo_field [one_cell "x"])). assert (R : ready f) by (apply lowered_ready, single_ready, one_cell_proper). exists f. split; [exact R|]. split; [reflexivity|]. split; [reflexivity|]. destruct (squeezed_0d chord_spline f R) as (g & S & E); [repeat constructor|reflexivity|]. now apply (plot_0d _ _ _ _ _ g).
Qed.
Lemma plotted_1d fuel spl maxlen k f : ready f -> FieldSpec.nonempty (f_shape f) -> length (long_dims (f_shape f)) = 1%nat -> k_savecsv k <> None \/ k_clim k <> None \/ k_lineoutx k <> None \/ k_lineouty k <> None -> plot_field fuel spl false maxlen k (Some f) = Err TypeError.
Proof.
  intros R N L H. destruct (squeezed_1d spl f R N L) as (g & n & S & _ & E & P & _). rewrite (plot_1d fuel spl maxlen k f g S); [now apply line_refused|]. rewrite E. unfold dims. cbn [zprod fold_right]. destruct (Z.eqb_spec (n * 1) 0); [lia|reflexivity].
Qed.
(** nothing keeps a field with fewer than two points, but more can be drawn *)
Lemma infos_gone : exists (f g : field Q) ds is, plot_fields_1d chord_spline no_kwargs [(f, ["a"%string]); (g, ["b"%string])] = Ok (ds, is) /\ is = [[]; []].
Proof.
  exists (demo_field [up3 "x"]), (demo_field [up3 "x"]). destruct (plot_fields_1d chord_spline no_kwargs [(demo_field [up3 "x"], ["a"%string]); (demo_field [up3 "x"], ["b"%string])]) as [[ds is]|e] eqn:E.
  - exists ds, is. split; [reflexivity|]. change [[]; []] with (map (fun _ : field Q * list string => @nil string) [(demo_field [up3 "x"], ["a"%string]); (demo_field [up3 "x"], ["b"%string])]). apply (infos_lost chord_spline no_kwargs _ ds is); [|intros f [<-|[<-|[]]]; reflexivity|exact E]. exists (demo_field [up3 "x"], ["a"%string]), (demo_field [up3 "x"], ["b"%string]). split; [now left|]. split; [now right; left|discriminate].
  - exfalso. assert (X : (match plot_fields_1d chord_spline no_kwargs [(demo_field [up3 "x"], ["a"%string]); (demo_field [up3 "x"], ["b"%string])] with Ok _ => true | Err _ => false end) = true) by (vm_compute; reflexivity). rewrite E in X. discriminate.
Qed.
Lemma line_all fuel spl maxlen k f : plain_1d k -> ready f -> FieldSpec.nonempty (f_shape f) -> length (long_dims (f_shape f)) = 1%nat ->
  exists g n ax y log, squeezed f g /\ f_shape g = [n] /\ f_axes g = [ax] /\ draw_1d spl k f = Ok [Line (ax_grid ax) y log] /\ length y = Z.to_nat n /\ (forall i, (0 <= i < n)%Z -> nth (Z.to_nat i) y 0 = a_at (f_data g) [i])
    /\ (log = true <-> loggable (orelse (k_log10plot k) true) (f_data g)) /\ plot_field fuel spl false maxlen k (Some f) = draw_1d spl k g.
Proof.
  intros K R N L. destruct (squeezed_1d spl f R N L) as (g & n & S & C & E & P & Q). destruct (line_drawn spl k f g n K S C E ltac:(lia)) as (ax & y & log & A & D & Ly & V & Lg). exists g, n, ax, y, log. split; [exact Q|]. split; [exact E|]. split; [exact A|]. split; [exact D|]. split; [exact Ly|]. split; [exact V|]. split; [exact Lg|]. apply (plot_1d _ _ _ _ f); [exact S|]. rewrite E. unfold dims. cbn [zprod fold_right]. destruct (Z.eqb_spec (n * 1) 0); [lia|reflexivity].
Qed.
Lemma positions_off ax a b n : axis_uniform a b n ax -> (2 <= n)%nat -> fst (ax_extent ax) - nth 0 (ax_grid ax) 0 == - (1 # 2) * ((b - a) / inject_Z (Z.of_nat n)).
Proof.
  intros U N. pose proof (lineout_shift ax a b n 0 U N ltac:(lia)) as H. change (inject_Z (Z.of_nat 0)) with 0 in H. rewrite Qmult_0_l, Qplus_0_r in H. rewrite H. unfold Qdiv at 1. rewrite Qmult_0_l. reflexivity.
Qed.
