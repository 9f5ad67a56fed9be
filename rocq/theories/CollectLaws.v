(** Proofs about the simulation box of a collection of species (C94) and about createField (C95). *)
From Coq Require Import Permutation Lia Lqa.
From Verif Require Import PyBase PyBaseFacts NumpyModel NumpyFacts NdModel NdFacts AxisModel AxisSpec AxisFacts FieldModel FieldSpec FieldInvFacts FieldIntFacts FieldBuildFacts FieldReduceFacts FieldRearrFacts
  ParticleModel SpeciesModel QSum DepModel DepSpec DepHistFacts DepSumFacts HistddModel HistddFacts CollectModel CollectSpec CollectFacts.

(** * The box *)
Lemma mmap_objs w is l : Forall2 (fun i s => nth_error (w_objs w) i = Some s) is l -> mmap (fun i => do! s := get_obj i in mret (s_dump s)) is w = (w, Ok (map s_dump l)).
Proof. induction 1 as [|i s is l E F IH]; [reflexivity|]. cbn [mmap map]. unfold mbind, get_obj, mret in *. now rewrite E, IH. Qed.
Lemma dumps_of w m l : members w m l -> ms_dumps m w = (w, Ok (map s_dump l)).
Proof. intros (is & E & F). unfold ms_dumps, mbind at 1, get_ms. rewrite E. now apply mmap_objs. Qed.
Lemma box_hull box w m l axis es : members w m l -> l <> [] -> map (fun s => box (s_dump s) axis) l = map Ok es -> exists e, ms_simextent box m axis w = (w, Ok e) /\ hull es e.
Proof.
  intros M N E. unfold ms_simextent, mbind at 1. rewrite (dumps_of w m l M). unfold mlift, mbind.
  assert (Em : mapM (fun d => box d axis) (map s_dump l) = Ok es).
  { clear - E. revert es E. induction l as [|s l IH]; intros [|e es] E; try discriminate; [reflexivity|]. cbn [map] in E. injection E as E1 E2. cbn [mapM map]. rewrite E1, (IH es E2). reflexivity. }
  rewrite Em. assert (Ne : es <> []) by (intros ->; destruct l; [congruence|discriminate]).
  destruct (np_min_ok (map fst es)) as (lo & Elo & Hlo); [destruct es; [congruence|discriminate]|]. destruct (np_max_ok (map snd es)) as (hi & Ehi & Hhi); [destruct es; [congruence|discriminate]|].
  rewrite Elo, Ehi. exists (lo, hi). split; [reflexivity|]. unfold hull. cbn [fst snd]. destruct Hlo as [Il Hl], Hhi as [Ih Hh]. split; [|split; assumption]. intros x Ix. split; [apply Hl, in_map, Ix|apply Hh, in_map, Ix].
Qed.
Lemma box_empty box w m axis : members w m [] -> ms_simextent box m axis w = (w, Err ValueError).
Proof. intro M. unfold ms_simextent, mbind at 1. rewrite (dumps_of w m [] M). reflexivity. Qed.
Lemma box_fails box w m l axis s e : members w m l -> In s l -> box (s_dump s) axis = Err e -> exists e', ms_simextent box m axis w = (w, Err e').
Proof.
  intros M I E. unfold ms_simextent, mbind at 1. rewrite (dumps_of w m l M). unfold mlift, mbind.
  assert (Em : exists e', mapM (fun d => box d axis) (map s_dump l) = Err e').
  { clear M. induction l as [|t l IH]; [destruct I|]. cbn [mapM map]. destruct (box (s_dump t) axis) as [x|e'] eqn:Et; [|now exists e']. destruct I as [->|I]; [congruence|]. cbn [bind]. destruct (IH I) as [e' ->]. now exists e'. }
  destruct Em as [e' ->]. now exists e'.
Qed.
Lemma box_keeps box w m axis : fst (ms_simextent box m axis w) = w \/ members w m [] \/ ~ exists l, members w m l.
Proof.
  destruct (nth_error (w_ms w) m) as [is|] eqn:E.
  - left. unfold ms_simextent, mbind at 1, ms_dumps, mbind at 1, get_ms. rewrite E.
    assert (K : forall is, exists r, mmap (fun i => do! s := get_obj i in mret (s_dump s)) is w = (w, r)).
    { clear. induction is as [|i is [r IH]]; [now eexists|]. cbn [mmap]. unfold mbind, get_obj, mret in *. destruct (nth_error (w_objs w) i); [|now eexists]. rewrite IH. destruct r; now eexists. }
    destruct (K is) as [r ->]. destruct r; [|reflexivity]. unfold mbind, mlift. destruct (mapM _ a); [|reflexivity]. destruct (np_min _); [|reflexivity]. destruct (np_max _); reflexivity.
  - right. right. intros (l & is & H & _). congruence.
Qed.
Lemma points_none pts w m l axis : members w m l -> l <> [] -> (forall s, In s l -> (exists n, pts (s_dump s) axis = Ok n) \/ pts (s_dump s) axis = Err AttributeError \/ pts (s_dump s) axis = Err KeyError) ->
  ms_simgridpoints pts m axis w = (w, Ok None).
Proof.
  intros M N H. unfold ms_simgridpoints, mbind. rewrite (dumps_of w m l M). destruct l as [|s l]; [congruence|]. cbn [map]. destruct (H s (or_introl eq_refl)) as [[n ->]|[-> | ->]]; reflexivity.
Qed.
Lemma reader_first same w m s l : members w m (s :: l) -> (forall x, same (s_dump s) (s_dump x) = true \/ same (s_dump s) (s_dump x) = false) ->
  ms_dumpreader same m w = (w, Ok (if forallb (fun x => same (s_dump s) (s_dump x)) (s :: l) then Some (s_dump s) else None)).
Proof.
  intros M _. unfold ms_dumpreader, mbind. rewrite (dumps_of w m (s :: l) M). cbn [map]. change (s_dump s :: map s_dump l) with (map s_dump (s :: l)).
  assert (E : forall l, forallb (same (s_dump s)) (map s_dump l) = forallb (fun x => same (s_dump s) (s_dump x)) l) by (clear; induction l as [|x l IH]; [reflexivity|cbn; now rewrite IH]). rewrite E. reflexivity.
Qed.
Lemma reader_spec same w m s l : members w m (s :: l) -> exists r, ms_dumpreader same m w = (w, Ok r) /\ (r = Some (s_dump s) <-> forall x, In x (s :: l) -> same (s_dump s) (s_dump x) = true) /\ (r = None <-> exists x, In x (s :: l) /\ same (s_dump s) (s_dump x) = false).
Proof.
  intro M. eexists. split; [apply (reader_first same w m s l M); intro x; destruct (same (s_dump s) (s_dump x)); auto|].
  destruct (forallb (fun x => same (s_dump s) (s_dump x)) (s :: l)) eqn:E.
  - rewrite forallb_forall in E. split; [split; [auto|reflexivity]|]. split; [discriminate|]. intros (x & I & F). rewrite (E x I) in F. discriminate.
  - assert (X : exists x, In x (s :: l) /\ same (s_dump s) (s_dump x) = false).
    { generalize dependent (s :: l). intros l0 _ E. clear - E. induction l0 as [|x l0 IH]; [discriminate|]. cbn [forallb] in E. destruct (same (s_dump s) (s_dump x)) eqn:Ex; [destruct (IH E) as (y & I & Y); exists y; split; [now right|exact Y]|exists x; split; [now left|exact Ex]]. }
    split; [|split; [auto|reflexivity]]. split; [discriminate|]. intro H. destruct X as (x & I & F). rewrite (H x I) in F. discriminate.
Qed.
Lemma reader_empty same w m : members w m [] -> ms_dumpreader same m w = (w, Ok None).
Proof. intro M. unfold ms_dumpreader, mbind. now rewrite (dumps_of w m [] M). Qed.
(** the keyword arguments *)
Lemma sim_ranges_ok box sps : forall es ranges, map (fun sp => box (sc_symbol sp)) sps = map Ok es -> (length sps <= length ranges)%nat -> sim_ranges box sps ranges = Ok (map Some es ++ skipn (length es) ranges).
Proof.
  induction sps as [|sp sps IH]; intros [|e es] ranges E L; try discriminate; [reflexivity|]. cbn [map] in E. injection E as E1 E2. cbn [sim_ranges]. rewrite E1. cbn [bind]. destruct ranges as [|r ranges]; [cbn in L; lia|]. rewrite (IH es ranges E2) by (cbn in L; lia). reflexivity.
Qed.
Lemma sim_bins_none pts sps : forall i bins, (forall sp, In sp sps -> pts (sc_symbol sp) = Ok None) -> sim_bins pts i sps bins = Ok bins.
Proof. induction sps as [|sp sps IH]; intros i bins H; [reflexivity|]. cbn [sim_bins]. rewrite (H sp (or_introl eq_refl)). cbn [bind]. apply IH. intros; apply H; now right. Qed.
Lemma extent_replaces ub spacing box pts sps w h es : map (fun sp => box (sc_symbol sp)) sps = map Ok es -> (length sps <= length (h_ranges h))%nat -> (h_simgrid h = true -> forall sp, In sp sps -> pts (sc_symbol sp) = Ok None) ->
  h_simextent h || h_simgrid h = true ->
  create_histgram ub spacing box pts sps w h = create_histgram ub spacing box pts sps w (with_ranges h (map Some es ++ skipn (length es) (h_ranges h))).
Proof.
  intros E L P H. unfold create_histgram. cbn [with_ranges h_simextent h_simgrid h_force h_ranges h_bins h_shape orb]. rewrite H, (sim_ranges_ok _ _ _ _ E L).
  destruct (h_simgrid h); [rewrite (sim_bins_none pts sps 0 (h_bins h) (P eq_refl))|]; reflexivity.
Qed.
Lemma extent_missing ub spacing box pts sps w h sp e : In sp sps -> box (sc_symbol sp) = Err e -> h_simextent h = true -> exists e', create_histgram ub spacing box pts sps w h = Err e'.
Proof.
  intros I E H. unfold create_histgram. destruct (Nat.leb (length sps) 3); cbn [guard bind]; [|now eexists].
  assert (X : forall ranges, exists e', sim_ranges box sps ranges = Err e').
  { clear - I E. induction sps as [|t sps IH]; [destruct I|]. intro ranges. cbn [sim_ranges]. destruct (box (sc_symbol t)) as [x|] eqn:Et; [|now eexists]. cbn [bind]. destruct I as [->|I]; [congruence|]. destruct ranges as [|r rs]; [now eexists|]. destruct (IH I rs) as [e' ->]. now eexists. }
  destruct (X (h_ranges h)) as [e' X']. rewrite H, X'. cbn [orb]. destruct (mapM sc_values sps) as [d|[]]; cbn [bind]; try (now eexists). destruct (h_force h); cbn [bind]; now eexists.
Qed.

(** * createField *)
Lemma nodes_axis spl nm a b n e : reproduces_lines spl -> (1 <= n)%nat -> a < b -> np_linspace a b (Z.of_nat n + 1) = Ok e -> exists ax, mk_axis spl nm "" (Some e) None None None = Ok ax /\ axis_uniform a b n ax.
Proof.
  intros Sp N A E. destruct (mk_axis_extent_uniform spl nm "" a b n Sp N) as (ax & Ha & U & _).
  assert (M : check_monotone (Some e) = Ok tt).
  { cbn [check_monotone]. rewrite sincr_monotone; [reflexivity|]. destruct (np_linspace_ok _ _ _ _ E) as [L V]. apply sincr_step. intros i Hi. rewrite !V by lia. rewrite inject_Z_S.
    assert (P : 0 < (b - a) / inject_Z (Z.of_nat n + 1 - 1)) by (apply Qlt_shift_div_l; [change 0 with (inject_Z 0); rewrite <- Zlt_Qlt; lia|lra]). nra. }
  unfold mk_axis in Ha |- *. rewrite M. cbn [check_monotone bind] in Ha |- *. rewrite E in Ha. cbn [bind] in Ha.
  destruct (grid_from_nodes spl e) as [g|]; [|discriminate]. cbn [bind] in Ha |- *. destruct e as [|e0 er]; [discriminate|].
  destruct (negb (a ==?q e0) || negb (b ==?q last (e0 :: er) e0)) eqn:B; [discriminate|]. cbn [bind] in Ha. apply orb_false_iff in B. destruct B as [B1 B2]. apply negb_false_iff in B1, B2.
  destruct (Z.eqb_spec (Z.of_nat n) (Z.of_nat (length g))) as [Eg|]; [|discriminate]. cbn [bind] in Ha |- *. injection Ha as <-.
  eexists. split; [reflexivity|]. unfold axis_uniform in *. cbn [ax_node ax_grid ax_n ax_extent fst snd] in *. apply Qeq_bool_iff in B1, B2. destruct U as (U1 & U2 & U3 & U4 & U5 & U6). split; [exact U1|]. split; [exact U2|]. split; [now symmetry|]. split; [now symmetry|]. split; [now symmetry|]. exact U6.
Qed.
Lemma uniform_noded a b n ax : axis_uniform a b n ax -> axis_noded ax.
Proof. intros (A & B & C & _). split; [unfold axis_counted, ax_len in *; lia|lia]. Qed.
Lemma uniform_len a b n ax : axis_uniform a b n ax -> ax_len ax = Z.of_nat n.
Proof. intros (A & B & C & _). unfold ax_len. lia. Qed.
(** the axes of a field with these edges *)
Definition edged (r : Q * Q) (n : Z) (e : list Q) : Prop := (0 < n)%Z /\ fst r < snd r /\ np_linspace (fst r) (snd r) (n + 1) = Ok e.
Lemma edged_axis spl nm r n e : reproduces_lines spl -> edged r n e -> exists ax, mk_axis spl nm "" (Some e) None None None = Ok ax /\ axis_uniform (fst r) (snd r) (Z.to_nat n) ax /\ ax_len ax = n.
Proof.
  intros Sp (N & A & E). destruct (nodes_axis spl nm (fst r) (snd r) (Z.to_nat n) e Sp ltac:(lia) A ltac:(rewrite Z2Nat.id by lia; exact E)) as (ax & Ha & U). exists ax. split; [exact Ha|]. split; [exact U|]. rewrite (uniform_len _ _ _ _ U). lia.
Qed.
Lemma add_edged spl nm d sh axes r n e : reproduces_lines spl -> edged r n e -> getidx sh (Z.of_nat (length axes)) = Ok n -> exists ax, edge_axis spl nm (Some e) d sh axes = Ok (axes ++ [ax]) /\ axis_uniform (fst r) (snd r) (Z.to_nat n) ax.
Proof.
  intros Sp H G. destruct (edged_axis spl nm r n e Sp H) as (ax & Ha & U & L). exists ax. split; [|exact U]. unfold edge_axis, add_nodes. rewrite Ha. cbn [bind]. unfold add_axis. rewrite G. cbn [bind]. rewrite L, Z.eqb_refl. reflexivity.
Qed.
(** a field of histogram cells *)
Inductive celled : list (Q * Q) -> list Z -> list axis -> Prop :=
| ce_nil : celled [] [] []
| ce_cons r rs n ns ax axs : (0 < n)%Z -> axis_uniform (fst r) (snd r) (Z.to_nat n) ax -> celled rs ns axs -> celled (r :: rs) (n :: ns) (ax :: axs).
Definition cells_volume (rs : list (Q * Q)) (ns : list Z) : Q := fold_right Qmult 1 (map2 (fun r n => cell_width r n) rs ns).
Lemma celled_noded rs ns axs : celled rs ns axs -> Forall axis_noded axs.
Proof. induction 1 as [|r rs n ns ax axs N U H IH]; constructor; [exact (uniform_noded _ _ _ _ U)|exact IH]. Qed.
Lemma celled_nonempty rs ns axs : celled rs ns axs -> FieldSpec.nonempty ns.
Proof. induction 1; constructor; assumption. Qed.
Lemma celled_len rs ns axs : celled rs ns axs -> length axs = length ns /\ forall k ax n, nth_error axs k = Some ax -> nth_error ns k = Some n -> ax_len ax = n.
Proof.
  induction 1 as [|r rs n ns ax axs N U H [L IH]]; [split; [reflexivity|intros [|k] ? ? E; discriminate]|]. split; [cbn; now rewrite L|]. intros [|k] ax' n' E E'; cbn in E, E'; [injection E as <-; injection E' as <-; rewrite (uniform_len _ _ _ _ U); lia|exact (IH k ax' n' E E')].
Qed.
Lemma uniform_cell a b n ax i : axis_uniform a b n ax -> (0 <= i < Z.of_nat n)%Z -> FieldSpec.cell_width ax i == (b - a) / inject_Z (Z.of_nat n).
Proof. intros (L & _ & _ & _ & _ & V & _) I. unfold FieldSpec.cell_width. rewrite !V by lia. rewrite inject_Z_S. ring. Qed.
Lemma celled_size rs ns axs : celled rs ns axs -> forall j, in_shape ns j = true -> cell_size axs (seq 0 (length ns)) j == cells_volume rs ns.
Proof.
  induction 1 as [|r rs n ns ax axs N U H IH]; intros j I; [reflexivity|]. destruct j as [|i j]; [discriminate|]. cbn [in_shape] in I. apply andb_prop in I. destruct I as [I1 I2].
  unfold cell_size, cells_volume in *. cbn [length seq map nth map2 fold_right]. rewrite <- seq_shift, map_map.
  apply Qmult_comp; [|exact (IH j I2)]. rewrite (uniform_cell _ _ _ _ i U) by lia. unfold cell_width. rewrite Z2Nat.id by lia. reflexivity.
Qed.
Lemma total_idx sh : forall f, total sh f == qsum (map f (all_idx sh)).
Proof.
  induction sh as [|n sh IH]; intro f; [cbn; ring|]. cbn [total all_idx]. rewrite qsum_flat_map. unfold zrange. rewrite map_map. apply qsum_map_ext. intros i _. rewrite IH, map_map. reflexivity.
Qed.
Lemma celled_integral f rs : consistent f -> celled rs (f_shape f) (f_axes f) -> forall v, is_integral f (seq 0 (length (f_shape f))) [] v -> v == total (f_shape f) (a_at (f_data f)) * cells_volume rs (f_shape f).
Proof.
  intros C H v (js & Hj & ->). change (fold_right Qplus 0) with qsum. rewrite total_idx, Qmult_comm, <- qsum_map_scale.
  assert (Hall : lists_fibre (f_shape f) (seq 0 (length (f_shape f))) [] (all_idx (f_shape f))).
  { split; [apply all_idx_NoDup|]. intro j. rewrite all_idx_In. assert (Eo : others (length (f_shape f)) (seq 0 (length (f_shape f))) = []).
    { destruct (others _ _) as [|i l] eqn:E; [reflexivity|]. assert (I : In i (others (length (f_shape f)) (seq 0 (length (f_shape f))))) by (rewrite E; now left). apply others_In in I. destruct I as [I1 I2]. destruct I2. apply in_seq. lia. }
    rewrite Eo. unfold entries_at. cbn [map]. tauto. }
  rewrite (qsum_perm _ (map (fun j => a_at (f_data f) j * cell_size (f_axes f) (seq 0 (length (f_shape f))) j) (all_idx (f_shape f)))) by (apply Permutation_map, (lists_fibre_perm _ _ _ _ _ Hj Hall)).
  apply qsum_map_ext. intros j I. apply all_idx_In in I. rewrite (celled_size rs _ _ H j I). ring.
Qed.
Lemma celled_integrates spl f rs : consistent f -> celled rs (f_shape f) (f_axes f) -> f_inner f = [] -> (length (f_shape f) <= 3)%nat -> integrates_to spl f (total (f_shape f) (a_at (f_data f)) * cells_volume rs (f_shape f)).
Proof.
  intros C H I L. unfold integrates_to. cbv zeta. set (n := length (f_shape f)). assert (R : requested n (map Z.of_nat (seq 0 n)) (seq 0 n)).
  { split; [apply seq_NoDup|]. split; [|intros a A; apply in_map_iff in A; destruct A as (k & <- & K); apply in_seq in K; lia]. intro k. split; [intro K; apply in_map_iff; now exists k|intro K; apply in_map_iff in K; destruct K as (k' & E & K); apply Nat2Z.inj in E; now subst]. }
  destruct (integrate_fast_total f _ _ C (celled_noded _ _ _ H) (celled_nonempty _ _ _ H) R) as (g & Eg & Rg & Vg). destruct (integrate_constant_total spl f _ _ C (celled_noded _ _ _ H) (celled_nonempty _ _ _ H) L I R) as (h & Eh & Rh & Vh).
  assert (Eo : others n (seq 0 n) = []). { destruct (others n (seq 0 n)) as [|i l] eqn:E; [reflexivity|]. assert (K : In i (others n (seq 0 n))) by (rewrite E; now left). apply others_In in K. destruct K as [K1 K2]. destruct K2. apply in_seq. lia. }
  assert (Sg : f_shape g = []) by (destruct Rg as (S & _); rewrite S; fold n; now rewrite Eo). assert (Sh : f_shape h = []) by (destruct Rh as (S & _); rewrite S; fold n; now rewrite Eo).
  exists g, h. split; [exact Eg|]. split; [exact Eh|]. split; [exact Sg|]. split; [exact Sh|]. split; apply (celled_integral f rs C H); [apply Vg; now rewrite Sg|apply Vh; now rewrite Sh].
Qed.
(** names *)
Lemma name_axes_ok sps : forall axes, length axes = length sps -> exists out, name_axes sps axes = Ok out /\ length out = length axes /\
  (forall i ax, nth_error out i = Some ax -> exists sp ax0, nth_error sps i = Some sp /\ nth_error axes i = Some ax0 /\ ax = mkAxis (sc_name sp) (sc_unit sp) (ax_node ax0) (ax_grid ax0) (ax_extent ax0) (ax_n ax0)).
Proof.
  induction sps as [|sp sps IH]; intros [|ax axes] L; try discriminate; [exists []; split; [reflexivity|]; split; [reflexivity|]; intros [|i] ? E; discriminate|]. injection L as L. destruct (IH axes L) as (out & E & Lo & P). cbn [name_axes]. rewrite E. cbn [bind]. eexists. split; [reflexivity|]. split; [cbn; now rewrite Lo|].
  intros [|i] ax' Ei; cbn in Ei; [injection Ei as <-; now exists sp, ax|]. exact (P i ax' Ei).
Qed.
Lemma celled_named rs ns sps : forall axs out, celled rs ns axs -> name_axes sps axs = Ok out -> length axs = length sps -> celled rs ns out /\ forall i, (i < length ns)%nat -> exists ax, nth_error out i = Some ax /\ forall sp r n, nth_error sps i = Some sp -> nth_error rs i = Some r -> nth_error ns i = Some n -> plots sp r n ax.
Proof.
  revert rs ns. induction sps as [|sp sps IH]; intros rs ns axs out C E L; [destruct axs; [|discriminate]; inversion C; subst; cbn in E; injection E as <-; split; [constructor|intros i Hi; cbn in Hi; lia]|].
  destruct axs as [|ax axs]; [discriminate|]. injection L as L. inversion C as [|r rs' n ns' ax' axs' N U C']; subst. cbn [name_axes] in E. destruct (name_axes sps axs) as [o|] eqn:Eo; [|discriminate]. cbn [bind] in E. injection E as <-. destruct (IH rs' ns' axs o C' Eo L) as [C1 P].
  split; [constructor; [exact N|exact U|exact C1]|]. intros [|i] Hi.
  - eexists. split; [reflexivity|]. cbn [nth_error]. intros sp' r0 n0 [= <-] [= <-] [= <-]. split; [reflexivity|]. split; [reflexivity|]. exact U.
  - cbn [length] in Hi. destruct (P i ltac:(lia)) as (ax0 & E0 & P0). exists ax0. split; [exact E0|]. exact P0.
Qed.
(** the field *)
Lemma edged_dims n sh : FieldSpec.nonempty (n :: sh) -> dims (n :: sh) = Z.of_nat (length (n :: sh)).
Proof. apply nonempty_dims. Qed.
Definition edges_field (spl : spline_fn) (m : nda Q) (es : list (list Q)) : res (field Q) := field_new spl m "" "" (nth_error es 0) (nth_error es 1) (nth_error es 2).
Definition field_cells (f : field Q) (m : nda Q) (rs : list (Q * Q)) : Prop := f_data f = m /\ celled rs (a_shape m) (f_axes f) /\ f_inner f = [] /\ length (f_ats f) = length (a_shape m) /\ length (f_tao f) = length (a_shape m).
Lemma field_1 spl (m : nda Q) r n e : reproduces_lines spl -> edged r n e -> a_shape m = [n] -> exists f, edges_field spl m [e] = Ok f /\ field_cells f m [r].
Proof.
  intros Sp H S. unfold edges_field, field_new. cbn [nth_error]. rewrite S. destruct (add_edged spl "x" 0 [n] [] r n e Sp H eq_refl) as (ax & -> & U). cbn [bind edge_axis app].
  rewrite edged_dims by (repeat constructor; apply H). cbn. eexists. split; [reflexivity|]. unfold field_cells. cbn. rewrite S. split; [reflexivity|]. split; [constructor; [apply H|exact U|constructor]|auto].
Qed.
Lemma field_2 spl (m : nda Q) r n e r' n' e' : reproduces_lines spl -> edged r n e -> edged r' n' e' -> a_shape m = [n; n'] -> exists f, edges_field spl m [e; e'] = Ok f /\ field_cells f m [r; r'].
Proof.
  intros Sp H H' S. unfold edges_field, field_new. cbn [nth_error]. rewrite S. destruct (add_edged spl "x" 0 [n; n'] [] r n e Sp H eq_refl) as (ax & -> & U). cbn [bind app].
  destruct (add_edged spl "y" 1 [n; n'] [ax] r' n' e' Sp H' eq_refl) as (ay & -> & U'). cbn [bind edge_axis app].
  rewrite edged_dims by (repeat constructor; [apply H|apply H']). cbn. eexists. split; [reflexivity|]. unfold field_cells. cbn. rewrite S. split; [reflexivity|]. split; [constructor; [apply H|exact U|]; constructor; [apply H'|exact U'|constructor]|auto].
Qed.
Lemma field_3 spl (m : nda Q) r n e r' n' e' r'' n'' e'' : reproduces_lines spl -> edged r n e -> edged r' n' e' -> edged r'' n'' e'' -> a_shape m = [n; n'; n''] -> exists f, edges_field spl m [e; e'; e''] = Ok f /\ field_cells f m [r; r'; r''].
Proof.
  intros Sp H H' H'' S. unfold edges_field, field_new. cbn [nth_error]. rewrite S. destruct (add_edged spl "x" 0 [n; n'; n''] [] r n e Sp H eq_refl) as (ax & -> & U). cbn [bind app].
  destruct (add_edged spl "y" 1 [n; n'; n''] [ax] r' n' e' Sp H' eq_refl) as (ay & -> & U'). cbn [bind app]. destruct (add_edged spl "z" 2 [n; n'; n''] [ax; ay] r'' n'' e'' Sp H'' eq_refl) as (az & -> & U''). cbn [bind app].
  eexists. split; [reflexivity|]. unfold field_cells. cbn. rewrite S. split; [reflexivity|]. split; [constructor; [apply H|exact U|]; constructor; [apply H'|exact U'|]; constructor; [apply H''|exact U''|constructor]|auto].
Qed.
Lemma good_edged spacing r n e : good_range spacing r n -> np_linspace (fst r) (snd r) (n + 1) = Ok e -> edged r n e.
Proof. intros (A & _ & N) E. split; [lia|]. now split. Qed.

Lemma density_nd ub spacing d data w ranges ns shp spl : reproduces_lines spl -> (d <= 3)%nat -> shp = Some (ShInt (Z.of_nat d)) -> (1 <= length data <= 3)%nat -> w <> [] -> (forall v, In v data -> length v = length w) -> length ranges = 3%nat -> length ns = length data ->
  plottable spacing d ranges data ns ->
  exists rs h es f, length rs = length data /\ (forall i, (i < length data)%nat -> resolves_range (both (nth i ranges None)) (nth i data []) (nth i rs (0, 0)))
    /\ create_hist ub spacing data w ranges (BSeq ns) shp = Ok (h, es) /\ a_shape h = ns /\ edges_field spl h es = Ok f /\ field_cells f h rs /\ total ns (a_at h) * cells_volume rs ns == qsum w.
Proof.
  intros Sp V Sh D W L LR LN P. unfold plottable in P. destruct data as [|dx [|dy [|dz [|? ?]]]]; cbn [length] in D; try lia.
  - destruct ns as [|n [|? ?]]; try discriminate. assert (Dx : dx <> []) by (intros ->; specialize (L [] (or_introl eq_refl)); destruct w; [congruence|discriminate]).
    assert (P0 := fun r => P 0%nat r ltac:(cbn; lia)). cbn [nth] in P0.
    destruct (density_1d_edges ub spacing d dx w ranges n shp V Sh Dx ltac:(symmetry; apply L; now left) LR P0) as (r & h & e & R & E & S & T & El).
    destruct (field_1 spl h r n e Sp (good_edged spacing r n e (proj1 (P0 r R)) El) S) as (f & Ef & F). exists [r], h, [e], f. split; [reflexivity|]. split; [intros [|i] I; [exact R|cbn in I; lia]|]. split; [exact E|]. split; [exact S|]. split; [exact Ef|]. split; [exact F|]. unfold cells_volume. cbn [map2 fold_right]. rewrite <- T. ring.
  - destruct ns as [|n [|n' [|? ?]]]; try discriminate. assert (Dx : dx <> []) by (intros ->; specialize (L [] (or_introl eq_refl)); destruct w; [congruence|discriminate]).
    assert (P0 := fun r => P 0%nat r ltac:(cbn; lia)). assert (P1 := fun r => P 1%nat r ltac:(cbn; lia)). cbn [nth] in P0, P1.
    assert (Lx : length dx = length w) by (apply L; now left). assert (Ly : length dy = length w) by (apply L; right; now left).
    destruct (density_2d_edges ub spacing d dx dy w ranges n n' shp V Sh Dx ltac:(congruence) ltac:(congruence) LR P0 P1) as (r & r' & h & e & e' & R & R' & E & S & T & El & El').
    destruct (field_2 spl h r n e r' n' e' Sp (good_edged spacing r n e (proj1 (P0 r R)) El) (good_edged spacing r' n' e' (proj1 (P1 r' R')) El') S) as (f & Ef & F).
    exists [r; r'], h, [e; e'], f. split; [reflexivity|]. split; [intros [|[|i]] I; [exact R|exact R'|cbn in I; lia]|]. split; [exact E|]. split; [exact S|]. split; [exact Ef|]. split; [exact F|]. unfold cells_volume. cbn [map2 fold_right]. rewrite <- T. ring.
  - destruct ns as [|n [|n' [|n'' [|? ?]]]]; try discriminate. assert (Dx : dx <> []) by (intros ->; specialize (L [] (or_introl eq_refl)); destruct w; [congruence|discriminate]).
    assert (P0 := fun r => P 0%nat r ltac:(cbn; lia)). assert (P1 := fun r => P 1%nat r ltac:(cbn; lia)). assert (P2 := fun r => P 2%nat r ltac:(cbn; lia)). cbn [nth] in P0, P1, P2.
    assert (Lx : length dx = length w) by (apply L; now left). assert (Ly : length dy = length w) by (apply L; right; now left). assert (Lz : length dz = length w) by (apply L; right; right; now left).
    destruct (density_3d_edges ub spacing d dx dy dz w ranges n n' n'' shp V Sh Dx ltac:(congruence) ltac:(congruence) ltac:(congruence) LR P0 P1 P2) as (r & r' & r'' & h & e & e' & e'' & R & R' & R'' & E & S & T & El & El' & El'').
    destruct (field_3 spl h r n e r' n' e' r'' n'' e'' Sp (good_edged spacing r n e (proj1 (P0 r R)) El) (good_edged spacing r' n' e' (proj1 (P1 r' R')) El') (good_edged spacing r'' n'' e'' (proj1 (P2 r'' R'')) El'') S) as (f & Ef & F).
    exists [r; r'; r''], h, [e; e'; e''], f. split; [reflexivity|]. split; [intros [|[|[|i]]] I; [exact R|exact R'|exact R''|cbn in I; lia]|]. split; [exact E|]. split; [exact S|]. split; [exact Ef|]. split; [exact F|]. unfold cells_volume. cbn [map2 fold_right]. rewrite <- T. ring.
Qed.
Lemma field_made ub spacing spl box pts sps data ws h ns d name title species wname :
  reproduces_lines spl -> (d <= 3)%nat -> h_shape h = Some (ShInt (Z.of_nat d)) -> h_simextent h = false -> h_simgrid h = false -> h_bins h = BSeq ns -> length (h_ranges h) = 3%nat ->
  map sc_values sps = map Ok data -> (1 <= length data <= 3)%nat -> length ns = length data -> ws <> [] -> (forall v, In v data -> length v = length ws) -> plottable spacing d (h_ranges h) data ns ->
  exists f rs, create_field ub spacing spl box pts sps (Ok ws) h name title species wname = Ok f /\ f_shape f = ns /\ consistent f /\ length rs = length data /\
    (forall i, (i < length data)%nat -> resolves_range (both (nth i (h_ranges h) None)) (nth i data []) (nth i rs (0, 0)) /\ exists ax sp, nth_error (f_axes f) i = Some ax /\ nth_error sps i = Some sp /\ plots sp (nth i rs (0, 0)) (nth i ns 0%Z) ax) /\
    integrates_to spl f (qsum ws) /\ l_name (f_top f) = match title with Some t => if String.eqb t "" then (match wname with Some n => n | None => name end ++ species)%string else t | None => (match wname with Some n => n | None => name end ++ species)%string end.
Proof.
  intros Sp V Sh NE NG B LR DA D LN W L P. assert (Ls : length sps = length data) by (rewrite <- (map_length sc_values sps), DA, map_length; reflexivity).
  destruct (density_nd ub spacing d data ws (h_ranges h) ns (h_shape h) spl Sp V Sh D W L LR LN P) as (rs & hh & es & f & Lr & R & E & S & Ef & (Fd & Fc & Fi & Fa & Ft) & T).
  assert (Em : mapM sc_values sps = Ok data). { clear - DA. revert data DA. induction sps as [|sp sps IH]; intros [|x data] E; try discriminate; [reflexivity|]. cbn [map] in E. injection E as E1 E2. cbn [mapM]. rewrite E1, (IH data E2). reflexivity. }
  assert (Eh : create_histgram ub spacing box pts sps (Ok ws) h = Ok (hh, es)).
  { unfold create_histgram. rewrite (proj2 (Nat.leb_le (length sps) 3)) by lia. cbn [guard bind]. rewrite Em, NE, NG. cbn [orb bind]. rewrite B.
    destruct data as [|dx data]; [cbn in D; lia|]. destruct dx as [|x dx]; [specialize (L [] (or_introl eq_refl)); destruct ws; [congruence|discriminate]|]. cbn [bind]. exact E. }
  rewrite S in Fc. destruct (celled_len _ _ _ Fc) as [La Lx]. destruct (name_axes_ok sps (f_axes f) ltac:(congruence)) as (out & Eo & Lo & _).
  destruct (celled_named rs ns sps (f_axes f) out Fc Eo ltac:(congruence)) as [Co Po]. unfold create_field. rewrite Eh. cbn [bind fst snd]. unfold edges_field in Ef. rewrite Ef. cbn [bind]. rewrite Eo. cbn [bind]. eexists. exists rs. split; [reflexivity|].
  set (g := mkField _ _ _). assert (Sg : f_shape g = ns) by (unfold f_shape, g; cbn [f_data]; rewrite Fd; exact S). assert (Cg : consistent g).
  { split; [rewrite Sg; change (f_axes g) with out; congruence|]. rewrite Sg. change (f_axes g) with out. split; [exact (proj2 (celled_len _ _ _ Co))|]. split; [change (f_ats g) with (f_ats f); congruence|change (f_tao g) with (f_tao f); congruence]. }
  split; [exact Sg|]. split; [exact Cg|]. split; [exact Lr|]. split; [|split].
  - intros i Hi. split; [now apply R|]. destruct (Po i ltac:(lia)) as (ax & Ea & Pa). change (f_axes g) with out. destruct (nth_error sps i) as [sp|] eqn:Es; [|apply nth_error_None in Es; lia]. exists ax, sp. split; [exact Ea|]. split; [reflexivity|]. apply Pa; [reflexivity|apply nth_error_nth'; lia|apply nth_error_nth'; lia].
  - assert (I : integrates_to spl g (total (f_shape g) (a_at (f_data g)) * cells_volume rs (f_shape g))) by (apply celled_integrates; [exact Cg|rewrite Sg; exact Co|exact Fi|rewrite Sg; lia]).
    rewrite Sg in I. change (f_data g) with (f_data f) in I. rewrite Fd in I. destruct I as (g1 & g2 & A1 & A2 & A3 & A4 & A5 & A6). exists g1, g2. repeat (split; [assumption|]). rewrite A5, A6. split; exact T.
  - reflexivity.
Qed.
