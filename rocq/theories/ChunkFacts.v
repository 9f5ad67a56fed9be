(** The chunks of map_coordinates_parallel (C46). *)
From Coq Require Import Lia Lqa Permutation Qround.
From Verif Require Import PyBase PyBaseFacts NumpyModel NumpyFacts QSum AxisModel AxisSpec AxisFacts NdModel NdFacts FieldModel FieldSpec FieldInvFacts FieldReduceFacts FieldPadFacts FieldCutFacts HelperModel HelperSpec HelperFacts.

(** ** The slices of one axis *)
Fixpoint consecutive (a : Z) (cs : list (Z * Z)) (b : Z) : Prop :=
  match cs with
  | [] => a = b
  | (s, e) :: r => s = a /\ (s < e)%Z /\ consecutive e r b
  end.
Lemma range1 a b : (a <= b)%Z -> py_range a b 1 = map (fun k => (a + Z.of_nat k)%Z) (seq 0 (Z.to_nat (b - a))).
Proof.
  intro H. unfold py_range, range_len. change (1 <? 0)%Z with false. cbv iota. destruct (Z.ltb_spec a b) as [L|L].
  - replace (Z.to_nat ((b - a - 1) / 1 + 1)) with (Z.to_nat (b - a)) by (rewrite Z.div_1_r; f_equal; lia).
    apply map_ext. intro. lia.
  - replace (Z.to_nat (b - a)) with 0%nat by lia. reflexivity.
Qed.
Lemma map_seq_from {A} (f : nat -> A) s m : map f (seq s m) = map (fun k => f (s + k)%nat) (seq 0 m).
Proof.
  revert s f. induction m as [|m IH]; intros s f; [reflexivity|]. cbn [seq map]. f_equal; [f_equal; lia|].
  rewrite IH. rewrite <- (seq_shift m 0), map_map. apply map_ext. intro. f_equal. lia.
Qed.
Lemma range1_app a b c : (a <= b <= c)%Z -> py_range a b 1 ++ py_range b c 1 = py_range a c 1.
Proof.
  intro H. rewrite !range1 by lia. replace (Z.to_nat (c - a)) with (Z.to_nat (b - a) + Z.to_nat (c - b))%nat by lia.
  rewrite seq_app, map_app. f_equal. cbn [plus]. rewrite (map_seq_from _ (Z.to_nat (b - a))). apply map_ext. intro. lia.
Qed.
Lemma consecutive_le a cs b : consecutive a cs b -> (a <= b)%Z.
Proof. revert a. induction cs as [|[s e] cs IH]; cbn [consecutive]; intros a H; [lia|]. destruct H as (-> & L & H). apply IH in H. lia. Qed.
Lemma consecutive_concat cs : forall a b, consecutive a cs b -> concat (map (fun p => py_range (fst p) (snd p) 1) cs) = py_range a b 1.
Proof.
  induction cs as [|[s e] cs IH]; cbn [consecutive map concat fst snd]; intros a b H.
  - subst. rewrite range1 by lia. rewrite Z.sub_diag. reflexivity.
  - destruct H as (-> & L & H). rewrite (IH e b H). apply range1_app. apply consecutive_le in H. lia.
Qed.
Lemma consecutive_lt cs : forall a b p, consecutive a cs b -> In p cs -> (a <= fst p < snd p)%Z /\ (snd p <= b)%Z.
Proof.
  induction cs as [|[s e] cs IH]; cbn [consecutive]; intros a b p H Hp; [destruct Hp|]. destruct H as (-> & L & H). pose proof (consecutive_le _ _ _ H).
  destruct Hp as [<-|Hp]; [cbn; lia|]. specialize (IH _ _ _ H Hp). lia.
Qed.
Lemma chunks_consecutive c n m : (0 < c)%Z -> forall j, (Z.of_nat (j + m) * c < n)%Z ->
  consecutive (Z.of_nat j * c) (combine (map (fun k => (Z.of_nat k * c)%Z) (seq j (S m))) (map (fun k => (Z.of_nat k * c + c)%Z) (seq j m) ++ [n])) n.
Proof.
  intro Hc. induction m as [|m IH]; intros j Hj.
  - cbn [seq map combine app consecutive]. replace (j + 0)%nat with j in Hj by lia. lia.
  - change (seq j (S (S m))) with (j :: seq (S j) (S m)). change (seq j (S m)) with (j :: seq (S j) m). cbn [map app combine consecutive].
    split; [reflexivity|]. split; [lia|]. replace (Z.of_nat j * c + c)%Z with (Z.of_nat (S j) * c)%Z by lia. apply IH.
    replace (S j + m)%nat with (j + S m)%nat by lia. exact Hj.
Qed.
Lemma removelast_map_seq {A} (f : nat -> A) j m : removelast (map f (seq j (S m))) = map f (seq j m).
Proof.
  rewrite seq_S, map_app. cbn [map]. apply removelast_last.
Qed.
Lemma axis_chunks_ok c n : (0 < c)%Z -> (0 < n)%Z -> exists cs, axis_chunks c n = Ok cs /\ consecutive 0 cs n.
Proof.
  intros Hc Hn. unfold axis_chunks. set (st := py_range 0 n c).
  assert (E : exists m, st = map (fun k => (Z.of_nat k * c)%Z) (seq 0 (S m)) /\ (Z.of_nat m * c < n)%Z).
  { exists (Z.to_nat ((n - 1) / c)). assert (D : (0 <= (n - 1) / c)%Z) by (apply Z.div_pos; lia). pose proof (Z.mul_div_le (n - 1) c Hc). split; [|nia].
    unfold st, py_range, range_len. destruct (Z.ltb_spec c 0); [lia|]. destruct (Z.ltb_spec 0 n); [|lia].
    replace (n - 0 - 1)%Z with (n - 1)%Z by lia. rewrite Z2Nat.inj_add, Nat.add_1_r by lia. reflexivity. }
  destruct E as (m & E & Hm). clearbody st. subst st. exists (combine (map (fun k => (Z.of_nat k * c)%Z) (seq 0 (S m))) (map (fun k => (Z.of_nat k * c + c)%Z) (seq 0 m) ++ [n])).
  split.
  - rewrite removelast_map_seq, map_map. cbn [seq map]. reflexivity.
  - apply (chunks_consecutive c n m Hc 0%nat). exact Hm.
Qed.

(** ** Products of lists *)
Lemma cartesian_in {A} (ls : list (list A)) : forall x, In x (cartesian ls) <-> Forall2 (fun y l => In y l) x ls.
Proof.
  induction ls as [|l ls IH]; intro x; cbn [cartesian].
  - split; [intros [<-|[]]; constructor|]. intro H. inversion H. now left.
  - rewrite in_flat_map. split.
    + intros (y & Hy & H). apply in_map_iff in H as (z & <- & Hz). constructor; [exact Hy|]. now apply IH.
    + intro H. inversion H as [|y ? z ? Hy Hz]; subst. exists y. split; [exact Hy|]. apply in_map. now apply IH.
Qed.
Lemma flat_map_app2 {A B} (f g : A -> list B) l : Permutation (flat_map (fun x => f x ++ g x) l) (flat_map f l ++ flat_map g l).
Proof.
  induction l as [|x l IH]; [constructor|]. cbn [flat_map]. rewrite IH, !app_assoc. apply Permutation_app_tail.
  rewrite <- !app_assoc. apply Permutation_app_head. apply Permutation_app_comm.
Qed.
Lemma flat_map_nil {A B} (l : list A) : flat_map (fun _ => @nil B) l = [].
Proof. induction l; [reflexivity|]. exact IHl. Qed.
Lemma flat_map_swap {A B C} (f : A -> B -> list C) la lb :
  Permutation (flat_map (fun a => flat_map (f a) lb) la) (flat_map (fun b => flat_map (fun a => f a b) la) lb).
Proof.
  induction la as [|a la IH]; cbn [flat_map]; [now rewrite flat_map_nil|]. rewrite IH. symmetry. apply (flat_map_app2 (fun b => f a b)).
Qed.
Lemma flat_map_perm_ext {A B} (f g : A -> list B) l : (forall x, Permutation (f x) (g x)) -> Permutation (flat_map f l) (flat_map g l).
Proof. intro H. induction l as [|x l IH]; [constructor|]. cbn [flat_map]. now apply Permutation_app. Qed.
Lemma flat_map_flat_map {A B C} (f : B -> list C) (g : A -> list B) l : flat_map f (flat_map g l) = flat_map (fun x => flat_map f (g x)) l.
Proof. induction l as [|x l IH]; [reflexivity|]. cbn [flat_map]. now rewrite flat_map_app, IH. Qed.
Lemma flat_map_of_map {A B C} (f : B -> list C) (g : A -> B) l : flat_map f (map g l) = flat_map (fun x => f (g x)) l.
Proof. induction l as [|x l IH]; [reflexivity|]. cbn [map flat_map]. now rewrite IH. Qed.
Lemma map_flat_map' {A B C} (f : B -> C) (g : A -> list B) l : map f (flat_map g l) = flat_map (fun x => map f (g x)) l.
Proof. induction l as [|x l IH]; [reflexivity|]. cbn [flat_map]. now rewrite map_app, IH. Qed.
Lemma cartesian_blocks {A} (css : list (list (list A))) :
  Permutation (flat_map cartesian (cartesian css)) (cartesian (map (@concat A) css)).
Proof.
  induction css as [|l css IH]; cbn [map]; [apply Permutation_refl|]. cbn [cartesian]. rewrite flat_map_flat_map.
  transitivity (flat_map (fun x => flat_map (fun i => map (cons i) (cartesian (map (@concat A) css))) x) l).
  - apply flat_map_perm_ext. intro x. rewrite flat_map_of_map. cbn [cartesian].
    rewrite (flat_map_swap (fun y i => map (cons i) (cartesian y))). apply flat_map_perm_ext. intro i.
    rewrite <- (map_flat_map' (cons i)). now apply Permutation_map.
  - rewrite <- (flat_map_flat_map (fun i => map (cons i) (cartesian (map (@concat A) css))) (fun x => x)).
    replace (flat_map (fun x => x) l) with (concat l) by (symmetry; rewrite <- (map_id l) at 2; apply flat_map_concat_map). reflexivity.
Qed.

Lemma all_idx_cartesian sh : all_idx sh = cartesian (map zrange sh).
Proof. induction sh as [|n sh IH]; [reflexivity|]. cbn [all_idx map cartesian]. now rewrite IH. Qed.
Lemma zrange_range n : (0 <= n)%Z -> zrange n = py_range 0 n 1.
Proof. intro H. rewrite range1 by lia. unfold zrange. rewrite Z.sub_0_r. apply map_ext. intro. lia. Qed.
Lemma plan_ok c sh : (0 < c)%Z -> Forall (fun n => (0 < n)%Z) sh ->
  exists plan, chunk_plan c sh = Ok plan /\ Permutation (flat_map chunk_idx plan) (all_idx sh) /\
    forall ch, In ch plan -> chunk_idx ch <> [].
Proof.
  intros Hc Hsh. unfold chunk_plan.
  destruct (mapM_ex (axis_chunks c) (fun n cs => (0 < n)%Z /\ consecutive 0 cs n) sh) as (css & E & F).
  { intros n Hn. rewrite Forall_forall in Hsh. destruct (axis_chunks_ok c n Hc (Hsh n Hn)) as (cs & E & H). exists cs. split; [exact E|]. split; [now apply Hsh|exact H]. }
  rewrite E. cbn [bind]. eexists. split; [reflexivity|]. split.
  - unfold chunk_idx. set (rg := fun p : Z * Z => py_range (fst p) (snd p) 1).
    assert (M : forall css, map (map rg) (cartesian css) = cartesian (map (map rg) css)).
    { clear. intro css. induction css as [|l css IH]; [reflexivity|]. cbn [cartesian map]. rewrite map_flat_map', flat_map_of_map.
      apply flat_map_ext. intro x. rewrite <- IH, !map_map. reflexivity. }
    rewrite <- (flat_map_of_map cartesian (map rg)), M, cartesian_blocks, map_map, all_idx_cartesian.
    replace (map (fun x => concat (map rg x)) css) with (map zrange sh); [reflexivity|].
    clear E. induction F as [|n cs sh css [Hn H] F IH]; [reflexivity|]. cbn [map]. rewrite IH by (inversion Hsh; assumption). f_equal.
    unfold rg. rewrite (consecutive_concat cs 0 n H). apply zrange_range. lia.
  - intros ch Hch. apply cartesian_in in Hch. unfold chunk_idx.
    assert (G : Forall (fun p => (fst p < snd p)%Z) ch).
    { clear E. revert ch Hch. induction F as [|n cs sh css [Hn H] F IH]; intros ch Hch; inversion Hch as [|p ? ch' ? Hp Hr]; subst; constructor.
      - apply (consecutive_lt cs 0 n p H) in Hp. lia.
      - apply IH; [inversion Hsh; assumption|exact Hr]. }
    clear - G. induction G as [|p ch Hp G IH]; [discriminate|]. cbn [map cartesian].
    rewrite range1 by lia. destruct (Z.to_nat (snd p - fst p)) as [|m] eqn:Em; [lia|]. cbn [seq map flat_map]. destruct (cartesian _); [congruence|discriminate].
Qed.

(** ** The cropped input *)
Lemma list_min_spec l : l <> [] -> exists m, list_min l = Ok m /\ In m l /\ forall x, In x l -> m <= x.
Proof.
  destruct l as [|x l]; [congruence|]. intros _. cbn [list_min]. eexists. split; [reflexivity|].
  assert (G : forall l y, let m := fold_left (fun m y => if y <?q m then y else m) l y in (m = y \/ In m l) /\ m <= y /\ forall z, In z l -> m <= z).
  { clear. induction l as [|a l IH]; intros y; cbn [fold_left]; cbv zeta; [split; [now left|]; split; [apply Qle_refl|intros z []]|].
    specialize (IH (if a <?q y then a else y)). cbv zeta in IH. destruct IH as (I1 & I2 & I3). destruct (Qltb_spec a y) as [L|L].
    - split; [destruct I1 as [->|I1]; [right; now left|right; now right]|]. split; [lra|]. intros z [->|Hz]; [exact I2|now apply I3].
    - split; [destruct I1 as [->|I1]; [now left|right; now right]|]. split; [exact I2|]. intros z [->|Hz]; [lra|now apply I3]. }
  destruct (G l x) as (I1 & I2 & I3). split; [destruct I1 as [->|I1]; [now left|now right]|]. intros z [->|Hz]; [exact I2|now apply I3].
Qed.
Lemma crop_region_ok n cs : cs <> [] -> (forall x, In x cs -> 0 <= x /\ x <= inject_Z (n - 1)) ->
  exists r, crop_region n cs = Ok r /\ (0 <= fst r <= snd r)%Z /\ (snd r <= n)%Z /\ forall x, In x cs -> keeps_neighbours n x r.
Proof.
  intros Hne Hin. destruct (list_min_spec cs Hne) as (mn & E1 & I1 & M1). destruct (list_max_spec cs Hne) as (mx & E2 & I2 & M2).
  unfold crop_region. rewrite E1, E2. cbn [bind]. eexists. split; [reflexivity|]. cbn [fst snd].
  assert (K : forall x, In x cs -> (Qfloor mn <= Qfloor x)%Z /\ (Qceiling x <= Qceiling mx)%Z).
  { intros x Hx. split; [apply Qfloor_resp_le; now apply M1|apply Qceiling_resp_le; now apply M2]. }
  destruct (Hin mx I2) as [P1 P2]. destruct (Hin mn I1) as [P3 P4].
  assert (A1 : (0 <= Qceiling mx)%Z) by (change 0%Z with (Qceiling 0); now apply Qceiling_resp_le).
  assert (A2 : (Qfloor mn <= n - 1)%Z) by (rewrite <- (Qfloor_Z (n - 1)); now apply Qfloor_resp_le).
  assert (A3 : (Qfloor mn <= Qceiling mx)%Z).
  { pose proof (Qle_floor_ceiling mx) as H. rewrite <- Zle_Qle in H. specialize (K mx I2). lia. }
  assert (A4 : (0 <= n - 1)%Z) by (rewrite Zle_Qle; change (inject_Z 0) with 0; lra).
  split; [lia|]. split; [lia|]. intros x Hx. specialize (K x Hx). split; cbn [fst snd]; lia.
Qed.
Lemma sel_between n e f : (0 <= e <= f)%Z -> (f <= n)%Z -> sel_of n (inr (mkslice (Some e) (Some f) None)) = Ok (SRange e 1 (f - e)).
Proof.
  intros He Hf. unfold sel_of, slice_indices. cbn [s_step s_start s_stop]. change (1 =? 0)%Z with false. cbv iota. cbn [bind].
  change (1 <? 0)%Z with false. cbv iota. unfold range_len. change (1 <? 0)%Z with false. cbv iota.
  unfold adjust_bound. change (1 <? 0)%Z with false. cbv iota. destruct (Z.ltb_spec e 0); [lia|]. destruct (Z.ltb_spec f 0); [lia|].
  replace (if (n <=? e)%Z then n else e) with e by (destruct (Z.leb_spec n e); lia).
  replace (if (n <=? f)%Z then n else f) with f by (destruct (Z.leb_spec n f); lia).
  destruct (Z.ltb_spec e f); [rewrite Z.div_1_r; do 2 f_equal; lia|]. do 2 f_equal. lia.
Qed.
Lemma crop_array_ok a rs : Forall2 (fun n r => (0 <= fst r <= snd r)%Z /\ (snd r <= n)%Z) (a_shape a) rs ->
  exists b, crop_array a rs = Ok b /\ cut_of_array a rs b.
Proof.
  intro F. unfold crop_array, np_getitem.
  assert (E : sels_of (a_shape a) (map (fun r : Z * Z => inr (mkslice (Some (fst r)) (Some (snd r)) None)) rs) = Ok (map (fun r => SRange (fst r) 1 (snd r - fst r)) rs)).
  { induction F as [|n r sh rs [H1 H2] F IH]; [reflexivity|]. cbn [map sels_of]. rewrite sel_between by assumption. cbn [bind]. rewrite IH. reflexivity. }
  rewrite E. cbn [bind]. eexists. split; [reflexivity|].
  assert (S : sel_shape (map (fun r => SRange (fst r) 1 (snd r - fst r)) rs) = map (fun r => (snd r - fst r)%Z) rs).
  { clear. induction rs as [|r rs IH]; [reflexivity|]. cbn [map sel_shape]. now rewrite IH. }
  split; [exact S|]. cbn [a_shape a_at]. rewrite S. intros idx Hidx. f_equal. apply in_shape_length in Hidx. rewrite map_length in Hidx.
  clear - Hidx. revert idx Hidx. induction rs as [|r rs IH]; intros [|i idx] L; try discriminate; [reflexivity|]. cbn [map sel_index map2]. f_equal; [lia|]. apply IH. now injection L.
Qed.

Lemma chunk_writes_ok interp a coord idxs : local_interp interp -> idxs <> [] ->
  (forall idx, In idx idxs -> inside (a_shape a) (coord idx)) ->
  exists rs b, crop_regions (a_shape a) coord idxs = Ok rs /\ crop_array a rs = Ok b /\
    forall idx, In idx idxs -> interp b (map2 (fun c r => c - inject_Z (fst r)) (coord idx) rs) == interp a (coord idx).
Proof.
  intros Hi Hne Hin. unfold crop_regions.
  assert (Hc : forall k idx, (k < length (a_shape a))%nat -> In idx idxs -> 0 <= nth k (coord idx) 0 /\ nth k (coord idx) 0 <= inject_Z (nth k (a_shape a) 0%Z - 1)).
  { intros k idx Hk Hx. specialize (Hin idx Hx). unfold inside in Hin. pose proof (Forall2_len _ _ _ Hin) as L.
    destruct (Forall2_nth_error _ _ _ k _ Hin (nth_error_nth' _ 0%Z Hk)) as (y & Ey & H). apply nth_error_nth with (d := 0) in Ey. rewrite Ey. exact H. }
  destruct (mapM_ex (fun k => crop_region (nth k (a_shape a) 0%Z) (map (fun idx => nth k (coord idx) 0) idxs))
     (fun k r => (0 <= fst r <= snd r)%Z /\ (snd r <= nth k (a_shape a) 0)%Z /\ forall idx, In idx idxs -> keeps_neighbours (nth k (a_shape a) 0%Z) (nth k (coord idx) 0) r)
     (seq 0 (length (a_shape a)))) as (rs & E & F).
  { intros k Hk. apply in_seq in Hk. destruct (crop_region_ok (nth k (a_shape a) 0%Z) (map (fun idx => nth k (coord idx) 0) idxs)) as (r & E & R1 & R2 & R3).
    - intro E. apply map_eq_nil in E. contradiction.
    - intros x Hx. apply in_map_iff in Hx as (idx & <- & Hx). apply Hc; [lia|exact Hx].
    - exists r. split; [exact E|]. split; [exact R1|]. split; [exact R2|]. intros idx Hx. apply R3. apply in_map_iff. eauto. }
  assert (Lr : length rs = length (a_shape a)) by (apply Forall2_len in F; rewrite seq_length in F; lia).
  assert (Nr : forall k, (k < length rs)%nat -> let r := nth k rs (0, 0)%Z in (0 <= fst r <= snd r)%Z /\ (snd r <= nth k (a_shape a) 0)%Z /\ forall idx, In idx idxs -> keeps_neighbours (nth k (a_shape a) 0%Z) (nth k (coord idx) 0) r).
  { intros k Hk r. destruct (Forall2_nth_error_r _ _ _ k _ F (nth_error_nth' rs (0, 0)%Z Hk)) as (k' & Ek & H).
    assert (k' = k) as ->; [|exact H]. apply nth_error_nth with (d := 0%nat) in Ek. rewrite seq_nth in Ek by lia. lia. }
  destruct (crop_array_ok a rs) as (b & Eb & Hb).
  { apply Forall2_of_nth; [congruence|]. intros k n r Hn Hr. assert (Hk : (k < length rs)%nat) by (apply nth_error_Some; congruence).
    specialize (Nr k Hk). cbv zeta in Nr. rewrite (nth_error_nth _ _ (0, 0)%Z Hr), (nth_error_nth _ _ 0%Z Hn) in Nr. destruct Nr as (N1 & N2 & _). split; assumption. }
  exists rs, b. split; [exact E|]. split; [exact Eb|]. intros idx Hx. apply Hi; [now apply Hin|exact Lr| |exact Hb].
  intros k Hk. destruct (Nr k Hk) as (_ & _ & H). now apply H.
Qed.

(** ** All writes *)
Lemma write_other ws : forall mem idx, ~ In idx (map fst ws) -> write_all ws mem idx = mem idx.
Proof.
  induction ws as [|w ws IH]; intros mem idx H; [reflexivity|]. cbn [write_all fold_left]. unfold write_all in IH. rewrite IH by (intro; apply H; now right).
  destruct (idx_eqb idx (fst w)) eqn:E; [|reflexivity]. apply idx_eqb_eq in E. exfalso. apply H. left. now symmetry.
Qed.
Lemma write_one ws : forall mem idx v, NoDup (map fst ws) -> In (idx, v) ws -> write_all ws mem idx = Some v.
Proof.
  induction ws as [|w ws IH]; intros mem idx v Nd H; [destruct H|]. inversion Nd as [|? ? Hn Nd']; subst. cbn [write_all fold_left]. destruct H as [->|H].
  - fold (write_all ws (fun i => if idx_eqb i (fst (idx, v)) then Some (snd (idx, v)) else mem i)). rewrite write_other by exact Hn. cbn [fst snd]. now rewrite (proj2 (idx_eqb_eq idx idx) eq_refl).
  - now apply (IH _ idx v).
Qed.
Lemma interleaving_perm {A} (ls : list (list A)) r : interleaving ls r -> Permutation (concat ls) r.
Proof.
  induction 1 as [ls H|ls1 x l ls2 r _ IH].
  - induction H as [|l ls -> H IH]; [constructor|]. exact IH.
  - rewrite concat_app in *. cbn [concat] in *. cbn [app]. rewrite <- Permutation_middle. now constructor.
Qed.
Lemma all_writes_ok interp a coord osh chunklen : local_interp interp -> Forall (fun n => (0 < n)%Z) osh ->
  (forall idx, in_shape osh idx = true -> inside (a_shape a) (coord idx)) ->
  exists ws, all_writes interp a coord osh chunklen = Ok ws /\ Permutation (map fst (concat ws)) (all_idx osh) /\
    forall idx v, In (idx, v) (concat ws) -> v == interp a (coord idx).
Proof.
  intros Hi Hosh Hin. unfold all_writes. destruct (Z.ltb_spec 0 (chunklen_of chunklen (length osh))) as [L|L].
  - destruct (plan_ok _ osh L Hosh) as (plan & E & P & Ne). rewrite E. cbn [bind].
    assert (Hp : forall ch idx, In ch plan -> In idx (chunk_idx ch) -> inside (a_shape a) (coord idx)).
    { intros ch idx Hch Hx. apply Hin. apply all_idx_In. eapply Permutation_in; [exact P|]. apply in_flat_map. eauto. }
    destruct (mapM_ex (chunk_writes interp a coord) (fun ch w => map fst w = chunk_idx ch /\ forall idx v, In (idx, v) w -> v == interp a (coord idx)) plan) as (ws & Ew & F).
    { intros ch Hch. destruct (chunk_writes_ok interp a coord (chunk_idx ch) Hi (Ne ch Hch) (fun idx => Hp ch idx Hch)) as (rs & b & E1 & E2 & V).
      unfold chunk_writes. rewrite E1. cbn [bind]. rewrite E2. cbn [bind]. eexists. split; [reflexivity|]. split.
      - rewrite map_map. cbn [fst]. apply map_id.
      - intros idx v Hx. apply in_map_iff in Hx as (i & [= <- <-] & Hx). now apply V. }
    exists ws. split; [exact Ew|]. split.
    + rewrite <- P. clear - F. induction F as [|ch w plan ws [E _] F IH]; [constructor|]. cbn [concat flat_map]. rewrite map_app, E. now apply Permutation_app_head.
    + clear - F. induction F as [|ch w plan ws [_ V] F IH]; [intros idx v []|]. cbn [concat]. intros idx v H. apply in_app_or in H as [H|H]; [now apply V|now apply IH].
  - eexists. split; [reflexivity|]. cbn [concat]. rewrite app_nil_r. split.
    + rewrite map_map. cbn [fst]. rewrite map_id. reflexivity.
    + intros idx v H. apply in_map_iff in H as (i & [= <- <-] & _). reflexivity.
Qed.
Lemma parallel_equals_serial interp a coord osh chunklen : local_interp interp -> Forall (fun n => (0 < n)%Z) osh ->
  (forall idx, in_shape osh idx = true -> inside (a_shape a) (coord idx)) ->
  exists ws, all_writes interp a coord osh chunklen = Ok ws /\ Permutation (map fst (concat ws)) (all_idx osh) /\
    forall r mem idx, interleaving ws r -> in_shape osh idx = true ->
      exists v, write_all r mem idx = Some v /\ v == interp a (coord idx).
Proof.
  intros Hi Hosh Hin. destruct (all_writes_ok interp a coord osh chunklen Hi Hosh Hin) as (ws & E & P & V). exists ws. split; [exact E|]. split; [exact P|].
  intros r mem idx Hr Hx. apply interleaving_perm in Hr as Pr.
  assert (Pm : Permutation (map fst r) (all_idx osh)) by (rewrite <- P; apply Permutation_map; now symmetry).
  assert (I : In idx (map fst r)) by (eapply Permutation_in; [symmetry; exact Pm|]; now apply all_idx_In).
  apply in_map_iff in I as ([idx' v] & Ei & I). cbn [fst] in Ei. subst idx'. exists v. split.
  - apply write_one; [|exact I]. eapply Permutation_NoDup; [symmetry; exact Pm|apply all_idx_NoDup].
  - apply V. eapply Permutation_in; [symmetry; exact Pr|exact I].
Qed.

(** ** Nearest neighbour interpolation (order 0) is local *)
Definition nearest (a : nda Q) (c : list Q) : Q := a_at a (map (fun x => Qfloor (x + (1 # 2))) c).
Lemma floor_bounds x k : inject_Z k <= x -> x < inject_Z (k + 1) -> Qfloor x = k.
Proof.
  intros A B. pose proof (Qfloor_le x) as C. pose proof (Qlt_floor x) as D.
  assert (inject_Z k < inject_Z (Qfloor x + 1)) as E by lra. rewrite <- Zlt_Qlt in E.
  assert (inject_Z (Qfloor x) < inject_Z (k + 1)) as F by lra. rewrite <- Zlt_Qlt in F. lia.
Qed.
Lemma floor_shift x k : Qfloor (x - inject_Z k + (1 # 2)) = (Qfloor (x + (1 # 2)) - k)%Z.
Proof.
  pose proof (Qfloor_le (x + (1 # 2))) as A. pose proof (Qlt_floor (x + (1 # 2))) as B. rewrite inject_Z_plus in B.
  apply floor_bounds; unfold Zminus; rewrite ?inject_Z_plus, inject_Z_opp; change (inject_Z 1) with 1 in *; lra.
Qed.
Lemma nearest_entry n x r : 0 <= x /\ x <= inject_Z (n - 1) -> keeps_neighbours n x r ->
  let i := Qfloor (x + (1 # 2)) in (0 <= i - fst r < snd r - fst r)%Z.
Proof.
  intros [H0 H1] [K1 K2] i.
  assert (F : (Qfloor x <= i <= Qceiling x + 1)%Z).
  { pose proof (Qfloor_le x) as A. pose proof (Qlt_floor (x + (1 # 2))) as B. fold i in B. pose proof (Qle_ceiling x) as C.
    pose proof (Qfloor_le (x + (1 # 2))) as D. fold i in D.
    split.
    - assert (inject_Z (Qfloor x) < inject_Z (i + 1)) as E by lra. rewrite <- Zlt_Qlt in E. lia.
    - rewrite Zle_Qle, inject_Z_plus. change (inject_Z 1) with 1. lra. }
  assert (G : (0 <= Qfloor x)%Z) by (change 0%Z with (Qfloor (inject_Z 0)); now apply Qfloor_resp_le).
  assert (I : (i <= n - 1)%Z).
  { pose proof (Qfloor_le (x + (1 # 2))) as D. fold i in D. assert (inject_Z i < inject_Z (n - 1 + 1)) as E by (rewrite (inject_Z_plus (n - 1) 1); change (inject_Z 1) with 1; lra).
    rewrite <- Zlt_Qlt in E. lia. }
  lia.
Qed.
Lemma nearest_local : local_interp nearest.
Proof.
  intros a b c rs Hin Lr K [Sb Vb]. unfold nearest.
  assert (Lc : length c = length (a_shape a)) by (symmetry; now apply (Forall2_len _ _ _ Hin)).
  set (idx := map (fun x => Qfloor (x + (1 # 2))) (map2 (fun x r => x - inject_Z (fst r)) c rs)).
  assert (E : idx = map2 (fun x r => (Qfloor (x + (1 # 2)) - fst r)%Z) c rs).
  { unfold idx. clear. revert rs. induction c as [|x c IH]; intros [|r rs]; try reflexivity. cbn [map2 map]. rewrite floor_shift. f_equal. apply IH. }
  assert (Hn : forall k, (k < length rs)%nat -> let i := Qfloor (nth k c 0 + (1 # 2)) in (0 <= i - fst (nth k rs (0, 0)%Z) < snd (nth k rs (0, 0)%Z) - fst (nth k rs (0, 0)%Z))%Z).
  { intros k Hk. apply (nearest_entry (nth k (a_shape a) 0%Z)); [|now apply K].
    assert (Hk' : (k < length (a_shape a))%nat) by lia. clear - Hin Hk'. revert k Hk'. unfold inside in Hin. induction Hin as [|n x sh c Hx Hin IH]; intros k Hk; [cbn in Hk; lia|].
    destruct k as [|k]; [exact Hx|]. cbn [nth]. apply IH. cbn in Hk. lia. }
  rewrite Vb.
  - rewrite E. assert (X : map2 (fun i r => (i + fst r)%Z) (map2 (fun x r => (Qfloor (x + (1 # 2)) - fst r)%Z) c rs) rs = map (fun x => Qfloor (x + (1 # 2))) c); [|now rewrite X].
    assert (L : length c = length rs) by lia. clear - L. revert rs L. induction c as [|x c IH]; intros [|r rs] L; try discriminate; [reflexivity|]. cbn [map2 map]. f_equal; [lia|]. apply IH. now injection L.
  - rewrite Sb, E. apply in_shape_spec. assert (L : length c = length rs) by lia. clear - L Hn. revert c L Hn. induction rs as [|r rs IH]; intros [|x c] L Hn; try discriminate; [constructor|].
    cbn [map2 map]. constructor; [apply (Hn 0%nat); cbn; lia|]. apply IH; [now injection L|]. intros k Hk. apply (Hn (S k)). cbn. lia.
Qed.
Lemma empty_output interp a coord chunklen : (0 < chunklen)%Z -> all_writes interp a coord [0%Z] (Some chunklen) = Err IndexError.
Proof.
  intro H. unfold all_writes. cbn [chunklen_of]. destruct (Z.ltb_spec 0 chunklen); [|lia]. unfold chunk_plan. cbn [mapM]. unfold axis_chunks.
  assert (py_range 0 0 chunklen = []) as ->; [|reflexivity]. unfold py_range, range_len. destruct (Z.ltb_spec 0 chunklen); [|lia]. cbn. now destruct (chunklen <? 0)%Z.
Qed.
