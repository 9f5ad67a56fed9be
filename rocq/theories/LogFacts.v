(** Lemmas about the bookkeeping of selections. *)
From Coq Require Import Lia List Arith.
From Verif Require Import PyBase PyBaseFacts NdModel NdFacts LogModel LogSpec.
Import ListNotations.

Lemma sum_cons x l : list_sum (x :: l) = (x + list_sum l)%nat. Proof. reflexivity. Qed.
Lemma sum_nil : list_sum [] = 0%nat. Proof. reflexivity. Qed.
Local Arguments list_sum : simpl never.

Lemma npart_sum m : npart m = list_sum (map slen (ml_all m)).
Proof.
  unfold npart. assert (G : forall l a, fold_left (fun r s => r + slen s)%nat l a = (a + list_sum (map slen l))%nat) by (induction l as [|s l IH]; intro a; cbn [fold_left map]; rewrite ?sum_cons, ?sum_nil; [lia|rewrite IH; lia]). now rewrite G.
Qed.
Lemma count_cons x b : count (x :: b) = ((if x then 1 else 0) + count b)%nat. Proof. destruct x; reflexivity. Qed.
Lemma count_le b : (count b <= length b)%nat. Proof. induction b as [|x b IH]; [auto|]. rewrite count_cons. destruct x; cbn; lia. Qed.
Lemma count_negb b : (count b + count (map negb b) = length b)%nat.
Proof. induction b as [|x b IH]; [reflexivity|]. cbn [map]. rewrite !count_cons. destruct x; cbn; lia. Qed.
Lemma narrow_length a : forall c, length (narrow a c) = length a.
Proof. induction a as [|x a IH]; intro c; [reflexivity|]. destruct x; cbn; [destruct c; cbn; [reflexivity|now rewrite IH]|now rewrite IH]. Qed.
Lemma narrow_count a : forall c, length c = count a -> count (narrow a c) = count c.
Proof.
  induction a as [|x a IH]; intros c H; [destruct c; [reflexivity|discriminate]|]. rewrite count_cons in H. destruct x; cbn [narrow].
  - destruct c as [|y c]; [discriminate|]. cbn in H. rewrite !count_cons, IH by lia. reflexivity.
  - rewrite count_cons, IH by lia. reflexivity.
Qed.
Lemma scompress_ok c n s s' : scompress c n s = Ok s' -> sl_name s' = sl_name s /\ sl_size s' = sl_size s /\ sl_log s' = sl_log s ++ [n] /\ slen s = length c /\ slen s' = count c /\
  ((forall b, sl_sel s = SelMask b -> length b = sl_size s) -> forall b, sl_sel s' = SelMask b -> length b = sl_size s').
Proof.
  unfold scompress. destruct (Nat.eqb_spec (slen s) (length c)) as [E|]; [|discriminate]. intros [= <-]. cbn. repeat split; try assumption.
  - unfold slen in *. cbn. destruct (sl_sel s); [reflexivity| |].
    + destruct c; [reflexivity|discriminate].
    + apply narrow_count. now symmetry.
  - intros H b. unfold slen in E. destruct (sl_sel s) as [| |b0]; [intros [= <-]; now symmetry|discriminate|]. intros [= <-]. rewrite narrow_length. now apply H.
Qed.
Lemma compress_all_ok c n : forall l r, compress_all c n l = Ok r ->
  map sl_name r = map sl_name l /\ map sl_size r = map sl_size l /\ map sl_log r = map (fun s => sl_log s ++ [n]) l /\
  (length c >= list_sum (map slen l))%nat /\ list_sum (map slen r) = count (firstn (list_sum (map slen l)) c) /\
  ((forall s b, In s l -> sl_sel s = SelMask b -> length b = sl_size s) -> forall s b, In s r -> sl_sel s = SelMask b -> length b = sl_size s).
Proof.
  intro l. revert c. induction l as [|s l IH]; intros c r E; cbn in E; [injection E as <-; repeat split; [cbn [map]; rewrite sum_nil; lia|intros _ s b []]|].
  apply bind_ok in E as (s' & E1 & E). apply bind_ok in E as (r' & E2 & E). injection E as <-. apply scompress_ok in E1 as (A1 & A2 & A3 & A4 & A5 & A6). destruct (IH _ _ E2) as (B1 & B2 & B3 & B4 & B5 & B6).
  rewrite firstn_length in A4. rewrite skipn_length in B4. cbn [map]. rewrite !sum_cons. repeat split; try congruence; [lia| |].
  - rewrite A5, B5. rewrite <- (firstn_skipn (slen s) (firstn (slen s + list_sum (map slen l)) c)). rewrite firstn_firstn, Nat.min_l by lia. rewrite skipn_firstn_comm. replace (slen s + list_sum (map slen l) - slen s)%nat with (list_sum (map slen l)) by lia.
    unfold count. rewrite filter_app, app_length. reflexivity.
  - intros H t b [<-|Ht]; [apply A6; intros b0; apply H; now left|]. apply B6; [|exact Ht]. intros t0 b0 I. apply H. now right.
Qed.
Lemma compress_all_total c n : forall l, (length c >= list_sum (map slen l))%nat -> exists r, compress_all c n l = Ok r.
Proof.
  intro l. revert c. induction l as [|s l IH]; intros c H; cbn [map compress_all] in *; [eauto|]. rewrite sum_cons in H. unfold scompress. rewrite firstn_length, Nat.min_l by lia. rewrite Nat.eqb_refl. cbn [bind].
  destruct (IH (skipn (slen s) c)) as [r Er]; [rewrite skipn_length; lia|]. rewrite Er. cbn. eauto.
Qed.

(** what every step does to the list of species *)
Lemma step_law m st m' : do_step m st = Ok m' ->
  map sl_name (ml_all m') = map sl_name (ml_all m) /\ map sl_size (ml_all m') = map sl_size (ml_all m) /\ (sound m -> sound m') /\ ml_label m' = ml_label m /\
  (st <> Uncompress -> ml_log m' = ml_log m ++ entry st /\ map sl_log (ml_all m') = map (fun s => sl_log s ++ entry_of_species st) (ml_all m)) /\
  (st = Uncompress -> fresh m').
Proof.
  destruct st as [c n|c n| |]; cbn [do_step]; intro E.
  - apply bind_ok in E as (l & El & E). injection E as <-. destruct (compress_all_ok _ _ _ _ El) as (A1 & A2 & A3 & _ & _ & A6). cbn. repeat split; try assumption; try discriminate. 
  - apply bind_ok in E as (l & El & E). injection E as <-. cbn.
    assert (G : forall a l, mapM (sfilter c n) a = Ok l -> map sl_name l = map sl_name a /\ map sl_size l = map sl_size a /\ map sl_log l = map (fun s => sl_log s ++ entry_of_species (Filter c n)) a /\
      ((forall s b, In s a -> sl_sel s = SelMask b -> length b = sl_size s) -> forall s b, In s l -> sl_sel s = SelMask b -> length b = sl_size s)).
    { clear. induction a as [|s a IH]; intros l E; cbn in E; [injection E as <-; repeat split; intros _ s b []|]. apply bind_ok in E as (s' & E1 & E). apply bind_ok in E as (r & E2 & E). injection E as <-. destruct (IH _ E2) as (B1 & B2 & B3 & B4).
      unfold sfilter in E1. apply bind_ok in E1 as (b & _ & E1). apply scompress_ok in E1 as (A1 & A2 & A3 & _ & _ & A6). cbn [map]. repeat split; try congruence.
      - rewrite B3, A3. cbn. destruct n; reflexivity.
      - intros H t b0 [<-|Ht]; [apply A6; intros b1; apply H; now left|]. apply B4; [|exact Ht]. intros t0 b1 I. apply H. now right. }
    destruct (G _ _ El) as (A1 & A2 & A3 & A4). repeat split; try assumption; try discriminate.
  - injection E as <-. cbn. rewrite !map_map. repeat split; try discriminate. intros H s b I. apply in_map_iff in I as (t & <- & I). cbn. destruct (sl_sel t) as [| |b0] eqn:Et; try discriminate. intros [= <-]. rewrite map_length. now apply (H t).
  - injection E as <-. cbn. rewrite !map_map. repeat split; try contradiction; try (intros; contradiction).
    + intros H s b I. apply in_map_iff in I as (t & <- & I). discriminate.
    + apply in_map_iff in H0 as (t & <- & I). reflexivity.
    + apply in_map_iff in H0 as (t & <- & I). reflexivity.
Qed.
Lemma run_cons m s l : run m (s :: l) = bind (do_step m s) (fun m1 => run m1 l).
Proof.
  unfold run. cbn [fold_left]. change (let! m0 := Ok m in do_step m0 s) with (do_step m s). destruct (do_step m s) as [m1|e]; [reflexivity|]. cbn. induction l as [|x l IH]; [reflexivity|]. exact IH.
Qed.
Lemma run_app m l r : run m (l ++ r) = bind (run m l) (fun m1 => run m1 r).
Proof. revert m. induction l as [|s l IH]; intro m; [reflexivity|]. cbn [app]. rewrite !run_cons. destruct (do_step m s); [apply IH|reflexivity]. Qed.
Theorem run_keeps l : forall m m', run m l = Ok m' -> speciess m' = speciess m /\ nspecies m' = nspecies m /\ in_dumps m' = in_dumps m /\ ml_label m' = ml_label m /\ (sound m -> sound m').
Proof.
  induction l as [|s l IH]; intros m m' E; [injection E as <-; auto|]. rewrite run_cons in E. apply bind_ok in E as (m1 & E1 & E). destruct (step_law _ _ _ E1) as (A1 & A2 & A3 & A4 & _). destruct (IH _ _ E) as (B1 & B2 & B3 & B4 & B5).
  unfold speciess, nspecies, in_dumps in *. repeat split; try congruence; [|tauto]. rewrite B2. rewrite <- (map_length sl_name), A1. apply map_length.
Qed.
Lemma run_logs l : forall m m', ~ In Uncompress l -> run m l = Ok m' -> ml_log m' = ml_log m ++ concat (map entry l) /\ map sl_log (ml_all m') = map (fun s => sl_log s ++ concat (map entry_of_species l)) (ml_all m).
Proof.
  induction l as [|s l IH]; intros m m' N E.
  - injection E as <-. cbn. rewrite app_nil_r. split; [reflexivity|]. apply map_ext. intro a. now rewrite app_nil_r.
  - rewrite run_cons in E. apply bind_ok in E as (m1 & E1 & E). destruct (step_law _ _ _ E1) as (_ & _ & _ & _ & A & _). destruct A as [A1 A2]; [intros ->; apply N; now left|].
    destruct (IH _ _ (fun I => N (or_intror I)) E) as [B1 B2]. cbn [map concat]. split; [now rewrite B1, A1, app_assoc|]. rewrite B2. rewrite <- map_map with (g := fun x => x ++ concat (map entry_of_species l)) (f := sl_log), A2, map_map. apply map_ext. intro a. now rewrite app_assoc.
Qed.
Theorem logs_law m l m' : run m l = Ok m' ->
  (~ In Uncompress l -> ml_log m' = ml_log m ++ concat (map entry l) /\ map sl_log (ml_all m') = map (fun s => sl_log s ++ concat (map entry_of_species l)) (ml_all m)) /\
  (forall post, last_part l post -> ml_log m' = concat (map entry post) /\ forall s, In s (ml_all m') -> sl_log s = concat (map entry_of_species post)).
Proof.
  intro E. split; [intro N; exact (run_logs l m m' N E)|]. intros post [[pre ->] N]. rewrite run_app in E. apply bind_ok in E as (m1 & _ & E). rewrite run_cons in E. apply bind_ok in E as (m2 & E2 & E).
  destruct (step_law _ _ _ E2) as (_ & _ & _ & _ & _ & F). destruct (F eq_refl) as [F1 F2]. destruct (run_logs post m2 m' N E) as [B1 B2]. split; [now rewrite B1, F1|].
  intros s I. apply (in_map sl_log) in I. rewrite B2 in I. apply in_map_iff in I as (t & <- & I). now rewrite (proj2 (F2 t I)).
Qed.

Lemma slen_le s : (forall b, sl_sel s = SelMask b -> length b = sl_size s) -> (slen s <= sl_size s)%nat /\ (slen s + slen (sinvert s) = sl_size s)%nat.
Proof.
  intro H. unfold slen, sinvert. cbn. destruct (sl_sel s) as [| |b]; [lia|lia|]. specialize (H b eq_refl). rewrite <- H. split; [apply count_le|apply count_negb].
Qed.
Theorem counts_law m : sound m -> (npart m <= in_dumps m)%nat /\ (npart m + npart (minvert m) = in_dumps m)%nat /\ npart (muncompress m) = in_dumps m.
Proof.
  rewrite !npart_sum. unfold in_dumps, sound. cbn. rewrite !map_map. intro H. induction (ml_all m) as [|s l IH]; [cbn [map]; rewrite sum_nil; auto|].
  destruct IH as (I1 & I2 & I3); [intros t b I; apply H; now right|]. destruct (slen_le s) as [S1 S2]; [intros b; apply H; now left|]. cbn [map]. rewrite !sum_cons. change (slen (suncompress s)) with (sl_size s). lia.
Qed.
Theorem taken_law s i : (forall b, sl_sel s = SelMask b -> length b = sl_size s) -> (i < sl_size s)%nat -> (taken (sinvert s) i <-> ~ taken s i).
Proof.
  intros H Hi. unfold taken, sinvert. cbn. destruct (sl_sel s) as [| |b]; try tauto. specialize (H b eq_refl). rewrite (nth_indep _ false (negb false)) by (rewrite map_length; lia). rewrite map_nth. destruct (nth i b false); cbn; intuition discriminate.
Qed.
Lemma initial_fold l : forall r, fold_left (fun r s => let! r := r in let! i := sinitial s in Ok (r + i)%nat) l (Err r) = Err r.
Proof. induction l as [|s l IH]; intro r; [reflexivity|apply IH]. Qed.
Theorem initial_law m : sound m -> initial_npart m = (if existsb (fun s => match sl_sel s with SelNothing => true | _ => false end) (ml_all m) then Err TypeError else Ok (in_dumps m)).
Proof.
  intro H. unfold initial_npart, in_dumps, sound in *. assert (G : forall l a, (forall s b, In s l -> sl_sel s = SelMask b -> length b = sl_size s) ->
    fold_left (fun r s => let! r := r in let! i := sinitial s in Ok (r + i)%nat) l (Ok a) = (if existsb (fun s => match sl_sel s with SelNothing => true | _ => false end) l then Err TypeError else Ok (a + list_sum (map sl_size l))%nat)).
  { clear. induction l as [|s l IH]; intros a H; cbn [fold_left existsb map]; [rewrite sum_nil; now rewrite Nat.add_0_r|].
    assert (H' : forall t b, In t l -> sl_sel t = SelMask b -> length b = sl_size t) by (intros t b I; apply H; now right).
    cbn [bind]. unfold sinitial, slen. destruct (sl_sel s) as [| |b] eqn:Es.
    - cbn [bind orb]. rewrite IH by exact H'. destruct (existsb _ l); [reflexivity|]. rewrite sum_cons. now rewrite Nat.add_assoc.
    - cbn. apply initial_fold.
    - cbn [bind orb]. rewrite IH by exact H'. rewrite (H s b (or_introl eq_refl) Es). destruct (existsb _ l); [reflexivity|]. rewrite sum_cons. now rewrite Nat.add_assoc. }
  rewrite G by exact H. reflexivity.
Qed.
Theorem compress_count m c n : (length c = npart m -> exists m', mcompress c n m = Ok m') /\ forall m', mcompress c n m = Ok m' -> (npart m <= length c)%nat /\ npart m' = count (firstn (npart m) c).
Proof.
  rewrite npart_sum. unfold mcompress. split.
  - intro H. destruct (compress_all_total c n (ml_all m)) as [r Er]; [lia|]. rewrite Er. cbn. eauto.
  - intros m' E. apply bind_ok in E as (l & El & E). injection E as <-. destruct (compress_all_ok _ _ _ _ El) as (_ & _ & _ & A & B & _). rewrite npart_sum. cbn. split; [exact A|exact B].
Qed.
Theorem compress_short m c n : (length c < npart m)%nat -> mcompress c n m = Err ValueError.
Proof.
  rewrite npart_sum. unfold mcompress. intro H. assert (G : forall l c, (length c < list_sum (map slen l))%nat -> compress_all c n l = Err ValueError).
  { clear. induction l as [|s l IH]; intros c H; cbn [map compress_all] in *; [rewrite sum_nil in H; lia|]. rewrite sum_cons in H. unfold scompress. rewrite firstn_length. destruct (Nat.eqb_spec (slen s) (Nat.min (slen s) (length c))) as [E|_]; [|reflexivity]. cbn [bind]. rewrite IH; [reflexivity|]. rewrite skipn_length. lia. }
  now rewrite G.
Qed.

Lemma dict_get_set {A} k k' (x : A) d : dict_get k (dict_set k' x d) = if String.eqb k k' then Some x else dict_get k d.
Proof.
  induction d as [|[k1 y] d IH]; cbn; [destruct (String.eqb k k'); reflexivity|]. destruct (String.eqb_spec k' k1) as [->|N]; cbn.
  - destruct (String.eqb k k1); reflexivity.
  - rewrite IH. destruct (String.eqb_spec k k1) as [->|_]; [|reflexivity]. destruct (String.eqb_spec k1 k') as [->|_]; [contradiction|reflexivity].
Qed.
Theorem dict_law m : NoDup ("all"%string :: speciess m) -> dict_get "all" (getcompresslog m) = Some (ml_log m) /\ forall s, In s (ml_all m) -> dict_get (sl_name s) (getcompresslog m) = Some (sl_log s).
Proof.
  unfold getcompresslog, speciess. intro H. apply NoDup_cons_iff in H as [Na Nd].
  assert (K : forall l d k, ~ In k (map sl_name l) -> dict_get k (fold_left (fun d s => dict_set (sl_name s) (sl_log s) d) l d) = dict_get k d).
  { clear. induction l as [|s l IH]; intros d k N; [reflexivity|]. cbn in *. rewrite IH by tauto. rewrite dict_get_set. destruct (String.eqb_spec k (sl_name s)) as [->|_]; [tauto|reflexivity]. }
  split; [now rewrite K|]. clear Na. revert Nd. generalize [("all"%string, ml_log m)]. induction (ml_all m) as [|s l IH]; intros d Nd t I; [destruct I|]. cbn in *. apply NoDup_cons_iff in Nd as [N Nd]. destruct I as [<-|I].
  - rewrite K by exact N. rewrite dict_get_set, String.eqb_refl. reflexivity.
  - now apply IH.
Qed.
Theorem dict_lost a b c : sl_name a = sl_name b -> ml_all c = [a; b] -> sl_name a <> "all"%string -> dict_get (sl_name a) (getcompresslog c) = Some (sl_log b).
Proof. intros E Ec N. unfold getcompresslog. rewrite Ec. cbn [fold_left]. rewrite dict_get_set, E, String.eqb_refl. reflexivity. Qed.
Theorem add_law a b : npart (madd a b) = (npart a + npart b)%nat /\ nspecies (madd a b) = (nspecies a + nspecies b)%nat /\ speciess (madd a b) = speciess a ++ speciess b /\ map sl_log (ml_all (madd a b)) = map sl_log (ml_all a) ++ map sl_log (ml_all b).
Proof. rewrite !npart_sum. unfold nspecies, speciess, madd. cbn. rewrite !map_app, app_length, list_sum_app. auto. Qed.
Theorem shows_law m x : sound m -> shows m = Ok x -> match x with ShownAll n => n = npart m /\ n = in_dumps m | ShownPart n i => n = npart m /\ i = in_dumps m /\ (n < i)%nat end.
Proof.
  intros H E. unfold shows in E. rewrite (initial_law m H) in E. destruct (existsb _ _); [discriminate|]. cbn [bind] in E. injection E as <-. destruct (counts_law m H) as (L & _). destruct (Nat.eqb_spec (npart m) (in_dumps m)); [auto|]. repeat split. lia.
Qed.
