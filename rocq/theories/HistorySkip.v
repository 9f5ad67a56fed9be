(** What collecting through a skipped history does to the array of the ids (C39). *)
From Coq Require Import Lia Qround Permutation.
From Verif Require Import PyBase PyBaseFacts NumpyModel NumpyFacts NdModel NdFacts FieldModel FieldReduceFacts HelperModel HelperFacts ParticleModel ParticleSpec ParticleFacts ParticleOps ParticleHist ParticleRun ParticleLaws StatLaws HistoryModel HistorySpec HistoryFacts HistoryLaws.

(** ** no array but one is touched *)
Section Frame.
Context (the : nat).
Definition left_alone (w w' : world) : Prop := length (w_ids w') = length (w_ids w) /\ forall j, j <> the -> nth j (w_ids w') [] = nth j (w_ids w) [].
Definition frames {A} (m : M A) : Prop := forall w, left_alone w (fst (m w)).
Lemma left_refl w : left_alone w w. Proof. now split. Qed.
Lemma left_trans a b c : left_alone a b -> left_alone b c -> left_alone a c.
Proof. intros [L1 P1] [L2 P2]. split; [lia|]. intros j J. now rewrite P2, P1. Qed.
Lemma left_same w w' : w_ids w' = w_ids w -> left_alone w w'.
Proof. intro E. unfold left_alone. now rewrite E. Qed.
Lemma frame_bind {A B} (m : M A) (f : A -> M B) : frames m -> (forall a, frames (f a)) -> frames (mbind m f).
Proof.
  intros H K w. unfold mbind. specialize (H w). destruct (m w) as [w' [a|e]]; cbn [fst] in *; [|exact H].
  eapply left_trans; [exact H|apply K].
Qed.
Lemma frame_ret {A} (a : A) : frames (mret a). Proof. intro w. apply left_refl. Qed.
Lemma frame_raise {A} e : frames (@mraise A e). Proof. intro w. apply left_refl. Qed.
Lemma frame_lift {A} (r : res A) : frames (mlift r). Proof. intro w. apply left_refl. Qed.
Lemma frame_mmap {A B} (f : A -> M B) l : (forall a, frames (f a)) -> frames (mmap f l).
Proof.
  intro H. induction l as [|x l IH]; [apply frame_ret|]. cbn [mmap]. apply frame_bind; [apply H|]. intro y. apply frame_bind; [exact IH|]. intro. apply frame_ret.
Qed.
Lemma frame_get_obj i : frames (get_obj i). Proof. intro w. apply left_refl. Qed.
Lemma frame_put_obj i s : frames (put_obj i s). Proof. intro w. apply left_same. reflexivity. Qed.
Lemma frame_new_obj s : frames (new_obj s). Proof. intro w. apply left_same. reflexivity. Qed.
Lemma frame_new_bools s : frames (new_bools s). Proof. intro w. apply left_same. reflexivity. Qed.
Lemma frame_new_ms s : frames (new_ms s). Proof. intro w. apply left_same. reflexivity. Qed.
Lemma frame_put_ms m s : frames (put_ms m s). Proof. intro w. apply left_same. reflexivity. Qed.
Lemma frame_get_ms m : frames (get_ms m). Proof. intro w. apply left_refl. Qed.
Lemma frame_get_view v : frames (get_view v). Proof. intro w. apply left_refl. Qed.
Lemma frame_sort_ids : frames (sort_ids the).
Proof. intro w. unfold left_alone. cbn [sort_ids fst w_ids]. split; [apply length_upd|]. intros j J. cbn [sort_ids fst w_ids]. destruct (Nat.lt_ge_cases the (length (w_ids w))) as [L|L]; [|now rewrite upd_over]. rewrite nth_upd by exact L. destruct (Nat.eqb_spec j the); [contradiction|reflexivity]. Qed.
Create HintDb fram.
#[local] Hint Resolve frame_ret frame_raise frame_lift frame_get_obj frame_put_obj frame_new_obj frame_new_bools frame_new_ms frame_put_ms frame_get_ms frame_get_view frame_sort_ids : fram.
Ltac kf := repeat (first [solve [eauto 2 with fram] | match goal with |- frames (mbind _ _) => apply frame_bind; [|intro] end | match goal with |- frames (mmap _ _) => apply frame_mmap; intro end | match goal with |- frames (match ?x with _ => _ end) => destruct x end]).
Lemma frame_readatomic i key : frames (readatomic i key).
Proof. unfold readatomic. kf. Qed.
#[local] Hint Resolve frame_readatomic : fram.
Lemma frame_len_keys i keys : frames (len_keys i keys).
Proof.
  induction keys as [|k keys IH]; [apply frame_ret|]. intro w. cbn [len_keys]. pose proof (frame_readatomic i k w) as H.
  destruct (readatomic i k w) as [w' [[q|l|n]|[]]]; cbn [fst] in *; try exact H; eapply left_trans; try exact H; apply IH.
Qed.
#[local] Hint Resolve frame_len_keys : fram.
Lemma frame_len_single i : frames (len_single i). Proof. unfold len_single. kf. Qed.
#[local] Hint Resolve frame_len_single : fram.
Lemma frame_compress_bool i v : frames (compress_bool i v). Proof. unfold compress_bool. kf. Qed.
#[local] Hint Resolve frame_compress_bool : fram.
Lemma frame_compress_int i : frames (compress_int i the). Proof. unfold compress_int. kf. Qed.
#[local] Hint Resolve frame_compress_int : fram.
Lemma frame_eval_single {A} i (e : expr A) : frames (eval_single i e). Proof. unfold eval_single. kf. Qed.
#[local] Hint Resolve frame_eval_single : fram.
Lemma frame_filter_single e i : frames (filter_single e i). Proof. unfold filter_single. kf. Qed.
Lemma frame_new_single d n : frames (new_single d n). Proof. unfold new_single. kf. Qed.
#[local] Hint Resolve frame_filter_single frame_new_single : fram.
Lemma frame_add_species d ig names : frames (add_species d ig names).
Proof.
  induction names as [|n names IH]; [apply frame_ret|]. intro w. cbn [add_species]. pose proof (frame_new_single d n w) as H.
  destruct (new_single d n w) as [w' [i|[]]]; cbn [fst] in *; try exact H.
  - eapply left_trans; [exact H|]. apply frame_bind; [exact IH|]. intro. apply frame_ret.
  - destruct ig; [|exact H]. eapply left_trans; [exact H|apply IH].
Qed.
#[local] Hint Resolve frame_add_species : fram.
Lemma frame_ms_new d names ig : frames (ms_new d names ig). Proof. unfold ms_new. kf. Qed.
Lemma frame_ms_len m : frames (ms_len m). Proof. unfold ms_len. kf. Qed.
Lemma frame_copy_single i : frames (copy_single i). Proof. unfold copy_single. kf. Qed.
#[local] Hint Resolve frame_ms_new frame_ms_len frame_copy_single : fram.
Lemma frame_ms_iadd m o : frames (ms_iadd m o). Proof. unfold ms_iadd. kf. Qed.
#[local] Hint Resolve frame_ms_iadd : fram.
Lemma frame_ms_add m o : frames (ms_add m o). Proof. unfold ms_add. kf. Qed.
Lemma frame_ms_filter m e : frames (ms_filter m e). Proof. unfold ms_filter. kf. Qed.
Lemma frame_compress_each v is : forall pos, frames (compress_each v pos is).
Proof. induction is as [|i is IH]; intro pos; cbn [compress_each]; kf. Qed.
#[local] Hint Resolve frame_compress_each : fram.
Lemma frame_ms_compress m v : frames (ms_compress m v). Proof. unfold ms_compress. kf. Qed.
Lemma frame_ms_compress_ids m : frames (ms_compress_ids m the). Proof. unfold ms_compress_ids. kf. Qed.
Lemma frame_invert_single i : frames (invert_single i). Proof. unfold invert_single. kf. Qed.
Lemma frame_uncompress_single i : frames (uncompress_single i). Proof. unfold uncompress_single. kf. Qed.
#[local] Hint Resolve frame_invert_single frame_uncompress_single : fram.
Lemma frame_ms_invert m : frames (ms_invert m). Proof. unfold ms_invert. kf. Qed.
Lemma frame_ms_uncompress m : frames (ms_uncompress m). Proof. unfold ms_uncompress. kf. Qed.
Lemma frame_call_single {A} (e : expr A) i : frames (call_single e i). Proof. unfold call_single. kf. Qed.
#[local] Hint Resolve frame_call_single : fram.
Lemma frame_ms_call {A} m (e : expr A) : frames (ms_call m e). Proof. unfold ms_call. kf. Qed.

Lemma frame_collect_dump names fs d : frames (collect_dump names the fs d).
Proof. unfold collect_dump. kf. all: try apply frame_ms_compress_ids; try apply frame_ms_len; try apply frame_ms_call. Qed.
Lemma frame_collect_dumps h fs sr : h_ids h = the -> forall pl, frames (collect_dumps h fs sr pl).
Proof. intro E. induction sr as [|d sr IH]; intro pl; cbn [collect_dumps]; [apply frame_ret|]. apply frame_bind; [rewrite E; apply frame_collect_dump|]. intro p. apply frame_bind; [apply frame_lift|]. intro. apply IH. Qed.
End Frame.
Lemma frame_collect h fs : frames (h_ids h) (ph_collect h fs).
Proof. unfold ph_collect. apply frame_bind; [intro w; apply left_refl|]. intro. now apply frame_collect_dumps. Qed.
Lemma keeps_collect_dump names k fs d : keeps (collect_dump names k fs d).
Proof. unfold collect_dump. kp. all: try apply keeps_ms_compress_ids; try apply keeps_ms_len; try apply keeps_ms_call. Qed.
Lemma keeps_collect h fs : keeps (ph_collect h fs).
Proof.
  unfold ph_collect. apply keeps_bind; [intro w; apply kept_refl|]. intro ids. generalize (repeat (@nil (list Q)) (length ids)). induction (h_sr h) as [|d sr IH]; intro pl; cbn [collect_dumps]; [apply keeps_ret|].
  apply keeps_bind; [apply keeps_collect_dump|]. intro p. apply keeps_bind; [apply keeps_lift|]. intro. apply IH.
Qed.

(** ** putting back *)
Lemma weave_every n : forall l k new, length new = length (every n k l) ->
  every n k (weave n k l new) = new /\ length (weave n k l new) = length l /\ forall i, (forall q, i <> k + q * S n)%nat -> nth_error (weave n k l new) i = nth_error l i.
Proof.
  induction l as [|x l IH]; intros k new L; [destruct new; [|discriminate]; now repeat split|]. destruct k as [|k]; cbn [every weave] in *.
  - destruct new as [|y new]; [discriminate|]. injection L as L. destruct (IH n new L) as (A & B & C). cbn [every length]. rewrite A, B. split; [reflexivity|]. split; [reflexivity|].
    intros [|i] H; [exfalso; now apply (H 0%nat)|]. cbn [nth_error]. apply C. intros q E. apply (H (S q)). cbn [Nat.mul]. lia.
  - destruct (IH k new L) as (A & B & C). cbn [every length]. rewrite A, B. split; [reflexivity|]. split; [reflexivity|]. intros [|i] H; [reflexivity|]. cbn [nth_error]. apply C. intros q E. apply (H q). lia.
Qed.
Lemma skip_array s fs w : (k_base s < length (w_ids w))%nat ->
  let old := nth (k_base s) (w_ids w) [] in let w' := fst (sk_collect s fs w) in let new := nth (k_base s) (w_ids w') [] in
  length new = length old /\ (forall i, (forall q, i <> q * S (k_skip s))%nat -> nth_error new i = nth_error old i) /\
  (exists v v', (forall i, nth_error v i = nth_error old (i * S (k_skip s))) /\ (forall i, nth_error v' i = nth_error new (i * S (k_skip s))) /\ Permutation v v') /\
  forall j, (j < length (w_ids w))%nat -> j <> k_base s -> nth j (w_ids w') [] = nth j (w_ids w) [].
Proof.
  intros L old w' new. unfold sk_collect, mbind, get_ids, new_ids in w'. fold old in w'. set (t := length (w_ids w)) in *. set (v := every (k_skip s) 0 old) in *.
  set (w0 := mkworld (w_bools w) (w_ids w ++ [v]) (w_objs w) (w_ms w)) in *. set (h := mkph (k_sr s) (k_speciess s) t (k_id2i s)) in *.
  assert (Fr := frame_collect h fs w0). assert (Ke := keeps_collect h fs w0). destruct (ph_collect h fs w0) as [w1 r] eqn:E. cbn [fst] in Fr, Ke, w'. destruct Fr as [F1 F2]. destruct Ke as [_ K]. cbn [h_ids] in F2.
  change (h_ids h) with t in F2. assert (Lw0 : length (w_ids w0) = S t) by (cbn [w0 w_ids]; rewrite app_length; cbn; lia).
  assert (Nt : nth t (w_ids w0) [] = v) by (cbn [w0 w_ids]; rewrite app_nth2, Nat.sub_diag by (unfold t; lia); reflexivity).
  assert (Nj : forall j, (j < t)%nat -> nth j (w_ids w1) [] = nth j (w_ids w) []) by (intros j Lj; rewrite F2 by lia; cbn [w0 w_ids]; now rewrite app_nth1).
  assert (P := K t ltac:(lia)). rewrite Nt in P. set (v' := nth t (w_ids w1) []) in *.
  assert (En : new = weave (k_skip s) 0 old v'). { unfold new, w', put_back. cbn [w_ids]. rewrite nth_upd by lia. rewrite Nat.eqb_refl. rewrite (Nj _ L). reflexivity. }
  destruct (weave_every (k_skip s) old 0 v') as (A & B & C); [symmetry; now apply Permutation_length|]. rewrite En. split; [exact B|]. split; [intros i H; apply C; exact H|]. split.
  - exists v, v'. split; [intro i; apply every_nth|]. split; [|exact P]. intro i. rewrite <- every_nth. now rewrite A.
  - intros j Lj Nb. unfold w', put_back. cbn [w_ids]. rewrite nth_upd by lia. destruct (Nat.eqb_spec j (k_base s)); [contradiction|]. now apply Nj.
Qed.
