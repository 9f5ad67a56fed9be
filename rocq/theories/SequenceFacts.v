(** Facts about a series of dumps as a sequence (C125). *)
From Coq Require Import Lia.
From Verif Require Import PyBase PyBaseFacts NdModel NdFacts FieldModel ReaderModel ReaderFacts ReaderLaws SequenceModel.
Local Open Scope Z_scope.

Section Facts.
Context {D : Type} (same : D -> D -> bool).
Lemma index_found s v : forall turns i k, index_from same s v turns i = Ok k -> i <= k /\ (exists d, sim_int s k = Ok d /\ same d v = true) /\ forall j, i <= j < k -> exists d, sim_int s j = Ok d /\ same d v = false.
Proof.
  induction turns as [|t IH]; intros i k E; [discriminate|]. cbn [index_from] in E. destruct (sim_int s i) as [d|e] eqn:Ed; [|destruct e; discriminate]. destruct (same d v) eqn:Es.
  - injection E as <-. split; [lia|]. split; [now exists d|]. intros j H. lia.
  - destruct (IH _ _ E) as (A & B & C). split; [lia|]. split; [exact B|]. intros j H. destruct (Z.eq_dec j i) as [-> |N]; [now exists d|]. apply C. lia.
Qed.
Lemma sim_index_found s v k : sim_index same s v = Ok k -> 0 <= k < sim_len s /\ (exists d, sim_int s k = Ok d /\ same d v = true) /\ forall j, 0 <= j < k -> exists d, sim_int s j = Ok d /\ same d v = false.
Proof.
  intro E. destruct (index_found s v _ _ _ E) as (A & (d & B & B') & C). split; [|split; [now exists d|exact C]]. split; [exact A|]. unfold sim_int in B. destruct (Z.ltb_spec k 0); [lia|]. destruct (Z.leb_spec (sim_len s) k); [discriminate|lia].
Qed.
Context {F : Type} (op : F -> res D).
Lemma series_mid (pre : list F) f after : sim_int (series op (pre ++ f :: after)) (Z.of_nat (length pre)) = op f.
Proof. destruct (series_at op (pre ++ f :: after) (length pre) f) as [H _]; [|exact H]. rewrite nth_error_app2, Nat.sub_diag by lia. reflexivity. Qed.
Lemma next_pos (pre : list F) x : Z.of_nat (length pre) + 1 = Z.of_nat (length (pre ++ [x])).
Proof. rewrite app_length. cbn [length]. lia. Qed.
Definition differs v (x : F) : Prop := exists d, op x = Ok d /\ same d v = false.
Lemma found_from v f d after : op f = Ok d -> same d v = true -> forall before pre turns, (length before < turns)%nat -> Forall (differs v) before ->
  index_from same (series op (pre ++ before ++ f :: after)) v turns (Z.of_nat (length pre)) = Ok (Z.of_nat (length pre + length before)) /\
  contains_from same (series op (pre ++ before ++ f :: after)) v turns (Z.of_nat (length pre)) = Ok true.
Proof.
  intros Ef Es. induction before as [|x before IH]; intros pre [|t] L B; cbn [length] in L; try lia; cbn [app index_from contains_from].
  - rewrite series_mid, Ef, Es. split; [|reflexivity]. do 2 f_equal. cbn. lia.
  - inversion B as [|? ? (dx & Ex & Dx) B']; subst. rewrite series_mid, Ex, Dx, (next_pos pre x). specialize (IH (pre ++ [x]) t ltac:(lia) B'). rewrite <- app_assoc in IH. cbn [app] in IH. destruct IH as [I1 I2]. rewrite I1, I2. split; [|reflexivity]. do 2 f_equal. rewrite app_length. cbn. lia.
Qed.
Lemma series_found v before f d after : Forall (differs v) before -> op f = Ok d -> same d v = true ->
  sim_index same (series op (before ++ f :: after)) v = Ok (Z.of_nat (length before)) /\ sim_contains same (series op (before ++ f :: after)) v = Ok true.
Proof.
  intros B Ef Es. apply (found_from v f d after Ef Es before []); [|exact B]. cbn [series sim_len]. rewrite Nat2Z.id, app_length. cbn. lia.
Qed.
Lemma end_from v rest : (rest = [] \/ exists f after, rest = f :: after /\ op f = Err IndexError) -> forall before pre turns, (length before < turns)%nat -> Forall (differs v) before ->
  index_from same (series op (pre ++ before ++ rest)) v turns (Z.of_nat (length pre)) = Err ValueError /\ contains_from same (series op (pre ++ before ++ rest)) v turns (Z.of_nat (length pre)) = Ok false.
Proof.
  intros R. induction before as [|x before IH]; intros pre [|t] L B; cbn [length] in L; try lia; cbn [app index_from contains_from].
  - destruct R as [-> |(f & after & -> & Ef)]; [|rewrite series_mid, Ef; now split]. rewrite app_nil_r, series_out by (left; lia). now split.
  - inversion B as [|? ? (dx & Ex & Dx) B']; subst. rewrite series_mid, Ex, Dx, (next_pos pre x). specialize (IH (pre ++ [x]) t ltac:(lia) B'). rewrite <- app_assoc in IH. exact IH.
Qed.
Lemma series_absent v files : Forall (differs v) files -> sim_index same (series op files) v = Err ValueError /\ sim_contains same (series op files) v = Ok false.
Proof. intro B. assert (H := end_from v [] (or_introl eq_refl) files [] (S (Z.to_nat (sim_len (series op files))))). cbn [app length] in H. rewrite app_nil_r in H. apply H; [|exact B]. cbn [series sim_len]. rewrite Nat2Z.id. lia. Qed.
Lemma series_hidden v before f after : Forall (differs v) before -> op f = Err IndexError ->
  sim_index same (series op (before ++ f :: after)) v = Err ValueError /\ sim_contains same (series op (before ++ f :: after)) v = Ok false.
Proof.
  intros B Ef. apply (end_from v (f :: after)) with (pre := []); [right; now exists f, after| |exact B]. cbn [series sim_len]. rewrite Nat2Z.id, app_length. cbn. lia.
Qed.
Lemma series_count v files ds : mapM op files = Ok ds -> sim_count same (series op files) v = Ok (Z.of_nat (length (filter (fun d => same d v) ds))).
Proof.
  intro E. unfold sim_count. rewrite series_list, E; [reflexivity|]. intros f I. apply mapM_ok in E. revert I. induction E as [|x y l l' Exy _ IH]; intro I; [destruct I|]. destruct I as [-> |I]; [congruence|now apply IH].
Qed.
Lemma positions : forall files pre, map (sim_int (series op (pre ++ files))) (map (fun k => Z.of_nat k) (seq (length pre) (length files))) = map op files.
Proof.
  induction files as [|f files IH]; intro pre; [reflexivity|]. cbn [length seq map]. rewrite series_mid. f_equal. specialize (IH (pre ++ [f])). rewrite <- app_assoc in IH. cbn [app] in IH. rewrite <- IH. rewrite app_length. cbn. now rewrite Nat.add_1_r.
Qed.
Lemma mapM_ext2 {A A' B} (f : A -> res B) (g : A' -> res B) : forall l l', map f l = map g l' -> mapM f l = mapM g l'.
Proof. induction l as [|x l IH]; intros [|y l'] E; try discriminate; [reflexivity|]. cbn in *. injection E as E1 E2. now rewrite E1, (IH _ E2). Qed.
Lemma series_reversed files : sim_reversed (series op files) = mapM op (rev files).
Proof.
  unfold sim_reversed. apply mapM_ext2. cbn [series sim_len]. rewrite !map_rev. f_equal. unfold zrange. rewrite Nat2Z.id. exact (positions files []).
Qed.
Lemma split_first v files ds : Forall2 (fun x d => op x = Ok d) files ds ->
  (existsb (fun d => same d v) ds = true /\ exists before f d after, files = before ++ f :: after /\ Forall (differs v) before /\ op f = Ok d /\ same d v = true) \/ (existsb (fun d => same d v) ds = false /\ Forall (differs v) files).
Proof.
  induction 1 as [|x d l l' E _ IH]; [right; now split|]. cbn [existsb]. destruct (same d v) eqn:Es.
  - left. split; [reflexivity|]. exists [], x, d, l. now repeat split.
  - cbn [orb]. destruct IH as [(X & before & f & d' & after & -> & B & Ef & Ed)|(X & B)]; [left|right; split; [exact X|constructor; [now exists d|exact B]]].
    split; [exact X|]. exists (x :: before), f, d', after. split; [reflexivity|]. split; [constructor; [now exists d|exact B]|now split].
Qed.
Lemma series_contains v files ds : mapM op files = Ok ds -> sim_contains same (series op files) v = Ok (existsb (fun d => same d v) ds) /\
  ((exists i, sim_index same (series op files) v = Ok i) <-> existsb (fun d => same d v) ds = true) /\ (existsb (fun d => same d v) ds = false -> sim_index same (series op files) v = Err ValueError).
Proof.
  intro E. apply mapM_ok in E. destruct (split_first v files ds E) as [(X & before & f & d & after & -> & B & Ef & Ed)|(X & B)]; rewrite X.
  - destruct (series_found v before f d after B Ef Ed) as [I C]. split; [exact C|]. split; [split; [reflexivity|intros _; now exists (Z.of_nat (length before))]|discriminate].
  - destruct (series_absent v files B) as [I C]. split; [exact C|]. split; [split; [intros [i Ei]; congruence|discriminate]|intros _; exact I].
Qed.
End Facts.
