(** Facts about the helper for Fourier transforms (C124). *)
From Coq Require Import Lia.
From Verif Require Import PyBase PyBaseFacts NdModel NdFacts HfftModel HfftSpec.

Lemma kset_binds {V} (d : kwdict V) k v : NoDup (map fst d) -> NoDup (map fst (kset d k v)) /\ (forall j, In j (map fst (kset d k v)) <-> In j (map fst d) \/ j = k) /\
  forall j w, binds (kset d k v) j w <-> (j = k /\ w = v) \/ (j <> k /\ binds d j w).
Proof.
  unfold binds. induction d as [|[i u] d IH]; intro N; cbn [kset].
  - split; [constructor; [intros []|constructor]|]. cbn. split; [intro j; split; [intros [<-|[]]; now right|intros [[]| ->]; now left]|].
    intros j w. split; [intros [[= <- <-]|[]]; now left|intros [[-> ->]|[_ []]]; now left].
  - cbn [map fst] in N. apply NoDup_cons_iff in N as [Ni N]. destruct (String.eqb_spec i k) as [-> |Ne].
    + cbn [map fst]. split; [now constructor|]. split; [intro j; cbn; split; [tauto|intros [H| ->]; [exact H|now left]]|].
      intros j w. cbn. split.
      * intros [[= <- <-]|I]; [now left|]. right. split; [|now right]. intros ->. apply Ni. apply in_map_iff. now exists (k, w).
      * intros [[-> ->]|[H [[= E _]|I]]]; [now left|congruence|now right].
    + destruct (IH N) as (I1 & I2 & I3). cbn [map fst]. split.
      * constructor; [|exact I1]. intro H. apply I2 in H as [H|H]; [tauto|congruence].
      * split; [intro j; cbn; rewrite I2; tauto|]. intros j w. cbn. rewrite I3. split.
        -- intros [[= <- <-]|[H|[H I]]]; [right; split; [exact Ne|now left]|now left|right; split; [exact H|now right]].
        -- intros [H|[H [[= <- <-]|I]]]; [right; now left|now left|right; right; now split].
Qed.
Lemma kupdate_filled {V} (kw : kwdict V) : forall d, NoDup (map fst d) -> NoDup (map fst kw) -> filled d kw (kupdate d kw).
Proof.
  unfold kupdate, filled. induction kw as [|[k v] kw IH]; intros d Nd Nk; cbn [fold_left fst snd].
  - split; [exact Nd|]. intros j w. unfold binds. cbn. tauto.
  - cbn [map fst] in Nk. apply NoDup_cons_iff in Nk as [Hk Nk]. destruct (kset_binds d k v Nd) as (S1 & S2 & S3). destruct (IH (kset d k v) S1 Nk) as [N B]. split; [exact N|].
    intros j w. rewrite B, S3. unfold binds. cbn [map fst In]. split.
    + intros [I|[[[-> ->]|[Ne I]] H]]; [left; now right|left; now left|right]. split; [exact I|]. intros [E|E]; [now apply Ne|now apply H].
    + intros [[[= <- <-]|I]|[I H]]; [right; split; [now left|exact Hk]|now left|right]. split; [right; split; [intros ->; apply H; now left|exact I]|]. intro I'. apply H. now right.
Qed.
Lemma kset_new {V} (d : kwdict V) k v : ~ In k (map fst d) -> kset d k v = d ++ [(k, v)].
Proof. induction d as [|[i u] d IH]; intro H; [reflexivity|]. cbn [kset app]. destruct (String.eqb_spec i k) as [-> |]; [exfalso; apply H; now left|]. rewrite IH; [reflexivity|]. intro I. apply H. now right. Qed.
Lemma kupdate_nil {V} (kw : kwdict V) : NoDup (map fst kw) -> kupdate [] kw = kw.
Proof.
  intro N. unfold kupdate. assert (G : forall l d, NoDup (map fst (d ++ l)) -> fold_left (fun d (p : string * V) => kset d (fst p) (snd p)) l d = d ++ l).
  { induction l as [|[k v] l IH]; intros d Nd; [now rewrite app_nil_r|]. cbn [fold_left fst snd]. rewrite kset_new.
    - rewrite IH; rewrite <- app_assoc; [reflexivity|exact Nd].
    - rewrite map_app in Nd. cbn in Nd. apply NoDup_remove_2 in Nd. intro I. apply Nd. apply in_or_app. now left. }
  exact (G kw [] N).
Qed.
(** what stays: the module, the functions, the number of the cell of the defaults and its contents *)
Definition sound {V} (module : string -> option (pyfun V)) (kwargs : kwdict V) (h : helper V) : Prop :=
  h_module h = module /\ (h_kwargs h < length (h_cells h))%nat /\ nth (h_kwargs h) (h_cells h) [] = kwargs /\ forall n, own_get (h_own h) n = if existsb (String.eqb n) fft_functions then module n else None.
Lemma own_made {V} (module : string -> option (pyfun V)) l own : mapM (fun n => match module n with Some f => Ok (n, f) | None => Err AttributeError end) l = Ok own ->
  forall n, own_get own n = if existsb (String.eqb n) l then module n else None.
Proof.
  revert own. induction l as [|x l IH]; intros own E n; [injection E as <-; reflexivity|]. cbn [mapM] in E. destruct (module x) as [f|] eqn:Ef; [|discriminate]. cbn [bind] in E. apply bind_ok in E as (own' & E & E'). injection E' as <-.
  cbn [own_get existsb]. rewrite (String.eqb_sym n x). destruct (String.eqb_spec x n) as [-> |]; [now rewrite Ef|]. now apply IH.
Qed.
Lemma init_sound {V} (module : string -> option (pyfun V)) kwargs h : fft_init module kwargs = Ok h -> sound module kwargs h.
Proof. intro E. unfold fft_init in E. apply bind_ok in E as (own & E1 & E). injection E as <-. split; [reflexivity|]. split; [cbn; lia|]. split; [reflexivity|]. now apply own_made. Qed.
Lemma nth_upd_other {A} (l : list A) k j x d : k <> j -> nth j (upd l k x) d = nth j l d.
Proof. revert k j. induction l as [|y l IH]; intros [|k] [|j] H; cbn; try reflexivity; [congruence|]. apply IH. congruence. Qed.
Lemma nth_upd_same {A} (l : list A) k x d : (k < length l)%nat -> nth k (upd l k x) d = x.
Proof. revert k. induction l as [|y l IH]; intros [|k] H; cbn in *; try lia; [reflexivity|]. apply IH. lia. Qed.
Lemma call_step {V} module kwargs name args kw (h : helper V) : sound module kwargs h -> sound module kwargs (fst (fft_call name args kw h)) /\
  snd (fft_call name args kw h) = match module name with
                                  | Some f => f args (if existsb (String.eqb name) fft_functions then kupdate kwargs kw else kw)
                                  | None => Err AttributeError end.
Proof.
  intros (S1 & S2 & S3 & S4). unfold fft_call. rewrite S4, S1. destruct (existsb (String.eqb name) fft_functions); [|destruct (module name); (split; [now repeat split|reflexivity])].
  destruct (module name) as [f|]; [|split; [now repeat split|reflexivity]]. unfold call_wrapped. cbn [fst snd].
  assert (L : length (h_cells h ++ [nth (h_kwargs h) (h_cells h) []]) = S (length (h_cells h))) by (rewrite app_length; cbn; lia).
  assert (K : nth (length (h_cells h)) (h_cells h ++ [nth (h_kwargs h) (h_cells h) []]) [] = kwargs) by (rewrite app_nth2, Nat.sub_diag by lia; exact S3).
  split.
  - split; [exact S1|]. cbn [h_kwargs h_cells h_own]. split; [rewrite upd_length, L; lia|]. split; [|exact S4]. rewrite nth_upd_other by lia. rewrite app_nth1 by exact S2. exact S3.
  - rewrite nth_upd_same by lia. now rewrite K.
Qed.
Lemma calls_sound {V} module kwargs l : forall (h : helper V), sound module kwargs h -> sound module kwargs (fft_calls l h).
Proof. unfold fft_calls. induction l as [|[n [a k]] l IH]; intros h S; [exact S|]. cbn [fold_left]. apply IH. now apply call_step. Qed.
Lemma listed name : existsb (String.eqb name) fft_functions = true <-> In name fft_functions.
Proof. rewrite existsb_exists. split; [intros (x & I & E); apply String.eqb_eq in E; now subst|intro I; exists name; split; [exact I|apply String.eqb_refl]]. Qed.

Lemma helper_call {V} (module : string -> option (pyfun V)) kwargs h l name f args kw : NoDup (map fst kwargs) -> NoDup (map fst kw) -> fft_init module kwargs = Ok h -> In name fft_functions -> module name = Some f ->
  exists all, filled kwargs kw all /\ snd (fft_call name args kw (fft_calls l h)) = f args all.
Proof.
  intros Nd Nk E I M. assert (S := calls_sound module kwargs l h (init_sound _ _ _ E)). destruct (call_step module kwargs name args kw _ S) as [_ R]. rewrite R, M. apply listed in I. rewrite I.
  exists (kupdate kwargs kw). split; [now apply kupdate_filled|reflexivity].
Qed.
Lemma helper_numpy {V} (module : string -> option (pyfun V)) h l name f args kw : NoDup (map fst kw) -> fft_init module [] = Ok h -> module name = Some f ->
  snd (fft_call name args kw (fft_calls l h)) = f args kw.
Proof.
  intros Nk E M. assert (S := calls_sound module [] l h (init_sound _ _ _ E)). destruct (call_step module [] name args kw _ S) as [_ R]. rewrite R, M. destruct (existsb _ _); [now rewrite kupdate_nil|reflexivity].
Qed.
Lemma helper_other {V} (module : string -> option (pyfun V)) kwargs h l name args kw : fft_init module kwargs = Ok h -> ~ In name fft_functions ->
  snd (fft_call name args kw (fft_calls l h)) = match module name with Some f => f args kw | None => Err AttributeError end.
Proof.
  intros E I. assert (S := calls_sound module kwargs l h (init_sound _ _ _ E)). destruct (call_step module kwargs name args kw _ S) as [_ R]. rewrite R. destruct (existsb _ _) eqn:X; [apply listed in X; contradiction|reflexivity].
Qed.
Lemma helper_exists {V} (module : string -> option (pyfun V)) kwargs : (exists h, fft_init module kwargs = Ok h) <-> forall n, In n fft_functions -> module n <> None.
Proof.
  unfold fft_init. split.
  - intros (h & E) n I M. apply bind_ok in E as (own & E & _). apply mapM_ok in E. clear h. revert own E. induction fft_functions as [|x l IH]; intros own E; [destruct I|]. inversion E as [|? y ? own' E1 E2]; subst. destruct I as [-> |I]; [now rewrite M in E1|exact (IH I _ E2)].
  - intro H. assert (G : exists own, mapM (fun n => match module n with Some f => Ok (n, f) | None => Err AttributeError end) fft_functions = Ok own).
    { induction fft_functions as [|x l IH]; [now exists []|]. destruct IH as [own E]; [intros n I; apply H; now right|]. destruct (module x) as [f|] eqn:Ef; [|exfalso; exact (H x (or_introl eq_refl) Ef)]. exists ((x, f) :: own). cbn [mapM]. rewrite Ef. cbn [bind]. now rewrite E. }
    destruct G as [own G]. rewrite G. eexists. reflexivity.
Qed.
