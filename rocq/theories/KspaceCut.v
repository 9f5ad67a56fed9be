(** Lemmas on the reconstruction of waves from a part of the fields. *)
From Coq Require Import Reals String Ascii List ZArith Lia Lra Bool.
From Verif Require Import PyBase PyBaseFacts NumpyModel NdModel NdFacts FieldModel CplxModel CplxFacts FftModel FftSpec FftDemo KspaceModel KspaceSpec KspaceFrame KspaceFacts KspaceTotal KspaceDemo KspaceCutSpec.
Import ListNotations.
Local Open Scope R_scope.

Definition grows (s s' : store) : Prop := forall a f, nth_error s a = Some f -> nth_error s' a = Some f.
Lemma grows_app s l : grows s (s ++ l).
Proof. intros a f H. rewrite nth_error_app1; [exact H|]. apply nth_error_Some. congruence. Qed.
Lemma grows_len s s' : grows s s' -> (length s <= length s')%nat.
Proof.
  intro G. destruct (Nat.le_gt_cases (length s) (length s')) as [L|L]; [exact L|]. destruct (nth_error s (length s')) as [f|] eqn:E; [|apply nth_error_None in E; lia].
  apply G in E. assert (N : nth_error s' (length s') <> None) by congruence. apply nth_error_Some in N. lia.
Qed.
Lemma there_some (s : store) a : (a < length s)%nat -> exists f, nth_error s a = Some f.
Proof. intro L. destruct (nth_error s a) eqn:E; [eauto|]. apply nth_error_None in E. lia. Qed.

Definition related (P : rfield -> rfield -> Prop) (s s' : store) (x y : string * nat) : Prop :=
  fst x = fst y /\ exists g g', nth_error s (snd x) = Some g /\ nth_error s' (snd y) = Some g' /\ P g g'.
Lemma dmap_related (f : nat -> ST nat) (P : rfield -> rfield -> Prop) :
  (forall s s' a b g, nth_error s a = Some g -> f a s = (s', Ok b) -> grows s s' /\ exists g', nth_error s' b = Some g' /\ P g g') ->
  forall d s s' d', all_there d s -> dmap f d s = (s', Ok d') -> grows s s' /\ Forall2 (related P s s') d d'.
Proof.
  intro Hf. induction d as [|[k a] d IH]; intros s s' d' Th E.
  - apply sret_ok in E as [-> ->]. split; [intros ? ? H; exact H|constructor].
  - unfold dmap in E. cbn [sfor] in E. apply sbind_ok in E as (s1 & y & E1 & E). apply sbind_ok in E1 as (s0 & b & E0 & E1). cbn [snd fst] in *. apply sret_ok in E1 as [-> ->].
    apply sbind_ok in E as (s2 & ys & E2 & E). apply sret_ok in E as [-> ->].
    destruct (there_some s a (Th k a (or_introl eq_refl))) as [g Hg]. destruct (Hf _ _ _ _ _ Hg E0) as (G1 & g' & Hg' & Pg).
    assert (Th' : all_there d s0) by (intros j c I; specialize (Th j c (or_intror I)); apply grows_len in G1; lia).
    destruct (IH s0 s2 ys Th' E2) as (G2 & R2). split; [intros c h H; apply G2, G1, H|]. constructor.
    + split; [reflexivity|]. exists g, g'. split; [exact Hg|]. split; [apply G2; exact Hg'|exact Pg].
    + assert (K : forall x y, In x d -> related P s0 s2 x y -> related P s s2 x y).
      { intros [j c] y I (Q1 & h & h' & Q2 & Q3 & Q4). split; [exact Q1|]. exists h, h'. cbn [snd] in *. split; [|split; assumption].
        destruct (there_some s c (Th j c (or_intror I))) as [h0 H0]. assert (H1 := G1 _ _ H0). congruence. }
      clear - R2 K. induction R2; constructor; [apply K; [now left|assumption]|apply IHR2; intros; apply K; [now right|assumption]].
Qed.
Lemma dmap_fresh (f : nat -> ST nat) : (forall s s' a b, f a s = (s', Ok b) -> b = length s /\ length s' = Datatypes.S (length s)) ->
  forall d s s' d', dmap f d s = (s', Ok d') -> map snd d' = seq (length s) (length d) /\ length s' = (length s + length d)%nat.
Proof.
  intro Hf. induction d as [|[k a] d IH]; intros s s' d' E.
  - apply sret_ok in E as [-> ->]. split; [reflexivity|cbn; lia].
  - unfold dmap in E. cbn [sfor] in E. apply sbind_ok in E as (s1 & y & E1 & E). apply sbind_ok in E1 as (s0 & b & E0 & E1). cbn [snd fst] in *. apply sret_ok in E1 as [-> ->].
    apply sbind_ok in E as (s2 & ys & E2 & E). apply sret_ok in E as [-> ->]. destruct (Hf _ _ _ _ E0) as (-> & L0). destruct (IH _ _ _ E2) as (Q1 & Q2). cbn [map snd length seq]. rewrite Q1, L0. split; [reflexivity|]. cbn [length]. lia.
Qed.
Lemma related_get P s s' d d' : Forall2 (related P s s') d d' -> forall k,
  match dget d k, dget d' k with
  | None, None => True
  | Some a, Some b => exists g g', nth_error s a = Some g /\ nth_error s' b = Some g' /\ P g g'
  | _, _ => False end.
Proof.
  induction 1 as [|[j a] [j' b] d d' (Ej & H) F IH]; intro k; cbn [dget]; [exact I|]. cbn [fst snd] in *. subst j'. destruct (String.eqb j k); [exact H|apply IH].
Qed.
Lemma seq_distinct (d : dict) n m : map snd d = seq n m -> forall k j a, dget d k = Some a -> dget d j = Some a -> k = j.
Proof.
  intros E k j a Hk Hj. apply dget_In in Hk. apply dget_In in Hj. assert (ND : NoDup (map snd d)) by (rewrite E; apply seq_NoDup). clear E. induction d as [|[i b] d IH]; [destruct Hk|].
  cbn [map snd] in ND. inversion_clear ND as [|? ? Ni N]. destruct Hk as [Hk|Hk], Hj as [Hj|Hj].
  - congruence.
  - injection Hk as -> ->. exfalso. apply Ni. apply in_map_iff. now exists (j, a).
  - injection Hj as -> ->. exfalso. apply Ni. apply in_map_iff. now exists (k, a).
  - exact (IH Hk Hj N).
Qed.
Lemma ensure_rel spl b : forall s s' a c g, nth_error s a = Some g -> ensure_at spl b a s = (s', Ok c) -> grows s s' /\ exists g', nth_error s' c = Some g' /\ ensure_domain spl g b = Ok g'.
Proof.
  intros s s' a c g Hg E. destruct (ensure_at_value spl b a g s s' c Hg E) as (G & E1 & E2 & [(-> & _)|(-> & _)]); (split; [|exists G; now split]); [intros ? ? H; exact H|apply grows_app].
Qed.
Lemma dget_there d s k a : all_there d s -> dget d k = Some a -> (a < length s)%nat.
Proof. intros T H. apply dget_In in H. exact (T _ _ H). Qed.
Lemma cut_value spl ct component fields s s1 d : all_there fields s -> cut_fields spl (Some ct) component fields s = (s1, Ok d) ->
  exists m f0 fm, dget fields component = Some m /\ nth_error s m = Some f0 /\ ensure_domain spl f0 false = Ok fm /\ distinct d s1 /\ grows s s1 /\
    forall k, match dget fields k, dget d k with
              | None, None => True
              | Some a, Some b => exists f h, nth_error s a = Some f /\ part_of spl ct fm f h /\ nth_error s1 b = Some h
              | _, _ => False end.
Proof.
  intros Th E. cbn [cut_fields] in E. apply sbind_ok in E as (s0 & d0 & E0 & E).
  destruct (dmap_related _ _ (ensure_rel spl false) _ _ _ _ Th E0) as (G0 & R0). assert (Get0 := related_get _ _ _ _ _ R0).
  destruct (dget d0 component) as [m0|] eqn:Em0; [|discriminate]. assert (Gm := Get0 component). rewrite Em0 in Gm. destruct (dget fields component) as [m|] eqn:Em; [|contradiction]. destruct Gm as (f0 & fm & Hf0 & Hfm & EF).
  apply sbind_ok in E as (s2 & fm' & E1 & E). apply load_ok in E1 as [-> E1]. rewrite Hfm in E1. injection E1 as <-.
  assert (Th0 : all_there d0 s0).
  { clear - R0. induction R0 as [|x [k b] d d' (Q & g & g' & _ & Hb & _) F IH]; intros j c I; [destruct I|]. destruct I as [I|I]; [injection I as -> ->|exact (IH _ _ I)]. cbn [snd] in Hb. apply nth_error_Some. congruence. }
  set (step := fun a => st! f := load a in st! g := lift (ct fm f) in alloc g) in *.
  assert (St : forall s s' a b g, nth_error s a = Some g -> step a s = (s', Ok b) -> grows s s' /\ exists g', nth_error s' b = Some g' /\ ct fm g = Ok g').
  { intros t t' a b g Hg Es. unfold step in Es. apply sbind_ok in Es as (t1 & f & Q1 & Es). apply load_ok in Q1 as [-> Q1]. rewrite Hg in Q1. injection Q1 as <-. apply sbind_ok in Es as (t2 & h & Q2 & Es). apply lift_ok in Q2 as [-> Q2]. apply alloc_ok in Es as [-> ->].
    split; [apply grows_app|]. exists h. split; [|exact Q2]. rewrite nth_error_app2, Nat.sub_diag by lia. reflexivity. }
  assert (Fr : forall s s' a b, step a s = (s', Ok b) -> b = length s /\ length s' = Datatypes.S (length s)).
  { intros t t' a b Es. unfold step in Es. apply sbind_ok in Es as (t1 & f & Q1 & Es). apply load_ok in Q1 as [-> Q1]. apply sbind_ok in Es as (t2 & h & Q2 & Es). apply lift_ok in Q2 as [-> Q2]. apply alloc_ok in Es as [-> ->]. split; [reflexivity|]. rewrite app_length. cbn. lia. }
  destruct (dmap_related step _ St _ _ _ _ Th0 E) as (G1 & R1). destruct (dmap_fresh step Fr _ _ _ _ E) as (Sq & Ls). assert (Get1 := related_get _ _ _ _ _ R1).
  exists m, f0, fm. split; [reflexivity|]. split; [exact Hf0|]. split; [exact EF|]. split.
  - split; [exact (seq_distinct d _ _ Sq)|]. intros k a Ha. apply dget_In in Ha. assert (I : In a (map snd d)) by (apply in_map_iff; now exists (k, a)). rewrite Sq in I. apply in_seq in I. lia.
  - split; [intros a f H; apply G1, G0, H|]. intro k. specialize (Get0 k). specialize (Get1 k). destruct (dget fields k) as [a|], (dget d0 k) as [b|], (dget d k) as [c|]; try contradiction; try exact I.
    destruct Get0 as (f & g & A1 & A2 & A3). destruct Get1 as (g1 & h & B1 & B2 & B3). rewrite A2 in B1. injection B1 as <-. exists f, h. split; [exact A1|]. split; [exists g; now split|exact B2].
Qed.
Lemma kspace_split spl lin ct omega ip el p fields s s1 d : (p < 3)%nat -> cut_fields spl (Some ct) (comp el p) fields s = (s1, Ok d) ->
  kspace spl lin (Some ct) omega ip (comp el p) fields s = kspace spl lin None omega ip (comp el p) d s1.
Proof.
  intros Hp E. destruct (axis_comp p Hp) as (ax & E1 & E2 & _). destruct el; [rewrite E1 in *|rewrite E2 in *]; cbn [kspace]; unfold sbind at 1; rewrite E; unfold sbind at 3; reflexivity.
Qed.
Lemma part_formula spl lin ct omega ip el p fields s s' a' : linear_spline spl -> ip <> ILinear -> (p < 3)%nat -> all_there fields s ->
  kspace spl lin (Some ct) omega ip (comp el p) fields s = (s', Ok a') ->
  exists m f fm, dget fields (comp el p) = Some m /\ nth_error s m = Some f /\ ensure_domain spl f false = Ok fm /\
    ((forall k a g h, dget fields k = Some a -> nth_error s a = Some g -> part_of spl ct fm g h -> wellformed h) ->
     exists h F r, part_of spl ct fm f h /\ ensure_domain spl h true = Ok F /\ nth_error s' a' = Some r /\
       rf_axes r = rf_axes F /\ rf_ats r = rf_ats F /\ rf_tao r = rf_tao F /\ a_shape (rf_data r) = a_shape (rf_data F) /\
       (forall idx, let k := wave_vector (rf_axes F) idx in
          a_at (rf_data r) idx = Csub (part_spectrum spl ct fm s fields (comp el p) idx)
             (Cmul (RtoC (factor el (omega (rf_axes F) idx) k)) (cross k (fun i => part_spectrum spl ct fm s fields (comp (negb el) i) idx) p))) /\
       forall key, In key (needed el p (ndim h)) -> exists b, dget fields key = Some b).
Proof.
  intros Sp Ip Hp Th E. assert (Ec : exists s1 d, cut_fields spl (Some ct) (comp el p) fields s = (s1, Ok d)).
  { destruct (axis_comp p Hp) as (ax & E1 & E2 & _). destruct el; [rewrite E1 in *|rewrite E2 in *]; cbn [kspace] in E; apply sbind_ok in E as (s1 & d & E & _); now exists s1, d. }
  destruct Ec as (s1 & d & Ec). rewrite (kspace_split _ _ _ _ _ _ _ _ _ _ _ Hp Ec) in E. destruct (cut_value _ _ _ _ _ _ _ Th Ec) as (m & f & fm & Hm & Hf & EF & Di & _ & Get).
  exists m, f, fm. split; [exact Hm|]. split; [exact Hf|]. split; [exact EF|]. intro Wf.
  assert (Wd : all_wellformed d s1).
  { intros k b h Hb Hh. specialize (Get k). rewrite Hb in Get. destruct (dget fields k) as [a|] eqn:Ea; [|contradiction]. destruct Get as (g & h' & G1 & G2 & G3). rewrite Hh in G3. injection G3 as <-. exact (Wf _ _ _ _ Ea G1 G2). }
  assert (Sc : forall k idx, spectrum spl s1 d k idx = part_spectrum spl ct fm s fields k idx).
  { intros k idx. unfold spectrum, part_spectrum. specialize (Get k). destruct (dget fields k) as [a|], (dget d k) as [b|]; try contradiction; [|reflexivity]. destruct Get as (g & h & G1 & (g0 & P1 & P2) & G3). rewrite G1, G3, P1, P2. reflexivity. }
  destruct (formula spl lin omega ip el p d s1 s' a' Sp Ip Hp Di Wd E) as (b & h & F & r & Hb & Hh & EFh & Hr & X1 & X2 & X3 & X4 & V & N).
  assert (Gm := Get (comp el p)). rewrite Hm, Hb in Gm. destruct Gm as (f' & h' & G1 & G2 & G3). rewrite Hf in G1. injection G1 as <-. rewrite Hh in G3. injection G3 as <-.
  exists h, F, r. do 7 (split; [assumption|]). split.
  - intro idx. cbv zeta. rewrite V. rewrite Sc. unfold cross. now rewrite !Sc.
  - intros key I. destruct (N key I) as [c Hc]. specialize (Get key). rewrite Hc in Get. destruct (dget fields key) as [a|]; [now exists a|contradiction].
Qed.
(** ** An example: four points in space, of which the first two are used *)
Definition grid4 := mkuni 4 1 3.
Definition first_two (fm f : rfield) : res rfield := Ok (field1 "x" "m" grid1 false (Some 0) (fun i => a_at (rf_data f) [i])).
Definition wave4 (ey bz : C) : store := [field1 "x" "m" grid4 false (Some 0) (fun _ => ey); field1 "x" "m" grid4 false (Some 0) (fun _ => bz)].
Lemma wave4_cut spl ey bz : cut_fields spl (Some first_two) "Ey" names1 (wave4 ey bz) = (wave4 ey bz ++ wave1 false ey bz, Ok [("Ey"%string, 2%nat); ("Bz"%string, 3%nat)]).
Proof. reflexivity. Qed.
Lemma wave4_run ey bz : exists s' a', kspace line_spline (fun f _ => Ok f) (Some first_two) (omega_free 1) INone "Ey" names1 (wave4 ey bz) = (s', Ok a').
Proof.
  change "Ey"%string with (comp true 1). rewrite (kspace_split _ _ _ _ _ true 1 _ _ _ _ ltac:(lia) (wave4_cut line_spline ey bz)).
  destruct (wave1_given INone true 1 false ey bz (or_introl (conj eq_refl eq_refl))) as [(a & f & A1 & A2 & A3) B].
  apply (kspace_total line_spline (fun f _ => Ok f) (omega_free 1) INone true 1 1 (place1 false)); [exact line_spline_ok|discriminate|lia|lia| |].
  - split.
    + intros k j c. cbn [dget]. destruct (String.eqb_spec "Ey" k) as [<-|], (String.eqb_spec "Ey" j) as [<-|]; try (destruct (String.eqb_spec "Bz" k) as [<-|]); try (destruct (String.eqb_spec "Bz" j) as [<-|]); intros; congruence.
    + intros k c. cbn [dget]. destruct (String.eqb "Ey" k); [|destruct (String.eqb "Bz" k); [|discriminate]]; intros [= <-]; cbn; lia.
  - split.
    + exists 2%nat, f. cbn in A1. injection A1 as <-. split; [reflexivity|]. split; [exact A2|exact A3].
    + intros key I. destruct (B key I) as (b & g & V & B1 & B2 & B3). cbn in I. destruct I as [<-|[]]. exists 3%nat, g, V. cbn in B1. injection B1 as <-. split; [reflexivity|]. split; [exact B2|exact B3].
Qed.
Lemma wave4_there ey bz : all_there names1 (wave4 ey bz).
Proof. intros k a [E|[E|[]]]; injection E as <- <-; cbn; lia. Qed.
Lemma wave4_part spl fm f h : part_of spl first_two fm f h -> wellformed h.
Proof. intros (g & _ & [= <-]). apply field1_wf. Qed.
