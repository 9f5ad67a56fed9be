(** Which parts of fields kspace accepts (C88). *)
From Coq Require Import Reals String Ascii List ZArith Lia Lra Bool.
From Verif Require Import PyBase PyBaseFacts NumpyModel NdModel NdFacts FieldModel CplxModel CplxFacts FftModel FftSpec FftAxes FftFacts FftLaws KspaceModel KspaceSpec KspaceFrame KspaceFacts KspaceTotal KspaceCutSpec KspaceCut KspaceLinSpec KspaceMatchSpec KspaceMatch KspacePartSpec KspaceMatchLin.
Import ListNotations.
Local Open Scope R_scope.

Lemma decides spl lin omega ip el p P G fields s : linear_spline spl -> (p < 3)%nat -> (0 < pl_nd P <= 3)%nat -> distinct fields s -> placed ip el p P G fields s -> (ip = ILinear -> movable spl lin el p P G fields s) ->
  let fit := forall key, In key (tl (needed el p (pl_nd P))) -> fits ip P (G key) in
  (fit -> exists s' a', kspace spl lin None omega ip (comp el p) fields s = (s', Ok a')) /\ (~ fit -> exists s', kspace spl lin None omega ip (comp el p) fields s = (s', Err ValueError)).
Proof.
  intros Sp Hp Hn D Pl Mv. destruct ip; [apply kspace_decides; auto; discriminate|apply linear_decides; auto|apply kspace_decides; auto; discriminate].
Qed.
Lemma dmap_total (f : nat -> ST nat) (P : rfield -> Prop) : (forall s a g, nth_error s a = Some g -> P g -> exists s' b, f a s = (s', Ok b) /\ grows s s') ->
  forall d s, (forall k a, In (k, a) d -> exists g, nth_error s a = Some g /\ P g) -> exists s' d', dmap f d s = (s', Ok d').
Proof.
  intro Hf. induction d as [|[k a] d IH]; intros s H; [exists s, []; reflexivity|].
  destruct (H k a (or_introl eq_refl)) as (g & Hg & Pg). destruct (Hf s a g Hg Pg) as (s1 & b & E1 & G1).
  destruct (IH s1) as (s2 & d2 & E2). { intros j c I. destruct (H j c (or_intror I)) as (h & Hh & Ph). exists h. split; [apply G1, Hh|exact Ph]. }
  exists s2, ((k, b) :: d2). unfold dmap in *. cbn [sfor]. unfold sbind at 1, sbind at 1. cbn [snd fst]. rewrite E1. unfold sret at 1. unfold sbind at 1. rewrite E2. reflexivity.
Qed.
Lemma cut_total spl ct component fields s m f fm : linear_spline spl -> dget fields component = Some m -> nth_error s m = Some f -> ensure_domain spl f false = Ok fm ->
  (forall k a, In (k, a) fields -> exists g h, nth_error s a = Some g /\ wellformed g /\ part_of spl ct fm g h) -> exists s1 d, cut_fields spl (Some ct) component fields s = (s1, Ok d).
Proof.
  intros Sp Hm Hf Em H. cbn [cut_fields].
  assert (Th : all_there fields s) by (intros k a I; destruct (H k a I) as (g & h & Hg & _); apply nth_error_Some; congruence).
  destruct (dmap_total (ensure_at spl false) wellformed) with (d := fields) (s := s) as (s0 & d0 & E0).
  { intros t a g Hg Wg. destruct (ensure_at_ok spl false a g t Sp Wg Hg) as (t' & b & E). exists t', b. split; [exact E|]. apply (ensure_rel spl false _ _ _ _ _ Hg E). }
  { intros k a I. destruct (H k a I) as (g & h & Hg & Wg & _). now exists g. }
  destruct (dmap_related _ _ (ensure_rel spl false) _ _ _ _ Th E0) as (G0 & R0). assert (Get0 := related_get _ _ _ _ _ R0).
  unfold sbind at 1. rewrite E0. specialize (Get0 component). rewrite Hm in Get0. destruct (dget d0 component) as [m0|] eqn:Em0; [|contradiction]. destruct Get0 as (f' & fm' & Hf' & Hfm & Em').
  rewrite Hf in Hf'. injection Hf' as <-. rewrite Em in Em'. injection Em' as <-. unfold sbind at 1, load at 1. rewrite Hfm.
  apply (dmap_total _ (fun g => exists h, ct fm g = Ok h)).
  - intros t a g Hg (h & Eh). exists (t ++ [h]), (length t). split; [|apply grows_app]. unfold load, alloc, lift, sbind. rewrite Hg, Eh. reflexivity.
  - intros k b I. assert (X : exists a g g', In (k, a) fields /\ nth_error s a = Some g /\ nth_error s0 b = Some g' /\ ensure_domain spl g false = Ok g').
    { clear - R0 I. induction R0 as [|[j a] [j' c] d d' (Q1 & g & g' & Q2 & Q3 & Q4) F IH]; [destruct I|]. cbn [fst snd] in *. destruct I as [[= -> ->]|I].
      - subst j. exists a, g, g'. split; [now left|]. auto.
      - destruct (IH I) as (a0 & h & h' & A1 & A2). exists a0, h, h'. split; [now right|exact A2]. }
    destruct X as (a & g & g' & Ia & Hg & Hg' & E). destruct (H k a Ia) as (g1 & h & Hg1 & _ & g2 & E2 & Eh). rewrite Hg in Hg1. injection Hg1 as <-. rewrite E in E2. injection E2 as <-. exists g'. split; [exact Hg'|]. now exists h.
Qed.
Lemma part_decides spl lin ct omega ip el p P G fields s : linear_spline spl -> (p < 3)%nat -> (0 < pl_nd P <= 3)%nat -> parts_placed spl lin ct ip el p P G fields s ->
  let fit := forall key, In key (tl (needed el p (pl_nd P))) -> fits ip P (G key) in
  (fit -> exists s' a', kspace spl lin (Some ct) omega ip (comp el p) fields s = (s', Ok a')) /\ (~ fit -> exists s', kspace spl lin (Some ct) omega ip (comp el p) fields s = (s', Err ValueError)).
Proof.
  intros Sp Hp Hn (Nd & m & f & fm & Hm & Hf & Em & H).
  destruct (cut_total spl ct (comp el p) fields s m f fm Sp Hm Hf Em) as (s1 & d & Ec). { intros k a I. destruct (H k a I) as (g & h & A1 & A2 & A3 & _). exists g, h. auto. }
  rewrite (kspace_split _ lin _ omega ip _ _ _ _ _ _ Hp Ec).
  assert (Th : all_there fields s) by (intros k a I; destruct (H k a I) as (g & h & Hg & _); apply nth_error_Some; congruence).
  destruct (cut_value _ _ _ _ _ _ _ Th Ec) as (m' & f' & fm' & Hm' & Hf' & Em' & Di & _ & Get). rewrite Hm in Hm'. injection Hm' as <-. rewrite Hf in Hf'. injection Hf' as <-. rewrite Em in Em'. injection Em' as <-.
  assert (Val : forall k b h, dget d k = Some b -> nth_error s1 b = Some h -> (k = comp el p -> lives_on h (pl_nd P) (pl_at P)) /\
      (In k (tl (needed el p (pl_nd P))) -> (0 < pl_nd (G k))%nat /\ lives_on h (pl_nd (G k)) (pl_at (G k)) /\ (ip = IFourier -> origins_known h) /\
         (ip = ILinear -> fits ILinear P (G k) -> exists H, moved_spectrum spl lin (pl_nd P) (pl_at P) (pl_at (G k)) h H))).
  { intros k b h Hb Hh. specialize (Get k). rewrite Hb in Get. destruct (dget fields k) as [a|] eqn:Ea; [|contradiction]. destruct Get as (g & h' & A1 & (g2 & A2 & A3) & A4). rewrite Hh in A4. injection A4 as <-.
    destruct (H k a (dget_In _ _ _ Ea)) as (g' & h' & B1 & _ & (g3 & B2 & B3) & B4). rewrite A1 in B1. injection B1 as <-. rewrite A2 in B2. injection B2 as <-. rewrite A3 in B3. injection B3 as <-. exact B4. }
  assert (There : forall k, In k (needed el p (pl_nd P)) -> exists b h, dget d k = Some b /\ nth_error s1 b = Some h).
  { intros k I. destruct (Nd k I) as [a Ha]. specialize (Get k). rewrite Ha in Get. destruct (dget d k) as [b|]; [|contradiction]. destruct Get as (g & h & _ & _ & Hh). exists b, h. auto. }
  apply decides; [exact Sp|exact Hp|exact Hn|exact Di| |].
  - split.
    + destruct (There (comp el p)) as (b & h & Hb & Hh); [now left|]. exists b, h. split; [exact Hb|]. split; [exact Hh|]. exact (proj1 (Val _ _ _ Hb Hh) eq_refl).
    + intros key I. destruct (There key) as (b & h & Hb & Hh); [unfold needed in *; cbn [tl] in I; now right|]. exists b, h. split; [exact Hb|]. split; [exact Hh|]. destruct (proj2 (Val _ _ _ Hb Hh) I) as (V1 & V2 & V3 & _). auto.
  - intros Ip key b h I Hb Hh. exact (proj2 (proj2 (proj2 (proj2 (Val _ _ _ Hb Hh) I))) Ip).
Qed.
