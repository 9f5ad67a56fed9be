(** Lemmas on kspace_epoch_like for a part of the fields. *)
From Coq Require Import Reals String Ascii List ZArith Lia Lra Bool.
From Verif Require Import PyBase PyBaseFacts NumpyModel NdModel NdFacts FieldModel CplxModel CplxFacts FftModel FftSpec FftAxes FftKernel FftFacts FftLaws FftMore FftShift FftDemo KspaceModel KspaceSpec KspaceFrame KspaceFacts KspaceTotal KspaceDemo KspaceWave KspaceEpoch KspaceCutSpec KspaceCut.
Import ListNotations.
Local Open Scope R_scope.

Lemma dmap_names (f : nat -> ST nat) : forall d s s' d', dmap f d s = (s', Ok d') -> map fst d' = map fst d.
Proof.
  induction d as [|[k a] d IH]; intros s s' d' E.
  - apply sret_ok in E as [-> ->]. reflexivity.
  - unfold dmap in E. cbn [sfor] in E. apply sbind_ok in E as (s1 & y & E1 & E). apply sbind_ok in E1 as (s0 & b & E0 & E1). cbn [snd fst] in *. apply sret_ok in E1 as [-> ->].
    apply sbind_ok in E as (s2 & ys & E2 & E). apply sret_ok in E as [-> ->]. cbn [map fst]. f_equal. exact (IH _ _ _ E2).
Qed.
Lemma cut_names spl ct component fields s s1 d : cut_fields spl (Some ct) component fields s = (s1, Ok d) -> map fst d = map fst fields.
Proof.
  intro E. cbn [cut_fields] in E. apply sbind_ok in E as (s0 & d0 & E0 & E). apply dmap_names in E0. destruct (dget d0 component); [|discriminate].
  apply sbind_ok in E as (s2 & fm & E1 & E). apply dmap_names in E. congruence.
Qed.
Lemma epoch_split c spl lin ct omega dt al el p fields s s' a' : (p < 3)%nat -> all_there fields s -> kspace_epoch_like c spl lin (Some ct) omega dt al (comp el p) fields s = (s', Ok a') ->
  exists s1 d, cut_fields spl (Some ct) (comp el p) fields s = (s1, Ok d) /\ kspace_epoch_like c spl lin None omega dt al (comp el p) d s1 = (s', Ok a').
Proof.
  intros Hp Th E. unfold kspace_epoch_like in *. destruct (comp_shape el p Hp) as (ax & Ec & Ax & Ek).
  assert (Shape : comp el p = String (if el then "E" else "B")%char (String ax "")) by (destruct el; exact Ec). rewrite Shape in *. rewrite <- Shape in *. cbv iota beta in *.
  rewrite Ax in *. unfold sbind at 1, lift at 1 in E. destruct (dget fields (comp el p)) as [a|] eqn:Ha; [|discriminate].
  apply sbind_ok in E as (s1 & d & E1 & E). exists s1, d. split; [exact E1|]. unfold sbind at 1, lift at 1.
  destruct (cut_value _ _ _ _ _ _ _ Th E1) as (m & f0 & fm & _ & _ & _ & _ & _ & Get). specialize (Get (comp el p)). rewrite Ha in Get. destruct (dget d (comp el p)) as [b|] eqn:Hb; [|contradiction].
  cbn [cut_fields]. unfold sbind at 1, sret at 1. exact E.
Qed.
Lemma epoch_part c spl lin ct omega dt al el p fields s s' a' : linear_spline spl -> (p < 3)%nat -> NoDup (map fst fields) -> all_there fields s ->
  kspace_epoch_like c spl lin (Some ct) omega dt al (comp el p) fields s = (s', Ok a') ->
  exists m f fm, dget fields (comp el p) = Some m /\ nth_error s m = Some f /\ ensure_domain spl f false = Ok fm /\
    ((forall k a g h, dget fields k = Some a -> nth_error s a = Some g -> part_of spl ct fm g h -> wellformed h) ->
     exists h F r, part_of spl ct fm f h /\ ensure_domain spl h true = Ok F /\ nth_error s' a' = Some r /\
       rf_axes r = rf_axes F /\ rf_ats r = rf_ats F /\ rf_tao r = rf_tao F /\ a_shape (rf_data r) = a_shape (rf_data F) /\
       forall idx, let k := wave_vector (rf_axes F) idx in let resp := Rabs (cos (dt * omega (rf_axes F) idx / 2)) in
         let spectrum key := part_spectrum spl ct fm s fields key idx in resp <> 0 ->
         a_at (rf_data r) idx = (if Ascii.eqb al (if el then "E" else "B")%char
           then Csub (Cmul (RtoC (/ resp)) (spectrum (comp el p))) (Cmul (RtoC (factor el (frequency c (rf_axes F) idx) k)) (cross k (fun i => spectrum (comp (negb el) i)) p))
           else Csub (spectrum (comp el p)) (Cmul (RtoC (/ resp * factor el (frequency c (rf_axes F) idx) k)) (cross k (fun i => spectrum (comp (negb el) i)) p)))).
Proof.
  intros Sp Hp N Th E. destruct (epoch_split _ _ _ _ _ _ _ _ _ _ _ _ _ Hp Th E) as (s1 & d & Ec & E1). assert (Nd := cut_names _ _ _ _ _ _ _ Ec).
  destruct (cut_value _ _ _ _ _ _ _ Th Ec) as (m & f & fm & Hm & Hf & EF & Di & _ & Get).
  exists m, f, fm. split; [exact Hm|]. split; [exact Hf|]. split; [exact EF|]. intro Wf.
  assert (Wd : all_wellformed d s1).
  { intros k b h Hb Hh. specialize (Get k). rewrite Hb in Get. destruct (dget fields k) as [a|] eqn:Ea; [|contradiction]. destruct Get as (g & h' & G1 & G2 & G3). rewrite Hh in G3. injection G3 as <-. exact (Wf _ _ _ _ Ea G1 G2). }
  assert (Sc : forall k idx, spectrum spl s1 d k idx = part_spectrum spl ct fm s fields k idx).
  { intros k idx. unfold spectrum, part_spectrum. specialize (Get k). destruct (dget fields k) as [a|], (dget d k) as [b|]; try contradiction; [|reflexivity]. destruct Get as (g & h & G1 & (g0 & P1 & P2) & G3). rewrite G1, G3, P1, P2. reflexivity. }
  assert (N1 : NoDup (map fst d)) by (rewrite Nd; exact N).
  destruct (epoch_formula c spl lin omega dt al el p d s1 s' a' Sp Hp N1 Di Wd E1) as (b & h & F & r & Hb & Hh & EFh & Hr & X1 & X2 & X3 & X4 & V).
  assert (Gm := Get (comp el p)). rewrite Hm, Hb in Gm. destruct Gm as (f' & h' & G1 & G2 & G3). rewrite Hf in G1. injection G1 as <-. rewrite Hh in G3. injection G3 as <-.
  exists h, F, r. do 7 (split; [assumption|]).
  intros idx k resp sp Hr0. specialize (V idx). cbv zeta in V. specialize (V Hr0). rewrite V. fold k resp. unfold sp. rewrite <- !Sc. unfold cross. now rewrite <- !Sc.
Qed.
(** the call of kspace at the end *)
Lemma epoch_reduces c spl lin omega dt al el p fields s a : linear_spline spl -> (p < 3)%nat -> NoDup (map fst fields) -> distinct fields s -> all_wellformed fields s -> dget fields (comp el p) = Some a ->
  exists s3 d3 touched resp, kspace_epoch_like c spl lin None omega dt al (comp el p) fields s = kspace spl lin None (omega_free c) IFourier (comp el p) d3 s3 /\ distinct d3 s3 /\ forall key, scaled_dict spl fields s touched resp d3 s3 key.
Proof.
  intros Sp Hp N Di Wf Ha. unfold kspace_epoch_like. destruct (comp_shape el p Hp) as (ax & Ec & Ax & Ek).
  assert (Shape : comp el p = String (if el then "E" else "B")%char (String ax "")) by (destruct el; exact Ec). rewrite Shape in *. rewrite <- Shape in *. cbv iota beta.
  rewrite Ax. unfold sbind at 1, lift at 1. rewrite Ha. cbn [cut_fields]. unfold sbind at 1, sret at 1.
  destruct (freq_dict spl fields s Sp N Di Wf) as (s2 & d2 & E2 & N2 & Di2 & V2). unfold sbind at 1. rewrite E2.
  assert (Vm := V2 (comp el p)). unfold in_freq in Vm. rewrite Ha in Vm. destruct Vm as (m & f & F & Hm & Hf & EF & HF & WF & AF). rewrite Hm. unfold sbind at 1, load at 1. rewrite HF. cbv zeta.
  set (resp := fun idx => lin_response dt (omega (rf_axes F) idx)).
  set (pol := (if el then "E" else "B")%char) in *.
  set (touched := fun key => if Ascii.eqb pol al then String.eqb key (comp el p) else negb (String.eqb key (comp el p))).
  match goal with |- exists s3 d3 touched resp, ?run = _ /\ _ => enough (Fin : exists s3 d3, run = kspace spl lin None (omega_free c) IFourier (comp el p) d3 s3 /\ distinct d3 s3 /\ forall key, scaled_dict spl fields s touched resp d3 s3 key) by (destruct Fin as (s3 & d3 & H); now exists s3, d3, touched, resp) end.
  assert (B2 : forall q, In q d2 -> (snd q < length s2)%nat) by (intros [k b] I; apply dget_in in I; [|exact N2]; exact (proj2 Di2 k b I)).
    unfold sbind at 1. destruct (Ascii.eqb pol al) eqn:Epa.
    - unfold sbind at 1, sbind at 1, load at 1. rewrite HF. unfold alloc at 1, sret at 1. eexists. eexists. split; [reflexivity|]. split.
      + split; [|intros k b H; destruct (string_dec k (comp el p)) as [->|Nk]; [rewrite dset_get in H; injection H as <-; rewrite app_length; cbn; lia|rewrite dset_other in H by exact Nk; apply (proj2 Di2) in H; rewrite app_length; lia]].
        intros k j b H1 H2. destruct (string_dec k (comp el p)) as [->|Nk], (string_dec j (comp el p)) as [->|Nj]; rewrite ?dset_get, ?dset_other in * by assumption; [reflexivity| | |exact (proj1 Di2 k j b H1 H2)].
        * injection H1 as <-. apply (proj2 Di2) in H2. lia.
        * injection H2 as <-. apply (proj2 Di2) in H1. lia.
      + intro key. specialize (V2 key). unfold in_freq in V2. unfold scaled_dict. unfold touched. destruct (string_dec key (comp el p)) as [->|Nk].
        * rewrite Ha in *. rewrite dset_get, String.eqb_refl. exists (length s2), f, F. rewrite nth_error_app2, Nat.sub_diag by lia. repeat (split; [first [assumption|reflexivity]|]). reflexivity.
        * rewrite dset_other by exact Nk. rewrite (proj2 (String.eqb_neq _ _) Nk). destruct (dget fields key); [|exact V2]. destruct V2 as (b & f1 & F1 & X1 & X2 & X3 & X4 & X5 & X6). exists b, f1, F1. repeat (split; [assumption|]). rewrite nth_error_app1; [exact X4|]. apply nth_error_Some. congruence.
    - set (h := fun q : string * nat => if String.eqb (fst q) (comp el p) then None else option_map (fun g => divided g resp) (nth_error s2 (snd q))).
      assert (Ef := sfor_place h (fun q => if String.eqb (fst q) (comp el p) then sret q else st! a := (st! f := load (snd q) in alloc (divided f resp)) in sret (fst q, a)) s2 d2). specialize (fun H => Ef H []). cbn [app] in Ef. rewrite !app_nil_r in Ef.
      rewrite Ef.
      2:{ intros [k b] l I. unfold h. cbn [fst snd]. destruct (String.eqb k (comp el p)); [reflexivity|]. apply B2 in I. cbn in I. unfold sbind, load. rewrite nth_error_app1 by exact I. destruct (nth_error s2 b) as [g|] eqn:Hg; [|apply nth_error_None in Hg; lia]. cbn [option_map]. unfold alloc, sret. now rewrite <- app_assoc. }
      eexists. eexists. split; [reflexivity|].
      assert (V3 : forall key, scaled_dict spl fields s touched resp (place h d2 (length s2)) (s2 ++ news h d2) key).
      { intro key. specialize (V2 key). unfold in_freq in V2. unfold scaled_dict, touched. destruct (dget fields key) as [b0|]; [|now apply place_none]. destruct V2 as (b & f1 & F1 & X1 & X2 & X3 & X4 & X5 & X6).
        destruct (place_some h d2 key b (length s2) X1) as (b' & Hb' & Vb). exists b', f1, F1. repeat (split; [assumption|]). unfold h in Vb at 1. cbn [fst snd] in Vb. destruct (String.eqb key (comp el p)) eqn:Ek'; cbn [negb].
        - subst b'. rewrite nth_error_app1; [exact X4|]. apply nth_error_Some. congruence.
        - rewrite X4 in Vb. cbn [option_map] in Vb. destruct Vb as [L Vb]. rewrite nth_error_app2 by exact L. exact Vb. }
      split; [|exact V3]. split.
      + intros k j b H1 H2. destruct (place_bound _ _ _ _ _ B2 H1) as [L|L]; [exact (place_inj _ _ _ _ _ _ B2 L H1 H2)|]. destruct (place_bound _ _ _ _ _ B2 H2) as [L'|L']; [exact (place_inj _ _ _ _ _ _ B2 L' H1 H2)|]. exact (proj1 Di2 k j b L L').
      + intros k b H. specialize (V3 k). unfold scaled_dict in V3. destruct (dget fields k); [|congruence]. destruct V3 as (b' & f1 & F1 & Hb & _ & _ & _ & _ & Hn). rewrite H in Hb. injection Hb as <-. apply nth_error_Some. congruence.
Qed.
(** when it succeeds *)
Lemma divided_lives F resp nd W : lives_on F nd W -> lives_on (divided F resp) nd W.
Proof. intros (Cf & Nf & B & U & Ug & Wb). split; [destruct Cf; split; assumption|]. split; [exact Nf|]. exists B, U. auto. Qed.
Lemma epoch_total c spl lin omega dt al el p nd W fields s : linear_spline spl -> (p < 3)%nat -> (0 < nd)%nat -> NoDup (map fst fields) -> distinct fields s -> all_wellformed fields s -> given IFourier el p nd W fields s ->
  exists s' a', kspace_epoch_like c spl lin None omega dt al (comp el p) fields s = (s', Ok a').
Proof.
  intros Sp Hp Pn N Di Wf ((a & f & Ha & Hf & Lf) & H). destruct (epoch_reduces c spl lin omega dt al el p fields s a Sp Hp N Di Wf Ha) as (s3 & d3 & touched & resp & E & Di3 & V3). rewrite E.
  apply (kspace_total spl lin (omega_free c) IFourier el p nd W d3 s3 Sp); [discriminate|exact Hp|exact Pn|exact Di3|]. split.
  - specialize (V3 (comp el p)). unfold scaled_dict in V3. rewrite Ha in V3. destruct V3 as (b & f' & F & Hb & Hf' & EF & WF & AF & Hn). rewrite Hf in Hf'. injection Hf' as <-.
    destruct (ensure_lives spl f nd W Sp Pn Lf) as (F' & EF' & LF & _). rewrite EF in EF'. injection EF' as <-. exists b. eexists. split; [exact Hb|]. split; [exact Hn|]. destruct (touched (comp el p)); [now apply divided_lives|exact LF].
  - intros key I. destruct (H key I) as (b0 & g & V & Hb0 & Hg & Lg & Cp & Or). specialize (V3 key). unfold scaled_dict in V3. rewrite Hb0 in V3. destruct V3 as (b & f' & F & Hb & Hf' & EF & WF & AF & Hn). rewrite Hg in Hf'. injection Hf' as <-.
    destruct (ensure_lives spl g nd V Sp Pn Lg) as (F' & EF' & LF & _ & _ & Kn). rewrite EF in EF'. injection EF' as <-. exists b. eexists. exists V. split; [exact Hb|]. split; [exact Hn|]. split; [destruct (touched key); [now apply divided_lives|exact LF]|]. split; [exact Cp|].
    intros _. apply known_all. specialize (Kn (Or eq_refl)). assert (Nd : ndim F = nd) by apply LF. intros j Lj. destruct (touched key); [change (ndim (divided F resp)) with (ndim F) in Lj; change (rf_tao (divided F resp)) with (rf_tao F)|]; apply Kn; lia.
Qed.
Lemma wave1_names ey bz st : NoDup (map fst names1) /\ distinct names1 (wave1 st ey bz) /\ all_wellformed names1 (wave1 st ey bz) /\ given IFourier true 1 1 (place1 st) names1 (wave1 st ey bz).
Proof. split; [repeat constructor; cbn; intuition discriminate|]. split; [apply wave1_distinct|]. split; [apply wave1_wf|]. apply wave1_given. left; split; reflexivity. Qed.
(** the parts are those of the earlier example *)
Lemma epoch4_runs : exists s' a', kspace_epoch_like 1 line_spline (fun f _ => Ok f) (Some first_two) (omega_free 1) 0 "B"%char (comp true 1) names1 (wave4 C1 C1) = (s', Ok a').
Proof.
  assert (G := wave1_given IFourier true 1 false C1 C1 (or_introl (conj eq_refl eq_refl))). destruct (epoch_total 1 line_spline (fun f _ => Ok f) (omega_free 1) 0 "B"%char true 1 1 (place1 false) [("Ey"%string, 2%nat); ("Bz"%string, 3%nat)] (wave4 C1 C1 ++ wave1 false C1 C1)) as (s' & a' & E).
  - exact line_spline_ok.
  - lia.
  - lia.
  - repeat constructor; cbn; intuition discriminate.
  - split.
    + intros k j c. cbn [dget]. destruct (String.eqb_spec "Ey" k) as [<-|], (String.eqb_spec "Ey" j) as [<-|]; try (destruct (String.eqb_spec "Bz" k) as [<-|]); try (destruct (String.eqb_spec "Bz" j) as [<-|]); intros; congruence.
    + intros k c. cbn [dget]. destruct (String.eqb "Ey" k); [|destruct (String.eqb "Bz" k); [|discriminate]]; intros [= <-]; cbn; lia.
  - intros k b g Hb Hg. cbn [dget] in Hb. destruct (String.eqb "Ey" k); [|destruct (String.eqb "Bz" k); [|discriminate]]; injection Hb as <-; cbn in Hg; injection Hg as <-; apply field1_wf.
  - destruct G as [(a & f & A1 & A2 & A3) B]. split.
    + exists 2%nat, f. cbn in A1. injection A1 as <-. split; [reflexivity|]. split; [exact A2|exact A3].
    + intros key I. destruct (B key I) as (b & g & V & B1 & B2 & B3). cbn in I. destruct I as [<-|[]]. exists 3%nat, g, V. cbn in B1. injection B1 as <-. split; [reflexivity|]. split; [exact B2|exact B3].
  - exists s', a'. rewrite <- E. reflexivity.
Qed.
