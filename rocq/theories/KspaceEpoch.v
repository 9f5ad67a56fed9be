(** What kspace_epoch_like computes. *)
From Coq Require Import Reals String Ascii List ZArith Lia Lra Bool FunctionalExtensionality.
From Verif Require Import PyBase PyBaseFacts NumpyModel NdModel NdFacts FieldModel CplxModel CplxFacts FftModel FftSpec FftAxes FftKernel FftFacts FftLaws FftMore FftShift FftDemo KspaceModel KspaceSpec KspaceFrame KspaceFacts KspaceTotal KspaceWave KspaceProp KspaceDemo.
Import ListNotations.
Local Open Scope R_scope.

Section Place.
Variable h : string * nat -> option rfield.
Fixpoint place (d : dict) (n : nat) : dict :=
  match d with [] => [] | p :: r => match h p with None => p :: place r n | Some _ => (fst p, n) :: place r (S n) end end.
Definition news (d : dict) : store := flat_map (fun p => match h p with Some x => [x] | None => [] end) d.
Lemma sfor_place (g : string * nat -> ST (string * nat)) (s : store) : forall d, (forall p l, In p d -> g p (s ++ l) = match h p with None => (s ++ l, Ok p) | Some x => (s ++ (l ++ [x]), Ok (fst p, length (s ++ l))) end) ->
  forall l, sfor g d (s ++ l) = (s ++ (l ++ news d), Ok (place d (length (s ++ l)))).
Proof.
  induction d as [|p d IH]; intros G l; cbn [sfor place news flat_map]; [unfold sret; now rewrite app_nil_r|].
  unfold sbind at 1. rewrite G by now left. destruct (h p) as [x|]; unfold sbind; (rewrite IH; [|intros; apply G; now right]); unfold sret; cbn [app].
  - rewrite <- app_assoc. cbn [app]. do 4 f_equal. rewrite !app_length. cbn [length]. lia.
  - reflexivity.
Qed.
Lemma place_none : forall d k n, dget d k = None -> dget (place d n) k = None.
Proof.
  induction d as [|[j a] d IH]; intros k n; [reflexivity|]. cbn [dget place]. destruct (String.eqb j k) eqn:E; [discriminate|]. intro H. destruct (h (j, a)); cbn [dget fst]; rewrite E; now apply IH.
Qed.
Lemma place_some : forall d k a n, dget d k = Some a -> exists b, dget (place d n) k = Some b /\ match h (k, a) with None => b = a | Some x => (n <= b)%nat /\ nth_error (news d) (b - n) = Some x end.
Proof.
  induction d as [|[j a'] d IH]; intros k a n; [discriminate|]. cbn [dget place]. destruct (String.eqb j k) eqn:E.
  - intros [= ->]. apply String.eqb_eq in E. subst j. unfold news. cbn [flat_map]. destruct (h (k, a)) as [x|] eqn:Hh; cbn [dget fst]; rewrite String.eqb_refl; eexists; (split; [reflexivity|]); [|reflexivity]. split; [lia|]. rewrite Nat.sub_diag. reflexivity.
  - intro H. unfold news. cbn [flat_map]. destruct (h (j, a')) as [x|]; cbn [dget fst]; rewrite E.
    + destruct (IH k a (S n) H) as (b & Hb & V). exists b. split; [exact Hb|]. destruct (h (k, a)); [|exact V]. destruct V as [V1 V2]. split; [lia|]. replace (b - n)%nat with (S (b - S n)) by lia. exact V2.
    + destruct (IH k a n H) as (b & Hb & V). exists b. split; [exact Hb|]. exact V.
Qed.
Lemma place_bound : forall d k b n, (forall p, In p d -> (snd p < n)%nat) -> dget (place d n) k = Some b -> (n <= b)%nat \/ dget d k = Some b.
Proof.
  induction d as [|[j a] d IH]; intros k b n B; [discriminate|]. cbn [dget place]. destruct (h (j, a)); cbn [dget fst]; destruct (String.eqb j k) eqn:E.
  - intros [= <-]. left. lia.
  - intro H. destruct (IH k b (S n)) as [L|L]; [intros p I; specialize (B p (or_intror I)); lia|exact H|left; lia|now right].
  - intros [= ->]. now right.
  - intro H. apply (IH k b n); [intros p I; apply B; now right|exact H].
Qed.
Lemma place_inj : forall d k1 k2 b n, (forall p, In p d -> (snd p < n)%nat) -> (n <= b)%nat -> dget (place d n) k1 = Some b -> dget (place d n) k2 = Some b -> k1 = k2.
Proof.
  assert (In_dget : forall d k a, dget d k = Some a -> In (k, a) d).
  { induction d as [|[j a'] d IH]; intros k a; [discriminate|]. cbn. destruct (String.eqb j k) eqn:E; [intros [= ->]; apply String.eqb_eq in E; subst; now left|intro; right; now apply IH]. }
  induction d as [|[j a] d IH]; intros k1 k2 b n B L; [discriminate|]. cbn [dget place].
  assert (B' : forall m, (n <= m)%nat -> forall p, In p d -> (snd p < m)%nat) by (intros m Lm p I; specialize (B p (or_intror I)); lia).
  destruct (h (j, a)); cbn [dget fst]; destruct (String.eqb j k1) eqn:E1, (String.eqb j k2) eqn:E2; try apply String.eqb_eq in E1; try apply String.eqb_eq in E2; try congruence.
  - intros [= <-] H. destruct (place_bound d k2 n (S n) (B' (S n) (Nat.le_succ_diag_r n)) H) as [X|X]; [lia|]. apply In_dget, (B' n (le_n n)) in X. cbn in X. lia.
  - intros H [= <-]. destruct (place_bound d k1 n (S n) (B' (S n) (Nat.le_succ_diag_r n)) H) as [X|X]; [lia|]. apply In_dget, (B' n (le_n n)) in X. cbn in X. lia.
  - intros H1 H2. destruct (Nat.eq_dec b n) as [->|Nb].
    + destruct (place_bound d k1 n (S n) (B' (S n) (Nat.le_succ_diag_r n)) H1) as [X|X]; [lia|]. apply In_dget, (B' n (le_n n)) in X. cbn in X. lia.
    + apply (IH k1 k2 b (S n)); [apply B'; lia|lia|exact H1|exact H2].
  - intros [= ->] _. specialize (B (j, b) (or_introl eq_refl)). cbn in B. lia.
  - intros _ [= ->]. specialize (B (j, b) (or_introl eq_refl)). cbn in B. lia.
  - intros H1 H2. apply (IH k1 k2 b n); [apply B'; lia|lia|exact H1|exact H2].
Qed.
End Place.
Lemma in_dget d k a : dget d k = Some a -> In (k, a) d.
Proof. induction d as [|[j a'] d IH]; [discriminate|]. cbn. destruct (String.eqb j k) eqn:E; [intros [= ->]; apply String.eqb_eq in E; subst; now left|intro; right; now apply IH]. Qed.
Lemma dget_in d k a : NoDup (map fst d) -> In (k, a) d -> dget d k = Some a.
Proof.
  induction d as [|[j a'] d IH]; [now intros _ []|]. cbn [map fst]. intros N [[= -> ->]|I]; cbn [dget]; [now rewrite String.eqb_refl|]. inversion N as [|? ? N1 N2]; subst. destruct (String.eqb j k) eqn:E; [|now apply IH]. apply String.eqb_eq in E. subst. elim N1. now apply (in_map fst) in I.
Qed.
(** the dictionary in the frequency domain *)
Definition freq_of (spl : rspline) (s : store) (p : string * nat) : option rfield :=
  match nth_error s (snd p) with
  | Some f => match in_domain f true with Ok true => None | _ => match ensure_domain spl f true with Ok F => Some F | Err _ => None end end
  | None => None
  end.
Lemma dmap_freq spl fields s : linear_spline spl -> NoDup (map fst fields) -> distinct fields s -> all_wellformed fields s ->
  dmap (ensure_at spl true) fields s = (s ++ news (freq_of spl s) fields, Ok (place (freq_of spl s) fields (length s))).
Proof.
  intros Sp N [_ Di] Wf. unfold dmap. assert (E := sfor_place (freq_of spl s) (fun p => st! a := ensure_at spl true (snd p) in sret (fst p, a)) s fields). specialize (fun H => E H []). cbn [app] in E. rewrite !app_nil_r in E. apply E. clear E.
  intros [k a] l I. apply dget_in in I; [|exact N]. assert (La := Di k a I). cbn [snd fst]. destruct (nth_error s a) as [f|] eqn:Hf; [|apply nth_error_None in Hf; lia].
  assert (Wfl := Wf k a f I Hf). destruct (ensure_wf spl f true Sp Wfl) as (F & EF & _). unfold freq_of. cbn [snd]. rewrite Hf.
  unfold sbind at 1, ensure_at, sbind at 1, load. rewrite nth_error_app1, Hf by exact La. unfold sbind at 1, lift at 1. destruct (in_domain_ok f true Wfl) as [b [Eb _]]. rewrite Eb. destruct b; [reflexivity|]. unfold sbind, lift. rewrite EF. unfold alloc, sret. now rewrite <- app_assoc.
Qed.
Lemma place_fst h : forall d n, map fst (place h d n) = map fst d.
Proof. induction d as [|p d IH]; intro n; [reflexivity|]. cbn [place]. destruct (h p); cbn [map fst]; now rewrite IH. Qed.
Definition in_freq (spl : rspline) (fields : dict) (s : store) (d : dict) (t : store) (key : string) : Prop :=
  match dget fields key with
  | None => dget d key = None
  | Some a => exists b f F, dget d key = Some b /\ nth_error s a = Some f /\ ensure_domain spl f true = Ok F /\ nth_error t b = Some F /\ wellformed F /\ all_in true F
  end.
Lemma freq_dict spl fields s : linear_spline spl -> NoDup (map fst fields) -> distinct fields s -> all_wellformed fields s ->
  exists s2 d2, dmap (ensure_at spl true) fields s = (s2, Ok d2) /\ NoDup (map fst d2) /\ distinct d2 s2 /\ forall key, in_freq spl fields s d2 s2 key.
Proof.
  intros Sp N Di Wf. exists (s ++ news (freq_of spl s) fields), (place (freq_of spl s) fields (length s)). split; [now apply dmap_freq|]. split; [now rewrite place_fst|].
  assert (B : forall p, In p fields -> (snd p < length s)%nat) by (intros [k a] I; apply dget_in in I; [|exact N]; exact (proj2 Di k a I)).
  assert (V : forall key, in_freq spl fields s (place (freq_of spl s) fields (length s)) (s ++ news (freq_of spl s) fields) key).
  { intro key. unfold in_freq. destruct (dget fields key) as [a|] eqn:Hk; [|now apply place_none]. destruct (place_some (freq_of spl s) fields key a (length s) Hk) as (b & Hb & Vb).
    assert (La := proj2 Di key a Hk). destruct (nth_error s a) as [f|] eqn:Hf; [|apply nth_error_None in Hf; lia]. assert (Wfl := Wf key a f Hk Hf). destruct (ensure_wf spl f true Sp Wfl) as (F & EF & WF & AF & _).
    exists b, f, F. split; [exact Hb|]. split; [reflexivity|]. split; [exact EF|]. split; [|split; assumption]. destruct (in_domain_ok f true Wfl) as [r [Er _]]. unfold freq_of in Vb at 1. cbn [snd] in Vb. rewrite Hf, Er in Vb. destruct r.
    - subst b. rewrite nth_error_app1, Hf by exact La. rewrite (in_domain_ensure spl f true Er) in EF. now injection EF as ->.
    - rewrite EF in Vb. destruct Vb as [L Vb]. now rewrite nth_error_app2 by exact L. }
  split; [|exact V]. split.
  - intros k j b H1 H2. destruct (place_bound _ _ _ _ _ B H1) as [L|L].
    + exact (place_inj _ _ _ _ _ _ B L H1 H2).
    + destruct (place_bound _ _ _ _ _ B H2) as [L'|L']; [exact (place_inj _ _ _ _ _ _ B L' H1 H2)|]. exact (proj1 Di k j b L L').
  - intros k b H. specialize (V k). unfold in_freq in V. destruct (dget fields k) as [a|]; [|congruence]. destruct V as (b' & f & F & Hb & _ & _ & Hn & _). rewrite H in Hb. injection Hb as <-. apply nth_error_Some. congruence.
Qed.
Lemma divided_wf F resp : wellformed F -> all_in true F -> wellformed (divided F resp) /\ all_in true (divided F resp).
Proof. intros (C & (U & G) & P & Hb) A. split; [|exact A]. split; [destruct C; split; assumption|]. split; [exists U; exact G|]. split; [exact P|exact Hb]. Qed.
Lemma dset_other d k a j : j <> k -> dget (dset d k a) j = dget d j.
Proof.
  intro N. induction d as [|[i b] d IH]; cbn [dset dget]; [destruct (String.eqb k j) eqn:E; [apply String.eqb_eq in E; congruence|reflexivity]|].
  destruct (String.eqb i k) eqn:E; cbn [dget]; [apply String.eqb_eq in E; subst; assert (E2 : String.eqb k j = false) by (apply String.eqb_neq; congruence); now rewrite E2|]. destruct (String.eqb i j); [reflexivity|exact IH].
Qed.
(** the dictionary handed to kspace *)
Definition scaled_dict (spl : rspline) (fields : dict) (s : store) (touched : string -> bool) (resp : list Z -> R) (d : dict) (t : store) (key : string) : Prop :=
  match dget fields key with
  | None => dget d key = None
  | Some a => exists b f F, dget d key = Some b /\ nth_error s a = Some f /\ ensure_domain spl f true = Ok F /\ wellformed F /\ all_in true F /\ nth_error t b = Some (if touched key then divided F resp else F)
  end.
Lemma scaled_wf spl fields s touched resp d t : (forall key, scaled_dict spl fields s touched resp d t key) -> all_wellformed d t.
Proof.
  intros H k b g Hk Hg. specialize (H k). unfold scaled_dict in H. destruct (dget fields k); [|congruence]. destruct H as (b' & f & F & Hb & _ & _ & WF & AF & Hn). rewrite Hk in Hb. injection Hb as <-. rewrite Hg in Hn. injection Hn as ->. destruct (touched k); [now apply divided_wf|exact WF].
Qed.
Lemma scaled_spectrum spl fields s touched resp d t key idx : scaled_dict spl fields s touched resp d t key ->
  spectrum spl t d key idx = Cmul (RtoC (if touched key then / resp idx else 1)) (spectrum spl s fields key idx).
Proof.
  intro H. unfold scaled_dict in H. unfold spectrum. destruct (dget fields key) as [a|].
  - destruct H as (b & f & F & Hb & Hf & EF & WF & AF & Hn). rewrite Hb, Hn, Hf, EF. destruct (touched key).
    + destruct (divided_wf F resp WF AF) as [W1 A1]. rewrite (in_domain_ensure spl _ true) by (apply in_domain_wf; assumption). reflexivity.
    + rewrite (in_domain_ensure spl F true) by (apply in_domain_wf; assumption). unfold Cmul, RtoC. cbn. destruct (a_at (rf_data F) idx) as [x y]. cbn. f_equal; ring.
  - rewrite H. unfold Cmul, RtoC, C0. cbn. f_equal; ring.
Qed.
Lemma epoch_value c spl lin omega dt al el p fields s s' a' : linear_spline spl -> (p < 3)%nat -> NoDup (map fst fields) -> distinct fields s -> all_wellformed fields s ->
  kspace_epoch_like c spl lin None omega dt al (comp el p) fields s = (s', Ok a') ->
  exists a f F r, dget fields (comp el p) = Some a /\ nth_error s a = Some f /\ ensure_domain spl f true = Ok F /\ nth_error s' a' = Some r /\
    rf_axes r = rf_axes F /\ rf_ats r = rf_ats F /\ rf_tao r = rf_tao F /\ a_shape (rf_data r) = a_shape (rf_data F) /\
    forall idx, let k := wave_vector (rf_axes F) idx in let resp := Rabs (cos (dt * omega (rf_axes F) idx / 2)) in let same := Ascii.eqb al (if el then "E" else "B")%char in
      a_at (rf_data r) idx = Csub (Cmul (RtoC (if same then / resp else 1)) (spectrum spl s fields (comp el p) idx))
        (Cmul (RtoC (factor el (frequency c (rf_axes F) idx) k)) (cross k (fun i => Cmul (RtoC (if same then 1 else / resp)) (spectrum spl s fields (comp (negb el) i) idx)) p)).
Proof.
  intros Sp Hp N Di Wf E. unfold kspace_epoch_like in E. destruct (comp_shape el p Hp) as (ax & Ec & Ax & Ek).
  assert (Shape : comp el p = String (if el then "E" else "B")%char (String ax "")) by (destruct el; exact Ec). rewrite Shape in E. rewrite <- Shape in E. cbv iota beta in E.
  rewrite Ax in E. unfold sbind at 1, lift at 1 in E. destruct (dget fields (comp el p)) as [a|] eqn:Ha; [|discriminate]. cbn [cut_fields] in E. unfold sbind at 1, sret at 1 in E.
  destruct (freq_dict spl fields s Sp N Di Wf) as (s2 & d2 & E2 & N2 & Di2 & V2). unfold sbind at 1 in E. rewrite E2 in E.
  assert (Vm := V2 (comp el p)). unfold in_freq in Vm. rewrite Ha in Vm. destruct Vm as (m & f & F & Hm & Hf & EF & HF & WF & AF). rewrite Hm in E. unfold sbind at 1, load at 1 in E. rewrite HF in E. cbv zeta in E.
  set (resp := fun idx => lin_response dt (omega (rf_axes F) idx)) in E.
  set (pol := (if el then "E" else "B")%char) in *. 
  set (touched := fun key => if Ascii.eqb pol al then String.eqb key (comp el p) else negb (String.eqb key (comp el p))).
  assert (Fin : exists s3 d3, kspace spl lin None (omega_free c) IFourier (comp el p) d3 s3 = (s', Ok a') /\ distinct d3 s3 /\ forall key, scaled_dict spl fields s touched resp d3 s3 key).
  { assert (B2 : forall q, In q d2 -> (snd q < length s2)%nat) by (intros [k b] I; apply dget_in in I; [|exact N2]; exact (proj2 Di2 k b I)).
    unfold sbind at 1 in E. destruct (Ascii.eqb pol al) eqn:Epa.
    - unfold sbind at 1, sbind at 1, load at 1 in E. rewrite HF in E. unfold alloc at 1, sret at 1 in E. eexists. eexists. split; [exact E|]. split.
      + split; [|intros k b H; destruct (string_dec k (comp el p)) as [->|Nk]; [rewrite dset_get in H; injection H as <-; rewrite app_length; cbn; lia|rewrite dset_other in H by exact Nk; apply (proj2 Di2) in H; rewrite app_length; lia]].
        intros k j b H1 H2. destruct (string_dec k (comp el p)) as [->|Nk], (string_dec j (comp el p)) as [->|Nj]; rewrite ?dset_get, ?dset_other in * by assumption; [reflexivity| | |exact (proj1 Di2 k j b H1 H2)].
        * injection H1 as <-. apply (proj2 Di2) in H2. lia.
        * injection H2 as <-. apply (proj2 Di2) in H1. lia.
      + intro key. specialize (V2 key). unfold in_freq in V2. unfold scaled_dict. unfold touched. destruct (string_dec key (comp el p)) as [->|Nk].
        * rewrite Ha in *. rewrite dset_get, String.eqb_refl. exists (length s2), f, F. rewrite nth_error_app2, Nat.sub_diag by lia. repeat (split; [first [assumption|reflexivity]|]). reflexivity.
        * rewrite dset_other by exact Nk. rewrite (proj2 (String.eqb_neq _ _) Nk). destruct (dget fields key); [|exact V2]. destruct V2 as (b & f1 & F1 & X1 & X2 & X3 & X4 & X5 & X6). exists b, f1, F1. repeat (split; [assumption|]). rewrite nth_error_app1; [exact X4|]. apply nth_error_Some. congruence.
    - set (h := fun q : string * nat => if String.eqb (fst q) (comp el p) then None else option_map (fun g => divided g resp) (nth_error s2 (snd q))).
      assert (Ef := sfor_place h (fun q => if String.eqb (fst q) (comp el p) then sret q else st! a := (st! f := load (snd q) in alloc (divided f resp)) in sret (fst q, a)) s2 d2). specialize (fun H => Ef H []). cbn [app] in Ef. rewrite !app_nil_r in Ef.
      rewrite Ef in E.
      2:{ intros [k b] l I. unfold h. cbn [fst snd]. destruct (String.eqb k (comp el p)); [reflexivity|]. apply B2 in I. cbn in I. unfold sbind, load. rewrite nth_error_app1 by exact I. destruct (nth_error s2 b) as [g|] eqn:Hg; [|apply nth_error_None in Hg; lia]. cbn [option_map]. unfold alloc, sret. now rewrite <- app_assoc. }
      eexists. eexists. split; [exact E|].
      assert (V3 : forall key, scaled_dict spl fields s touched resp (place h d2 (length s2)) (s2 ++ news h d2) key).
      { intro key. specialize (V2 key). unfold in_freq in V2. unfold scaled_dict, touched. destruct (dget fields key) as [b0|]; [|now apply place_none]. destruct V2 as (b & f1 & F1 & X1 & X2 & X3 & X4 & X5 & X6).
        destruct (place_some h d2 key b (length s2) X1) as (b' & Hb' & Vb). exists b', f1, F1. repeat (split; [assumption|]). unfold h in Vb at 1. cbn [fst snd] in Vb. destruct (String.eqb key (comp el p)) eqn:Ek'; cbn [negb].
        - subst b'. rewrite nth_error_app1; [exact X4|]. apply nth_error_Some. congruence.
        - rewrite X4 in Vb. cbn [option_map] in Vb. destruct Vb as [L Vb]. rewrite nth_error_app2 by exact L. exact Vb. }
      split; [|exact V3]. split.
      + intros k j b H1 H2. destruct (place_bound _ _ _ _ _ B2 H1) as [L|L]; [exact (place_inj _ _ _ _ _ _ B2 L H1 H2)|]. destruct (place_bound _ _ _ _ _ B2 H2) as [L'|L']; [exact (place_inj _ _ _ _ _ _ B2 L' H1 H2)|]. exact (proj1 Di2 k j b L L').
      + intros k b H. specialize (V3 k). unfold scaled_dict in V3. destruct (dget fields k); [|congruence]. destruct V3 as (b' & f1 & F1 & Hb & _ & _ & _ & _ & Hn). rewrite H in Hb. injection Hb as <-. apply nth_error_Some. congruence. }
  destruct Fin as (s3 & d3 & E3 & Di3 & V3). assert (W3 := scaled_wf _ _ _ _ _ _ _ V3). assert (NI : IFourier <> ILinear) by discriminate.
  destruct (formula spl lin (omega_free c) IFourier el p d3 s3 s' a' Sp NI Hp Di3 W3 E3) as (a3 & f3 & F3 & r & H3 & Hf3 & EF3 & Hr & X1 & X2 & X3 & X4 & V & _).
  assert (Vm := V3 (comp el p)). unfold scaled_dict in Vm. rewrite Ha in Vm. destruct Vm as (m3 & f' & F' & Hm3 & Hf' & EF' & WF' & AF' & Hn3). rewrite H3 in Hm3. injection Hm3 as <-. rewrite Hf in Hf'. injection Hf' as <-. rewrite EF in EF'. injection EF' as <-. rewrite Hf3 in Hn3. injection Hn3 as ->.
  assert (Same : F3 = if touched (comp el p) then divided F resp else F).
  { destruct (divided_wf F resp WF AF) as [Wd Ad]. rewrite (in_domain_ensure spl _ true) in EF3 by (apply in_domain_wf; destruct (touched (comp el p)); assumption). now injection EF3 as <-. }
  assert (S1 : rf_axes F3 = rf_axes F /\ rf_ats F3 = rf_ats F /\ rf_tao F3 = rf_tao F /\ a_shape (rf_data F3) = a_shape (rf_data F)) by (rewrite Same; destruct (touched (comp el p)); repeat split). destruct S1 as (Y1 & Y2 & Y3 & Y4).
  exists a, f, F, r. split; [reflexivity|]. split; [exact Hf|]. split; [exact EF|]. split; [exact Hr|]. split; [congruence|]. split; [congruence|]. split; [congruence|]. split; [congruence|].
  intros idx k rs same. specialize (V idx). cbv zeta in V. rewrite Y1 in V. fold k in V. rewrite V. assert (Lax : (length (rf_axes F) <= 3)%nat) by (rewrite (c_axes F (proj1 WF)); apply (proj1 WF)).
  rewrite omega_frequency by exact Lax. assert (Es : same = Ascii.eqb pol al) by (unfold same; fold pol; apply Ascii.eqb_sym).
  assert (Er : resp idx = rs) by (unfold resp, rs; apply lin_response_cos). f_equal.
  - rewrite (scaled_spectrum _ _ _ _ _ _ _ _ idx (V3 (comp el p))). unfold touched. rewrite String.eqb_refl, Es, Er. now destruct (Ascii.eqb pol al).
  - f_equal. f_equal. apply functional_extensionality. intro i. rewrite (scaled_spectrum _ _ _ _ _ _ _ _ idx (V3 (comp (negb el) i))). f_equal. f_equal. unfold touched.
    assert (Ne : String.eqb (comp (negb el) i) (comp el p) = false) by (apply String.eqb_neq; destruct el; discriminate). rewrite Ne, Es, Er. now destruct (Ascii.eqb pol al).
Qed.
Lemma epoch_formula c spl lin omega dt al el p fields s s' a' : linear_spline spl -> (p < 3)%nat -> NoDup (map fst fields) -> distinct fields s -> all_wellformed fields s ->
  kspace_epoch_like c spl lin None omega dt al (comp el p) fields s = (s', Ok a') ->
  exists a f F r, dget fields (comp el p) = Some a /\ nth_error s a = Some f /\ ensure_domain spl f true = Ok F /\ nth_error s' a' = Some r /\
    rf_axes r = rf_axes F /\ rf_ats r = rf_ats F /\ rf_tao r = rf_tao F /\ a_shape (rf_data r) = a_shape (rf_data F) /\
    forall idx, let k := wave_vector (rf_axes F) idx in let resp := Rabs (cos (dt * omega (rf_axes F) idx / 2)) in resp <> 0 ->
      a_at (rf_data r) idx = (if Ascii.eqb al (if el then "E" else "B")%char
        then Csub (Cmul (RtoC (/ resp)) (spectrum spl s fields (comp el p) idx)) (Cmul (RtoC (factor el (frequency c (rf_axes F) idx) k)) (cross k (fun i => spectrum spl s fields (comp (negb el) i) idx) p))
        else Csub (spectrum spl s fields (comp el p) idx) (Cmul (RtoC (/ resp * factor el (frequency c (rf_axes F) idx) k)) (cross k (fun i => spectrum spl s fields (comp (negb el) i) idx) p))).
Proof.
  intros Sp Hp N Di Wf E. destruct (epoch_value _ _ _ _ _ _ _ _ _ _ _ _ Sp Hp N Di Wf E) as (a & f & F & r & X1 & X2 & X3 & X4 & X5 & X6 & X7 & X8 & V). exists a, f, F, r. repeat (split; [assumption|]).
  intros idx k resp _. rewrite (V idx). cbv zeta. fold k resp. assert (O : forall z, Cmul (RtoC 1) z = z) by (intros [x y]; unfold Cmul, RtoC; cbn; f_equal; ring). destruct (Ascii.eqb al _).
  - do 2 f_equal. f_equal. apply functional_extensionality. intro. apply O.
  - rewrite O. f_equal. unfold cross. set (u := RtoC (k (turn3 p 1))). set (v := RtoC (k (turn3 p 2))). assert (M : forall x y, RtoC (x * y) = Cmul (RtoC x) (RtoC y)) by (intros; unfold Cmul, RtoC; cbn; f_equal; ring). rewrite M. ring.
Qed.
(** it does return: both fields are in the frequency domain, Bz is divided *)
Lemma epoch_runs ey bz : NoDup (map fst names1) /\ distinct names1 (wave1 true ey bz) /\ all_wellformed names1 (wave1 true ey bz) /\ exists s' a', kspace_epoch_like 1 line_spline (fun f _ => Ok f) None (omega_free 1) 0 "B"%char (comp true 1) names1 (wave1 true ey bz) = (s', Ok a').
Proof.
  split; [repeat constructor; cbn; intuition discriminate|]. split; [apply wave1_distinct|]. split; [apply wave1_wf|].
  set (f0 := field1 "x" "m" grid1 true (Some 0) (fun _ => ey)). set (f1 := field1 "x" "m" grid1 true (Some 0) (fun _ => bz)).
  destruct (field1_wf true (Some 0) (fun _ => ey)) as [W0 A0]. destruct (field1_wf true (Some 0) (fun _ => bz)) as [W1 A1].
  assert (Em : dmap (ensure_at line_spline true) names1 (wave1 true ey bz) = (wave1 true ey bz, Ok names1)).
  { unfold dmap, names1. cbn [sfor snd fst]. unfold ensure_at, sbind, load, lift, sret. change (nth_error (wave1 true ey bz) 0) with (Some f0). change (nth_error (wave1 true ey bz) 1) with (Some f1). cbv iota beta.
    rewrite (proj2 (in_domain_wf f0 true W0) A0). cbv iota beta. change (nth_error (wave1 true ey bz) 1) with (Some f1). cbv iota beta. rewrite (proj2 (in_domain_wf f1 true W1) A1). reflexivity. }
  unfold kspace_epoch_like. change (comp true 1) with (String "E" (String "y" "")). cbv iota beta. change (String "E" (String "y" "")) with (comp true 1).
  assert (Ax : axis_letter "y" = Ok 1%Z) by reflexivity. rewrite Ax. unfold sbind at 1, lift at 1. change (dget names1 (comp true 1)) with (Some 0%nat). cbv iota beta. cbn [cut_fields]. unfold sbind at 1, sret at 1. unfold sbind at 1. rewrite Em. change (dget names1 (comp true 1)) with (Some 0%nat). cbv iota beta.
  unfold sbind at 1, load at 1. change (nth_error (wave1 true ey bz) 0) with (Some f0). cbv iota beta zeta. assert (Ne : Ascii.eqb "E" "B" = false) by reflexivity. rewrite Ne. set (resp := fun idx => lin_response 0 (omega_free 1 (rf_axes f0) idx)).
  unfold sbind at 1. set (s3 := wave1 true ey bz ++ [divided f1 resp]). set (d3 := [("Ey", 0%nat); ("Bz", 2%nat)]%string).
  match goal with |- context [sfor ?g names1 (wave1 true ey bz)] => assert (Es : sfor g names1 (wave1 true ey bz) = (s3, Ok d3)) by reflexivity; rewrite Es end.
  change "Ey"%string with (comp true 1).
  apply (kspace_total line_spline (fun f _ => Ok f) (omega_free 1) IFourier true 1 1 (place1 true)); [exact line_spline_ok|discriminate|lia|lia| |].
  - split.
    + assert (I : forall k b, dget d3 k = Some b -> (k = "Ey"%string /\ b = 0%nat) \/ (k = "Bz"%string /\ b = 2%nat)).
      { intros k b. unfold d3. cbn [dget]. destruct (String.eqb "Ey" k) eqn:K1; [apply String.eqb_eq in K1; intros [= <-]; left; auto|]. destruct (String.eqb "Bz" k) eqn:K2; [apply String.eqb_eq in K2; intros [= <-]; right; auto|discriminate]. }
      intros k j b H1 H2. apply I in H1. apply I in H2. destruct H1 as [[-> ->]|[-> ->]], H2 as [[-> Q]|[-> Q]]; try reflexivity; discriminate Q.
    + intros k b H. change (length s3) with 3%nat. unfold d3 in H. cbn [dget] in H. destruct (String.eqb "Ey" k); [assert (b = 0%nat) by congruence; lia|]. destruct (String.eqb "Bz" k); [assert (b = 2%nat) by congruence; lia|discriminate].
  - assert (G := wave1_given IFourier true 1 true ey bz (or_introl (conj eq_refl eq_refl))). destruct G as [(a & f & Ha & Hf & Lv) G]. split.
    + exists 0%nat, f0. split; [reflexivity|]. split; [reflexivity|]. change (Some 0%nat = Some a) in Ha. injection Ha as <-. change (Some f0 = Some f) in Hf. injection Hf as <-. exact Lv.
    + intros key I. destruct (G key I) as (b & g & V & Hb & Hg & (Cg & Ng & bb & U & Ug & Vb) & Cp & Or). change (In key ["Bz"%string]) in I. destruct I as [<-|[]]. change (Some 1%nat = Some b) in Hb. injection Hb as <-. change (Some f1 = Some g) in Hg. injection Hg as <-.
      exists 2%nat, (divided f1 resp), V. split; [reflexivity|]. split; [reflexivity|]. split; [split; [destruct Cg; split; assumption|]; split; [exact Ng|]; exists bb, U; auto|]. split; [exact Cp|]. intro Q. exact (Or Q).
Qed.
