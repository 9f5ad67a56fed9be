(** Which fields and arguments kspace and kspace_propagate accept: C88. *)
From Coq Require Import Reals String Ascii List ZArith Lia Lra.
From Verif Require Import PyBase NumpyModel NdModel FieldModel CplxModel CplxFacts FftModel FftSpec FftAxes FftFacts FftDemo KspaceModel KspaceSpec KspaceTotal KspaceProp KspaceFrame KspaceFacts KspaceDemo KspaceCutSpec KspaceLinSpec KspaceLin KspaceMatchSpec KspaceMatch KspaceRefuse KspacePartSpec KspaceMatchLin KspacePart.
Import ListNotations.
Local Open Scope R_scope.

(** when all fields which are needed are there, kspace succeeds if their grids fit and raises
    ValueError if one of them does not, whichever domain each axis of each field is in *)
(** Full statement: every dictionary.  Fields which are not there and unknown origins with Fourier interpolation raise other errors (C86_alone_refuted, C88_origin_refuted).  Missing: one object under several names. *)
Theorem C88_kspace_partial : forall spl lin omega ip el p P G fields s, linear_spline spl -> (p < 3)%nat -> (0 < pl_nd P <= 3)%nat -> distinct fields s -> placed ip el p P G fields s -> (ip = ILinear -> movable spl lin el p P G fields s) ->
  let fit := forall key, In key (tl (needed el p (pl_nd P))) -> fits ip P (G key) in
  (fit -> exists s' a', kspace spl lin None omega ip (comp el p) fields s = (s', Ok a')) /\ (~ fit -> exists s', kspace spl lin None omega ip (comp el p) fields s = (s', Err ValueError)).
Proof. exact decides. Qed.
Print Assumptions C88_kspace_partial.
(** Ey at 1, 4 and Bz at x, x + 3 *)
Example C88_kspace_case : forall x, let G := fun _ : string => mkplace 1 (fun _ => mkuni 2 x 3) in
  let s := [field1 "x" "m" grid1 false None (fun _ => C1); field1 "x" "m" (mkuni 2 x 3) false None (fun _ => C1)] in
  distinct names1 s /\ (forall ip, placed ip true 1 (mkplace 1 (fun _ => grid1)) G names1 s) /\ movable line_spline to_grid1 true 1 (mkplace 1 (fun _ => grid1)) G names1 s /\
  (fits IFourier (mkplace 1 (fun _ => grid1)) (G "Bz"%string) <-> -5 < x < 7) /\ tl (needed true 1 1) = ["Bz"%string].
Proof.
  intros x G s. split.
  { destruct (wave1_distinct false C1 C1) as [A B]. split; [exact A|]. intros k a K. exact (B k a K). }
  assert (Lv : forall u data, proper u -> lives_on (field1 "x" "m" u false None data) 1 (fun _ => u)).
  { intros u data P. destruct (field1_ok "x" "m" u false None data P) as (A1 & A2 & A3). apply (whole_lives false _ 1 (fun _ => u)); [exact A1|reflexivity|exact A2|exact A3|]. intros; reflexivity. }
  assert (P2 : proper (mkuni 2 x 3)) by (split; cbn; [lia|lra]).
  split; [|split; [|split; [|reflexivity]]].
  - intro ip. split; [exists 0%nat; eexists; split; [reflexivity|]; split; [reflexivity|exact (Lv grid1 _ grid1_proper)]|].
    intros key [<-|[]]. exists 1%nat. eexists. split; [reflexivity|]. split; [reflexivity|]. split; [cbn; lia|]. split; [exact (Lv _ _ P2)|]. intros _. apply known_space. exact (proj2 (proj2 (field1_ok "x" "m" _ false None _ P2))).
  - intros key a f [<-|[]] [= <-] [= <-] _. destruct (field1_wf false (Some 0) (fun _ => C1)) as [Wh _]. destruct (ensure_wf line_spline _ true line_spline_ok Wh) as (H & EH & _). exists H. eexists. eexists.
    split; [apply in_domain_ensure; reflexivity|]. split; [reflexivity|]. split; [exact Wh|exact EH].
  - unfold fits, close_to, extent. cbn [G pl_nd pl_at grid1 u_n u_x0 u_dx]. split.
    + intros (_ & H). destruct (H 0%nat ltac:(lia)) as (_ & _ & K). apply Rabs_def2 in K. lra.
    + intro H. split; [reflexivity|]. intros a L. split; [reflexivity|]. split; [rewrite Rminus_diag_eq, Rabs_R0 by reflexivity; assert (K := Rabs_pos (INR (2 - 1) * 3)); lra|]. apply Rabs_def1; lra.
Qed.
(** fields with one axis in space and one in the frequency domain *)
Example C88_mixed_case : forall ip, distinct names1 mixed2 /\ placed ip true 1 (mkplace 2 place2) (fun _ => mkplace 2 place2) names1 mixed2 /\ ~ (exists b, all_in b (field2 false true)) /\ fits ip (mkplace 2 place2) (mkplace 2 place2).
Proof.
  intro ip. destruct mixed_lives as (L & N & O). split; [exact mixed_distinct|]. destruct (mixed_given ip) as (M & H). split; [|split].
  - split; [exact M|]. intros key I. destruct (H key I) as (a & f & V & Ha & Hf & _). assert (f = field2 false true) by (cbn in I; destruct I as [<-|[]]; cbn in Ha; injection Ha as <-; injection Hf as <-; reflexivity). subst f. exists a, (field2 false true). cbn [pl_nd pl_at]. auto 8 with arith.
  - exact N.
  - split; [reflexivity|]. intros a La. split; [reflexivity|]. cbn [pl_nd pl_at] in *. assert (P := proj1 (lives_proper _ _ _ L a La)). destruct P as [_ P].
    assert (Z0 : forall x, close_to x x) by (intro x; unfold close_to; rewrite Rminus_diag_eq, Rabs_R0 by reflexivity; assert (K := Rabs_pos x); lra). split; [apply Z0|]. destruct ip; [apply Z0| |]; rewrite Rminus_diag_eq, Rabs_R0 by reflexivity; lra.
Qed.
(** the same for a part of the fields, when every field has such a part *)
Theorem C88_extent_partial : forall spl lin ct omega ip el p P G fields s, linear_spline spl -> (p < 3)%nat -> (0 < pl_nd P <= 3)%nat -> parts_placed spl lin ct ip el p P G fields s ->
  let fit := forall key, In key (tl (needed el p (pl_nd P))) -> fits ip P (G key) in
  (fit -> exists s' a', kspace spl lin (Some ct) omega ip (comp el p) fields s = (s', Ok a')) /\ (~ fit -> exists s', kspace spl lin (Some ct) omega ip (comp el p) fields s = (s', Err ValueError)).
Proof. exact part_decides. Qed.
Print Assumptions C88_extent_partial.
(** four points each, of which the first two are used: Ey from 1 on, Bz from x on *)
Example C88_extent_case : forall x, let G := fun _ : string => mkplace 1 (fun _ => mkuni 2 x 3) in
  let ct := fun _ f => match rf_axes f with ax :: _ => Ok (field1 "x" "m" (mkuni 2 (hd 0 (ra_grid ax)) 3) false None (fun i => a_at (rf_data f) [i])) | [] => Err IndexError end in
  let s := [field1 "x" "m" (mkuni 4 1 3) false None (fun _ => C1); field1 "x" "m" (mkuni 4 x 3) false None (fun _ => C1)] in
  parts_placed line_spline (fun f _ => Ok f) ct IFourier true 1 (mkplace 1 (fun _ => grid1)) G names1 s.
Proof.
  intros x G ct s. split; [intros key [<-|[<-|[]]]; eexists; reflexivity|].
  assert (P2 : forall n y, (2 <= n)%nat -> proper (mkuni n y 3)) by (intros n y L; split; cbn; [lia|lra]).
  assert (Wf : forall y, wellformed (field1 "x" "m" (mkuni 4 y 3) false None (fun _ => C1))).
  { intro y. destruct (field1_ok "x" "m" (mkuni 4 y 3) false None (fun _ => C1) (P2 4%nat y ltac:(lia))) as (A1 & A2 & A3). split; [exact A1|]. split; [exists (fun _ => mkuni 4 y 3); exact A2|]. split; [cbn; lia|]. intros a L. exists false. apply A3. change (a < 1)%nat in L. left. lia. }
  assert (Lv : forall y data, lives_on (field1 "x" "m" (mkuni 2 y 3) false None data) 1 (fun _ => mkuni 2 y 3)).
  { intros y data. destruct (field1_ok "x" "m" (mkuni 2 y 3) false None data (P2 2%nat y ltac:(lia))) as (A1 & A2 & A3). apply (whole_lives false _ 1 (fun _ => mkuni 2 y 3)); [exact A1|reflexivity|exact A2|exact A3|]. intros; reflexivity. }
  exists 0%nat. eexists. eexists. split; [reflexivity|]. split; [reflexivity|]. split; [apply in_domain_ensure; reflexivity|].
  intros k a [[= <- <-]|[[= <- <-]|[]]]; eexists; eexists; (split; [reflexivity|]); (split; [apply Wf|]); (split; [eexists; split; [apply in_domain_ensure; reflexivity|reflexivity]|]); split.
  - intros _. replace (hd 0 (ra_grid (mkra "x" "m" (grid_of (mkuni 4 1 3)) (node_of (mkuni 4 1 3))))) with 1 by (cbn; unfold point; cbn; ring). exact (Lv 1 _).
  - intros [D|[]]; discriminate D.
  - discriminate.
  - intros _. replace (hd 0 (ra_grid (mkra "x" "m" (grid_of (mkuni 4 x 3)) (node_of (mkuni 4 x 3))))) with x by (cbn; unfold point; cbn; ring). split; [cbn; lia|]. split; [exact (Lv x _)|]. split; [|discriminate].
    intros _. apply known_space. exact (proj2 (proj2 (field1_ok "x" "m" _ false None _ (P2 2%nat x ltac:(lia))))).
Qed.
(** kspace_propagate raises ValueError for a field in a mixture of the two domains, for a vector of
    the wrong length, and for a window or a removal without a vector, as soon as it is needed *)
Theorem C88_propagate : forall c spl p n a s f, linear_spline spl -> wellformed f -> nth_error s a = Some f -> refused p n f -> exists s', kspace_propagate c spl p n a s = (s', Err ValueError).
Proof. exact propagate_refused. Qed.
Print Assumptions C88_propagate.
Example C88_propagate_case : refused (mkpa 1 (Some [1; 0]) None None false) 1 (field1 "x" "m" grid1 false None (fun _ => C1)) /\ refused (mkpa 1 None (Some true) None true) 2 (field1 "x" "m" grid1 false None (fun _ => C1)) /\
  wellformed (field1 "x" "m" grid1 false None (fun _ => C1)).
Proof.
  split; [right; split; [lia|]; right; left; exists [1; 0]; split; [reflexivity|cbn; lia]|]. split; [|apply field1_wf].
  right. split; [lia|]. right. right. right. split; [reflexivity|]. split; [reflexivity|lia].
Qed.
