(** Facts about the texts beside the axes. *)
From Coq Require Import Lia.
From Verif Require Import PyBase PyBaseFacts NumpyModel NdModel NdFacts AxisModel AxisSpec FieldModel FieldSpec FieldIndexFacts HistddModel PlotModel PlotSpec PlotFacts IoSpec IoDemo PlotDemo LabelModel AxLabelModel AxLabelSpec.
Local Open Scope string_scope.


Lemma same_label a b : axis_same a b -> axis_label b = text_of a.
Proof. intros (E1 & E2 & _). unfold axis_label, made_label, text_of. now rewrite E1, E2. Qed.
Lemma labels_squeezed {V} (f g : field V) t : squeezed f g -> (add_axis_labels (f_axes g) t) =
  (match long_axes f with a :: _ => Some (text_of a) | [] => fst t end, match long_axes f with _ :: b :: _ => Some (text_of b) | _ => snd t end).
Proof.
  intros (_ & F & _). unfold add_axis_labels, long_axes. destruct F as [|a a' l l' S F]; [reflexivity|]. rewrite (same_label _ _ S).
  destruct F as [|b b' l l' S2 F]; [reflexivity|]. now rewrite (same_label _ _ S2).
Qed.
Lemma long_axes_length {V} (f : field V) : length (long_axes f) = length (long_dims (f_shape f)).
Proof. unfold long_axes, entries_at. now rewrite map_length. Qed.

Lemma texts_line spl k f t : plain_1d k -> ready f -> FieldSpec.nonempty (f_shape f) -> length (long_dims (f_shape f)) = 1%nat ->
  exists a, long_axes f = [a] /\ texts_1d spl k f t = Ok (Some (text_of a), snd t).
Proof.
  intros K R N L. destruct (squeezed_1d spl f R N L) as (g & n & S & C & E & P & Q).
  destruct (line_drawn spl k f g n K S C E ltac:(lia)) as (ax & y & log & A & D & _).
  pose proof (long_axes_length f) as LL. destruct (long_axes f) as [|a [|]] eqn:LA; cbn in LL; try lia. exists a. split; [reflexivity|].
  unfold texts_1d. rewrite D, S. cbn [bind]. rewrite (labels_squeezed f g t Q), LA. reflexivity.
Qed.
Lemma texts_image spl k f t ds : ready f -> FieldSpec.nonempty (f_shape f) -> draw_2d spl k f = Ok ds -> (length (long_dims (f_shape f)) <= 3)%nat ->
  exists a b r, long_axes f = a :: b :: r /\ texts_2d spl k f t = Ok (Some (text_of a), Some (text_of b)).
Proof.
  intros (C & P & I) N D L. destruct (squeeze_total spl f C P I N L) as (g & S & Q & Cg & _).
  assert (B : (2 <= length (long_axes f))%nat).
  { rewrite long_axes_length. pose proof Q as (Q1 & _). unfold draw_2d in D. rewrite S in D. cbn [bind] in D.
    assert (H : length (f_shape g) = length (long_dims (f_shape f))) by (rewrite Q1; unfold entries_at; now rewrite map_length).
    destruct ((dims (f_shape g) =? 2)%Z || is_color (f_shape g)) eqn:G; [|discriminate]. rewrite <- H.
    apply Bool.orb_true_iff in G as [G|G]; [apply Z.eqb_eq in G; unfold dims in G; destruct (zprod (f_shape g) =? 0)%Z; lia|].
    unfold is_color in G. apply Bool.andb_true_iff in G as [G _]. apply Z.eqb_eq in G. unfold dims in G; destruct (zprod (f_shape g) =? 0)%Z; lia. }
  destruct (long_axes f) as [|a [|b r]] eqn:LA; cbn in B; try lia. exists a, b, r. split; [reflexivity|].
  unfold texts_2d. rewrite D, S. cbn [bind]. rewrite (labels_squeezed f g t Q), LA. reflexivity.
Qed.
Lemma ready_line_dims f : line_field f -> (dims (f_shape f) <=? 0)%Z = false.
Proof.
  intros (R & N & L). unfold dims. destruct (Z.eqb_spec (zprod (f_shape f)) 0) as [E|E].
  - exfalso. revert E. unfold FieldSpec.nonempty in N. clear - N. induction (f_shape f) as [|n sh IH]; cbn; [discriminate|]. inversion N as [|? ? H1 H2]; subst. specialize (IH H2). unfold zprod in IH. lia.
  - apply Z.leb_gt. unfold long_dims in L. destruct (f_shape f); [discriminate|cbn [length]; lia].
Qed.
Lemma texts_lines spl k fs f t : plain_1d k -> Forall line_field (fs ++ [f]) -> exists a, long_axes f = [a] /\ texts_fields spl k (fs ++ [f]) t = Ok (Some (text_of a), snd t).
Proof.
  intros K. revert t. induction fs as [|h fs IH]; intros t F; cbn [app texts_fields] in *; inversion F as [|? ? A B]; subst; rewrite (ready_line_dims _ A); destruct A as (A1 & A2 & A3).
  - destruct (texts_line spl k f t K A1 A2 A3) as (a & LA & T). exists a. split; [exact LA|]. rewrite T. reflexivity.
  - destruct (texts_line spl k h t K A1 A2 A3) as (a & LA & T). rewrite T. cbn [bind]. exact (IH _ B).
Qed.
Lemma lines_refuted : exists f g a b, line_field f /\ line_field g /\ long_axes f = [a] /\ long_axes g = [b] /\ text_of a <> text_of b /\
  forall t, texts_fields chord_spline no_kwargs [f; g] t = Ok (Some (text_of b), snd t).
Proof.
  exists (demo_field [up3 "x"]), (demo_field [up3 "y"]), (up3 "x"), (up3 "y").
  assert (L : forall nm, line_field (demo_field [up3 nm])) by (intro nm; split; [apply single_ready, up3_proper|split; [repeat constructor|reflexivity]]).
  split; [apply L|]. split; [apply L|]. split; [reflexivity|]. split; [reflexivity|]. split; [discriminate|]. intro t.
  destruct (texts_lines chord_spline no_kwargs [demo_field [up3 "x"]] (demo_field [up3 "y"]) t) as (a & A & T); [repeat split|cbn [app]; apply Forall_cons; [apply L|apply Forall_cons; [apply L|apply Forall_nil]]|]. injection A as <-. exact T.
Qed.
Lemma fits_line spl k f t : fits spl (AddLine k f) -> exists a, long_axes f = [a] /\ do_ax_call spl (AddLine k f) t = Ok (Some (text_of a), snd t).
Proof. intros (K & R & N & L). exact (texts_line spl k f t K R N L). Qed.
Lemma fits_image spl k f t : fits spl (AddImage k f) -> exists a b r, long_axes f = a :: b :: r /\ do_ax_call spl (AddImage k f) t = Ok (Some (text_of a), Some (text_of b)).
Proof. intros (R & N & L & ds & D). exact (texts_image spl k f t ds R N D L). Qed.
Lemma ax_run_app spl l m t : ax_run spl (l ++ m) t = (let! u := ax_run spl l t in ax_run spl m u).
Proof. revert t. induction l as [|c l IH]; intro t; cbn [app ax_run]; [reflexivity|]. destruct (do_ax_call spl c t) as [u|e]; cbn [bind]; [apply IH|reflexivity]. Qed.
Lemma ax_run_ok spl l t : Forall (fits spl) l -> exists u, ax_run spl l t = Ok u.
Proof.
  intro F. revert t. induction F as [|c l A F IH]; intro t; cbn [ax_run]; [eauto|]. destruct c as [k f|k f].
  - destruct (fits_line spl k f t A) as (a & _ & E). rewrite E. cbn [bind]. apply IH.
  - destruct (fits_image spl k f t A) as (a & b & r & _ & E). rewrite E. cbn [bind]. apply IH.
Qed.
Lemma ax_run_lines spl l t : Forall (fits spl) l -> Forall (fun c => match c with AddLine _ _ => True | AddImage _ _ => False end) l -> exists x, ax_run spl l t = Ok (x, snd t).
Proof.
  intros F G. revert t. induction F as [|c l A F IH]; intro t; cbn [ax_run]; [exists (fst t); now destruct t|]. inversion G as [|? ? G1 G2]; subst. destruct c as [k f|k f]; [|contradiction].
  destruct (fits_line spl k f t A) as (a & _ & E). rewrite E. cbn [bind]. destruct (IH G2 (Some (text_of a), snd t)) as (x & X). exists x. exact X.
Qed.
Lemma run_horizontal spl l c t : Forall (fits spl) (l ++ [c]) -> exists a r y, long_axes (call_field c) = a :: r /\ ax_run spl (l ++ [c]) t = Ok (Some (text_of a), y).
Proof.
  intro F. apply Forall_app in F as [F1 F2]. inversion F2 as [|? ? A _]; subst. destruct (ax_run_ok spl l t F1) as (u & U). rewrite ax_run_app, U. cbn [bind ax_run call_field]. destruct c as [k f|k f].
  - destruct (fits_line spl k f u A) as (a & L & E). exists a, [], (snd u). rewrite E. now split.
  - destruct (fits_image spl k f u A) as (a & b & r & L & E). exists a, (b :: r), (Some (text_of b)). rewrite E. now split.
Qed.
Lemma run_vertical spl l k f m t : Forall (fits spl) (l ++ AddImage k f :: m) -> Forall (fun c => match c with AddLine _ _ => True | AddImage _ _ => False end) m ->
  exists a b r x, long_axes f = a :: b :: r /\ ax_run spl (l ++ AddImage k f :: m) t = Ok (x, Some (text_of b)).
Proof.
  intros F G. apply Forall_app in F as [F1 F2]. inversion F2 as [|? ? A F3]; subst. destruct (ax_run_ok spl l t F1) as (u & U). rewrite ax_run_app, U. cbn [bind ax_run].
  destruct (fits_image spl k f u A) as (a & b & r & L & E). rewrite E. cbn [bind]. destruct (ax_run_lines spl m (Some (text_of a), Some (text_of b)) F3 G) as (x & X). exists a, b, r, x. now split.
Qed.
Lemma run_case : let l := [AddLine no_kwargs (demo_field [up3 "t"]); AddImage no_kwargs (demo_field [up3 "x"; up3 "y"]); AddLine no_kwargs (demo_field [one_cell "x"; up3 "z"])] in
  Forall (fits chord_spline) l /\ ax_run chord_spline l (None, None) = Ok (Some "z [m]", Some "y [m]").
Proof.
  cbv zeta. split; [|vm_compute; reflexivity]. apply Forall_cons; [|apply Forall_cons; [|apply Forall_cons; [|apply Forall_nil]]].
  - split; [repeat split|]. split; [apply single_ready, up3_proper|]. split; [repeat constructor|reflexivity].
  - split; [apply pair_ready; apply up3_proper|]. split; [repeat constructor|]. split; [cbn; lia|]. eexists. vm_compute. reflexivity.
  - split; [repeat split|]. split; [apply pair_ready; [apply one_cell_proper|apply up3_proper]|]. split; [repeat constructor|reflexivity].
Qed.
