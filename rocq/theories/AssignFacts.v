(** Lemmas about assigning to a part of a Field. *)
From Coq Require Import QArith Lqa Lia Bool.
From Verif Require Import PyBase PyBaseFacts NumpyModel AxisModel AxisSpec AxisFacts NdModel NdFacts FieldModel FieldSpec FieldReduceFacts FieldInvFacts AssignModel AssignSpec.
Local Open Scope nat_scope.

(** ** shapes *)
Lemma fits_iff s : forall t, fits s t = true <-> forall k, k < length s -> nth k s 1%Z = 1%Z \/ (k < length t /\ nth k s 1%Z = nth k t 1%Z).
Proof.
  induction s as [|n s IH]; intro t; cbn [fits length]; [split; [intros _ k K; lia|reflexivity]|].
  destruct t as [|m t]; rewrite andb_true_iff, IH; split.
  - intros (A & B) [|k] K; [left; now apply Z.eqb_eq|]. cbn [nth]. destruct (B k) as [C|(C & _)]; [lia|auto|cbn in C; lia].
  - intro H. split; [apply Z.eqb_eq; destruct (H 0) as [C|(C & _)]; [lia|exact C|cbn in C; lia]|]. intros k K. destruct (H (S k)) as [C|(C & _)]; [lia|auto|cbn in C; lia].
  - intros (A & B) [|k] K; cbn [nth].
    + apply orb_true_iff in A as [A|A]; apply Z.eqb_eq in A; [right; cbn [length]; split; [lia|exact A]|left; exact A].
    + destruct (B k) as [C|(C & D)]; [lia|auto|right; cbn [length]; split; [lia|exact D]].
  - intro H. split.
    + apply orb_true_iff. rewrite !Z.eqb_eq. destruct (H 0) as [C|(_ & C)]; [lia| |]; cbn [nth] in C; auto.
    + intros k K. destruct (H (S k)) as [C|(C & D)]; [lia|auto|]. cbn [nth length] in *. right. split; [lia|exact D].
Qed.
Lemma source_length s : forall j, length (source s j) = length s.
Proof. induction s as [|n s IH]; intros [|i j]; cbn [source length]; auto. Qed.
Lemma source_nth s : forall j k, k < length s -> nth k (source s j) 0%Z = if (nth k s 1 =? 1)%Z then 0%Z else nth k j 0%Z.
Proof.
  induction s as [|n s IH]; intros j k K; cbn [length] in K; [lia|]. destruct j as [|i j], k as [|k]; cbn [source nth].
  - now destruct (n =? 1)%Z.
  - rewrite IH by lia. destruct k; reflexivity.
  - reflexivity.
  - apply IH. lia.
Qed.
Lemma fits_can s t : fits (rev s) (rev t) = true <-> can_fill s t.
Proof. rewrite fits_iff. unfold can_fill, from_end. rewrite !rev_length. reflexivity. Qed.
Lemma source_filled s j : filled_from s j (rev (source (rev s) (rev j))).
Proof.
  split; [now rewrite rev_length, source_length, rev_length|]. intros k K. rewrite rev_involutive, source_nth by (now rewrite rev_length). reflexivity.
Qed.
Lemma filled_unique s j i i' : filled_from s j i -> filled_from s j i' -> i = i'.
Proof.
  intros (A & B) (A' & B'). rewrite <- (rev_involutive i), <- (rev_involutive i'). f_equal.
  apply (nth_ext _ _ 0%Z 0%Z); rewrite !rev_length; [congruence|]. intros k K. rewrite B, B' by lia. reflexivity.
Qed.
Lemma broadcast_ok {V} (v : nda V) t w : broadcast_to v t = Ok w -> can_fill (a_shape v) t /\ a_shape w = t /\ forall j i, filled_from (a_shape v) j i -> a_at w j = a_at v i.
Proof.
  unfold broadcast_to. destruct (fits _ _) eqn:F; [|discriminate]. intros [= <-]. split; [now apply fits_can|]. split; [reflexivity|].
  intros j i H. cbn [a_at]. f_equal. exact (filled_unique _ _ _ _ (source_filled _ j) H).
Qed.
Lemma broadcast_can {V} (v : nda V) t : can_fill (a_shape v) t -> exists w, broadcast_to v t = Ok w.
Proof. intro H. unfold broadcast_to. rewrite (proj2 (fits_can _ _) H). eauto. Qed.
Lemma broadcast_cannot {V} (v : nda V) t : ~ can_fill (a_shape v) t -> broadcast_to v t = Err ValueError.
Proof. intro H. unfold broadcast_to. destruct (fits _ _) eqn:F; [apply fits_can in F; contradiction|reflexivity]. Qed.

(** ** the places of a part *)
Lemma slice_step sl n a b c : slice_indices sl n = Ok (a, b, c) -> c <> 0%Z.
Proof.
  unfold slice_indices. destruct (Z.eqb_spec (match s_step sl with None => 1%Z | Some s => s end) 0) as [|N]; [discriminate|]. intro H. injection H as <- <- <-. exact N.
Qed.
Definition sound_sel (s : sel) : Prop := match s with SInt _ => True | SRange _ st _ => st <> 0%Z end.
Lemma sels_sound sh : forall ks ss, sels_of sh ks = Ok ss -> Forall sound_sel ss.
Proof.
  induction sh as [|n sh IH]; intros [|k ks] ss E; cbn [sels_of] in E.
  - injection E as <-. constructor.
  - discriminate.
  - injection E as <-. change (Forall sound_sel (map (SRange 0 1) (n :: sh))). apply Forall_map, Forall_forall. intros; cbn; discriminate.
  - apply bind_ok in E as (s & S & E). apply bind_ok in E as (r & R & E). injection E as <-. constructor; [|exact (IH _ _ R)].
    destruct k as [i|sl]; cbn [sel_of] in S.
    + apply bind_ok in S as (p & _ & S). injection S as <-. exact I.
    + apply bind_ok in S as (((a & b) & c) & D & S). injection S as <-. exact (slice_step _ _ _ _ _ D).
Qed.
Lemma place_inj ss : Forall sound_sel ss -> forall j j', in_shape (sel_shape ss) j = true -> in_shape (sel_shape ss) j' = true -> sel_index ss j = sel_index ss j' -> j = j'.
Proof.
  induction 1 as [|s ss S _ IH]; intros j j' A B E.
  - destruct j, j'; try discriminate; reflexivity.
  - destruct s as [i|a st c]; cbn [sel_shape sel_index] in *.
    + injection E as E. exact (IH _ _ A B E).
    + destruct j as [|x j], j' as [|y j']; try discriminate. cbn [in_shape] in *. apply andb_true_iff in A as (_ & A). apply andb_true_iff in B as (_ & B). injection E as E E'. cbn in S. f_equal; [nia|]. exact (IH _ _ A B E').
Qed.

(** ** the loop *)
Lemma writes_other {V} (p : list Z -> list Z) (x : list Z -> V) l : forall d k, (forall j, In j l -> p j <> k) -> fold_left (fun d j => put_one d (p j) (x j)) l d k = d k.
Proof.
  induction l as [|j l IH]; intros d k H; cbn [fold_left]; [reflexivity|]. rewrite IH by (intros; apply H; now right). unfold put_one. destruct (idx_eqb k (p j)) eqn:E; [|reflexivity].
  apply idx_eqb_eq in E. exfalso. exact (H j (or_introl eq_refl) (eq_sym E)).
Qed.
Lemma writes_at {V} (p : list Z -> list Z) (x : list Z -> V) l : (forall j j', In j l -> In j' l -> p j = p j' -> j = j') ->
  forall d j, In j l -> fold_left (fun d j => put_one d (p j) (x j)) l d (p j) = x j.
Proof.
  induction l as [|i l IH]; intros H d j I; [destruct I|]. cbn [fold_left].
  destruct (in_dec (list_eq_dec Z.eq_dec) j l) as [J|J].
  - apply IH; [|exact J]. intros a b A B. apply H; now right.
  - destruct I as [<-|I]; [|contradiction]. rewrite writes_other.
    + unfold put_one. now rewrite idx_eqb_refl.
    + intros a A E. apply J. rewrite <- (H a i (or_intror A) (or_introl eq_refl) E). exact A.
Qed.

(** ** one assignment *)
Lemma np_set_ok {V} (a : nda V) ks v b : np_setitem a ks v = Ok b -> exists t, place_of (a_shape a) ks = Ok t /\ a_shape b = a_shape a /\ can_fill (a_shape v) (a_shape t) /\
  (forall j i, in_shape (a_shape t) j = true -> filled_from (a_shape v) j i -> a_at b (a_at t j) = a_at v i) /\
  (forall i, (forall j, in_shape (a_shape t) j = true -> a_at t j <> i) -> a_at b i = a_at a i) /\
  (forall j j', in_shape (a_shape t) j = true -> in_shape (a_shape t) j' = true -> a_at t j = a_at t j' -> j = j').
Proof.
  unfold np_setitem, place_of, np_getitem. cbn [a_shape a_at]. intro E. apply bind_ok in E as (ss & S & E). apply bind_ok in E as (w & W & E). injection E as <-. rewrite S. cbn [bind]. eexists. split; [reflexivity|]. cbn [a_shape a_at].
  destruct (broadcast_ok _ _ _ W) as (C & _ & F). assert (J := place_inj ss (sels_sound _ _ _ S)).
  split; [reflexivity|]. split; [exact C|]. split; [|split].
  - intros j i I Fi. rewrite writes_at.
    + now apply F.
    + intros x y X Y. apply J; now apply all_idx_In.
    + now apply all_idx_In.
  - intros i H. apply writes_other. intros j I. apply H. now apply all_idx_In.
  - exact J.
Qed.
Lemma np_set_total {V} (a v : nda V) ks t : place_of (a_shape a) ks = Ok t -> can_fill (a_shape v) (a_shape t) -> exists b, np_setitem a ks v = Ok b.
Proof.
  unfold place_of, np_getitem, np_setitem. cbn [a_shape]. intros E C. apply bind_ok in E as (ss & S & E). injection E as <-. cbn [a_shape] in C. rewrite S. cbn [bind]. destruct (broadcast_can v _ C) as (w & ->). cbn [bind]. eauto.
Qed.
Lemma np_set_refused {V} (a v : nda V) ks t : place_of (a_shape a) ks = Ok t -> ~ can_fill (a_shape v) (a_shape t) -> np_setitem a ks v = Err ValueError.
Proof.
  unfold place_of, np_getitem, np_setitem. cbn [a_shape]. intros E C. apply bind_ok in E as (ss & S & E). injection E as <-. cbn [a_shape] in C. rewrite S. cbn [bind]. now rewrite (broadcast_cannot v _ C).
Qed.
Lemma place_get {V} (a : nda V) ks t : place_of (a_shape a) ks = Ok t -> np_getitem a ks = Ok (mkarr (a_shape t) (fun j => a_at a (a_at t j))).
Proof. unfold place_of, np_getitem. cbn [a_shape a_at]. intro E. apply bind_ok in E as (ss & -> & E). injection E as <-. reflexivity. Qed.
Lemma get_place {V} (a b : nda V) ks : np_getitem a ks = Ok b -> exists t, place_of (a_shape a) ks = Ok t /\ b = mkarr (a_shape t) (fun j => a_at a (a_at t j)).
Proof. unfold place_of, np_getitem. cbn [a_shape a_at]. intro E. apply bind_ok in E as (ss & -> & E). injection E as <-. cbn [bind]. eexists. split; reflexivity. Qed.

(** ** Fields *)
Lemma dims_ok axes sh keys sls : length axes = length sh -> normalize_slices axes sh keys = Ok sls -> Z.of_nat (length sls) = dims sh /\ length sls = length sh /\ length keys = length sh.
Proof.
  intros L E. assert (S := normalize_slices_length _ _ _ _ L E). unfold normalize_slices in E. destruct (Z.eqb_spec (Z.of_nat (length keys)) (dims sh)) as [D|]; [|discriminate]. rewrite S. assert (K := dims_length _ _ D). split; [congruence|]. now split.
Qed.
Lemma data_set_eq {V} ls (a v : nda V) sls : Forall (fun l => length (l_axes l) = length (a_shape a)) ls -> Z.of_nat (length sls) = dims (a_shape a) -> data_setitem ls a sls v = np_setitem a sls v.
Proof.
  intros H D. induction H as [|l ls L _ IH]; cbn [data_setitem]; [reflexivity|]. rewrite (proj2 (Z.eqb_eq _ _) D). cbn [negb]. rewrite firstn_all2 by (rewrite L, (dims_length _ _ D); lia). exact IH.
Qed.
Lemma data_get_eq {V W} spl ls (a : nda V) (a' : nda W) sls ls' b : Forall (fun l => length (l_axes l) = length (a_shape a)) ls -> Z.of_nat (length sls) = dims (a_shape a) -> a_shape a' = a_shape a ->
  data_getitem spl ls a sls = Ok (ls', b) -> np_getitem a sls = Ok b /\ exists b', data_getitem spl ls a' sls = Ok (ls', b') /\ np_getitem a' sls = Ok b' /\ a_shape b' = a_shape b.
Proof.
  intros H D Sh. revert ls' b. induction H as [|l ls L _ IH]; intros ls' b E; cbn [data_getitem] in *.
  - apply bind_ok in E as (c & C & E). injection E as <- <-. split; [exact C|]. unfold np_getitem in *. rewrite Sh. apply bind_ok in C as (ss & S & C). injection C as <-. rewrite S. cbn [bind a_shape]. eexists. split; [reflexivity|]. split; reflexivity.
  - rewrite Sh. destruct (negb _); [discriminate|]. rewrite firstn_all2 in * by (rewrite L, (dims_length _ _ D); lia).
    apply bind_ok in E as (subs & S & E). rewrite S. cbn [bind]. apply bind_ok in E as ((inner & c) & G & E). destruct (IH _ _ G) as (N & b' & G' & N' & SB). rewrite G'. cbn [bind].
    apply bind_ok in E as (ax & A & E). rewrite A. cbn [bind]. apply bind_ok in E as (ax' & A' & E). apply bind_ok in E as (ats & T & E). apply bind_ok in E as (tao & O & E). injection E as <- <-.
    split; [exact N|]. exists b'. split; [|split; [exact N'|exact SB]]. rewrite SB, A'. cbn [bind]. rewrite T. cbn [bind]. rewrite O. reflexivity.
Qed.
Lemma counted_all {V} (f : field V) : counted f -> length (f_axes f) = length (f_shape f) /\ Forall (fun l => length (l_axes l) = length (a_shape (f_data f))) (f_inner f) /\ Forall (fun l => length (l_axes l) = length (a_shape (f_data f))) (f_top f :: f_inner f).
Proof. unfold counted, f_axes, f_shape. intro H. split; [exact (Forall_inv H)|]. split; [exact (Forall_inv_tail H)|exact H]. Qed.
Lemma set_np {V} (f g : field V) keys v : counted f -> field_setitem f keys v = Ok g -> exists sls b, normalize_slices (f_axes f) (f_shape f) keys = Ok sls /\ np_setitem (f_data f) sls v = Ok b /\ g = mkField b (f_top f) (f_inner f).
Proof.
  intros C E. destruct (counted_all f C) as (L & I & _). unfold field_setitem in E. apply bind_ok in E as (sls & N & E). apply bind_ok in E as (b & B & E). injection E as <-. exists sls, b. split; [exact N|]. split; [|reflexivity].
  destruct (dims_ok _ _ _ _ L N) as (D & _). now rewrite <- (data_set_eq (f_inner f)).
Qed.
Lemma set_elements {V} (f g : field V) keys v : counted f -> field_setitem f keys v = Ok g -> exists sls t, normalize_slices (f_axes f) (f_shape f) keys = Ok sls /\ place_of (f_shape f) sls = Ok t /\
  f_top g = f_top f /\ f_inner g = f_inner f /\ f_shape g = f_shape f /\ can_fill (a_shape v) (a_shape t) /\
  (forall j i, in_shape (a_shape t) j = true -> filled_from (a_shape v) j i -> a_at (f_data g) (a_at t j) = a_at v i) /\
  (forall i, (forall j, in_shape (a_shape t) j = true -> a_at t j <> i) -> a_at (f_data g) i = a_at (f_data f) i).
Proof.
  intros C E. destruct (set_np _ _ _ _ C E) as (sls & b & N & B & ->). destruct (np_set_ok _ _ _ _ B) as (t & T & S & K & A1 & A2 & _). exists sls, t. unfold f_shape. cbn [f_data f_top f_inner]. tauto.
Qed.
Lemma set_total {V} (f : field V) keys v sls t : counted f -> normalize_slices (f_axes f) (f_shape f) keys = Ok sls -> place_of (f_shape f) sls = Ok t ->
  (can_fill (a_shape v) (a_shape t) -> exists g, field_setitem f keys v = Ok g) /\ (~ can_fill (a_shape v) (a_shape t) -> field_setitem f keys v = Err ValueError).
Proof.
  intros C N T. destruct (counted_all f C) as (L & I & _). destruct (dims_ok _ _ _ _ L N) as (D & _). unfold field_setitem. rewrite N. cbn [bind]. rewrite data_set_eq by assumption. split; intro F.
  - destruct (np_set_total (f_data f) v sls t T F) as (b & ->). cbn [bind]. eauto.
  - now rewrite (np_set_refused (f_data f) v sls t T F).
Qed.
Lemma get_np {V} spl (f h : field V) keys : counted f -> field_getitem spl f keys = Ok h -> exists sls, normalize_slices (f_axes f) (f_shape f) keys = Ok sls /\ np_getitem (f_data f) sls = Ok (f_data h) /\
  forall g : field V, f_top g = f_top f -> f_inner g = f_inner f -> f_shape g = f_shape f -> exists h', field_getitem spl g keys = Ok h' /\ f_top h' = f_top h /\ f_inner h' = f_inner h /\ f_shape h' = f_shape h /\ np_getitem (f_data g) sls = Ok (f_data h').
Proof.
  intros C E. destruct (counted_all f C) as (L & _ & I). unfold field_getitem in E. apply bind_ok in E as (sls & N & E). apply bind_ok in E as ((ls & b) & G & E). destruct ls as [|l ls]; [discriminate|]. injection E as <-. exists sls. split; [exact N|]. destruct (dims_ok _ _ _ _ L N) as (D & _).
  split; [exact (proj1 (data_get_eq spl _ (f_data f) (f_data f) sls _ _ I D eq_refl G))|]. intros g TG IG SG. destruct (data_get_eq spl _ (f_data f) (f_data g) sls _ _ I D SG G) as (_ & b' & G' & NG & SB).
  unfold field_getitem. unfold f_axes in *. rewrite TG, SG, N. cbn [bind]. rewrite IG, G'. cbn [bind]. eexists. split; [reflexivity|]. cbn [f_top f_inner f_data]. split; [reflexivity|]. split; [reflexivity|]. split; [exact SB|exact NG].
Qed.
Lemma set_get {V} spl (f g h : field V) keys v : counted f -> field_setitem f keys v = Ok g -> field_getitem spl f keys = Ok h ->
  exists h', field_getitem spl g keys = Ok h' /\ f_top h' = f_top h /\ f_inner h' = f_inner h /\ f_shape h' = f_shape h /\ forall j i, in_shape (f_shape h) j = true -> filled_from (a_shape v) j i -> a_at (f_data h') j = a_at v i.
Proof.
  intros C E G. destruct (set_elements _ _ _ _ C E) as (sls & t & N & T & TG & IG & SG & _ & A & _). destruct (get_np spl f h keys C G) as (sls' & N' & P & K). rewrite N in N'. injection N' as <-.
  destruct (K g TG IG SG) as (h' & G' & T' & I' & S' & P'). exists h'. split; [exact G'|]. split; [exact T'|]. split; [exact I'|]. split; [exact S'|]. intros j i J F.
  rewrite <- SG in T. rewrite (place_get _ _ _ T) in P'. injection P' as P'. rewrite <- P'. cbn [a_at]. apply A; [|exact F]. unfold f_shape in S'. rewrite <- P' in S'. cbn [a_shape] in S'. rewrite S'. exact J.
Qed.
Lemma self_fill s j : in_shape s j = true -> filled_from s j j.
Proof.
  intro H. assert (L : length j = length s) by (revert j H; induction s as [|n s IH]; intros [|x j] H; try discriminate; [reflexivity|]; cbn [in_shape length] in *; apply andb_true_iff in H as (_ & H); f_equal; now apply IH).
  split; [exact L|]. intros k K. unfold from_end. destruct (Z.eqb_spec (nth k (rev s) 1%Z) 1) as [E|]; [|reflexivity].
  rewrite rev_nth in * by lia. rewrite L in *. set (q := length s - S k) in *. assert (Q : q < length s) by lia. clearbody q. clear K k.
  revert j H L q E Q. induction s as [|n s IH]; intros [|x j] H L q E Q; try discriminate; [cbn in Q; lia|]. cbn [in_shape] in H. apply andb_true_iff in H as (H & H'). apply andb_true_iff in H as (A & B). destruct q as [|q]; cbn [nth] in *; [lia|].
  apply IH; auto. cbn in Q. lia.
Qed.
Lemma self_can s : can_fill s s.
Proof. intros k K. right. now split. Qed.
Lemma set_same {V} spl (f h : field V) keys : counted f -> field_getitem spl f keys = Ok h -> exists g, field_setitem f keys (f_data h) = Ok g /\ f_top g = f_top f /\ f_inner g = f_inner f /\ f_shape g = f_shape f /\ forall i, a_at (f_data g) i = a_at (f_data f) i.
Proof.
  intros C G. destruct (get_np spl f h keys C G) as (sls & N & P & _). destruct (get_place _ _ _ P) as (t & T & H).
  destruct (set_total f keys (f_data h) sls t C N T) as (K & _). destruct K as (g & E); [rewrite H; apply self_can|]. exists g. split; [exact E|].
  destruct (set_elements _ _ _ _ C E) as (sls' & t' & N' & T' & TG & IG & SG & _ & A & B). rewrite N in N'. injection N' as <-. unfold f_shape in T'. rewrite T in T'. injection T' as <-. split; [exact TG|]. split; [exact IG|]. split; [exact SG|].
  intro i. destruct (in_dec (list_eq_dec Z.eq_dec) i (map (a_at t) (all_idx (a_shape t)))) as [I|I].
  - apply in_map_iff in I as (j & <- & J). apply all_idx_In in J. rewrite (A j j J) by (rewrite H; cbn [a_shape]; now apply self_fill). rewrite H. reflexivity.
  - apply B. intros j J E'. apply I. rewrite <- E'. apply in_map. now apply all_idx_In.
Qed.

(** ** twice *)
Lemma counted_set {V} (f g : field V) : counted f -> f_top g = f_top f -> f_inner g = f_inner f -> f_shape g = f_shape f -> counted g.
Proof. unfold counted. intros H -> -> ->. exact H. Qed.
Lemma places_dec (t : nda (list Z)) i : (exists j, in_shape (a_shape t) j = true /\ a_at t j = i) \/ (forall j, in_shape (a_shape t) j = true -> a_at t j <> i).
Proof.
  destruct (in_dec (list_eq_dec Z.eq_dec) i (map (a_at t) (all_idx (a_shape t)))) as [I|I].
  - left. apply in_map_iff in I as (j & E & J). exists j. split; [now apply all_idx_In|exact E].
  - right. intros j J E. apply I. rewrite <- E. apply in_map. now apply all_idx_In.
Qed.
Lemma fill_exists s j : exists i, filled_from s j i.
Proof. eexists. apply source_filled. Qed.
Lemma set_twice {V} (f g h k : field V) keys v w : counted f -> field_setitem f keys v = Ok g -> field_setitem g keys w = Ok h -> field_setitem f keys w = Ok k ->
  f_top h = f_top k /\ f_inner h = f_inner k /\ f_shape h = f_shape k /\ forall i, a_at (f_data h) i = a_at (f_data k) i.
Proof.
  intros C E1 E2 E3. destruct (set_elements _ _ _ _ C E1) as (s1 & t1 & N1 & T1 & P1 & I1 & S1 & _ & A1 & B1).
  destruct (set_elements _ _ _ _ (counted_set _ _ C P1 I1 S1) E2) as (s2 & t2 & N2 & T2 & P2 & I2 & S2 & _ & A2 & B2).
  destruct (set_elements _ _ _ _ C E3) as (s3 & t3 & N3 & T3 & P3 & I3 & S3 & _ & A3 & B3).
  unfold f_axes in *. rewrite P1, S1, N1 in N2. injection N2 as <-. rewrite S1, T1 in T2. injection T2 as <-. rewrite N1 in N3. injection N3 as <-. rewrite T1 in T3. injection T3 as <-.
  split; [congruence|]. split; [congruence|]. split; [congruence|]. intro i. destruct (places_dec t1 i) as [(j & J & <-)|K].
  - destruct (fill_exists (a_shape w) j) as (x & X). rewrite (A2 j x J X), (A3 j x J X). reflexivity.
  - rewrite (B2 i K), (B1 i K), (B3 i K). reflexivity.
Qed.

(** ** boxes *)
Lemma box_slice ax box : 0 < length (ax_grid ax) -> box_on ax box -> exists p q, p <= q <= length (ax_grid ax) /\ normalize_slice ax (box_key box) = Ok (inr (mkslice (Some (Z.of_nat p)) (Some (Z.of_nat q)) None)) /\
  forall i, (0 <= i < Z.of_nat (length (ax_grid ax)))%Z -> (inside ax box i <-> (Z.of_nat p <= i < Z.of_nat q)%Z).
Proof.
  intros NZ [(U & LE & ON)|(U & LE & ON)]; destruct box as [a b]; cbn [fst snd] in *.
  - destruct (grid_position_up ax a U) as (p & EP & HP & KP). destruct (grid_position_up ax b U) as (q & EQ & HQ & KQ).
    assert (PQ : p <= q).
    { destruct (le_lt_dec p q) as [|H]; [assumption|]. exfalso. assert (A : (nth q (ax_grid ax) 0 < a)%Q) by (apply KP; lia). assert (B : (nth q (ax_grid ax) 0 < b)%Q) by lra. apply KQ in B; lia. }
    exists p, q. split; [lia|]. split.
    + unfold box_key, normalize_slice. cbn [opt_is_real is_real orb fst snd]. rewrite (extent_to_slice_eq ax (Some (NReal a)) (Some (NReal b)) (or_introl U)).
      * cbn [bound_lo bound_hi num_val rmap]. rewrite EP, EQ, (up_not_reversed ax U), (proj2 (Qltb_nlt _ _) LE). reflexivity.
      * apply orb_true_iff. cbn [bound_lo bound_hi num_val]. destruct ON as [H|H]; [left|right]; now apply inside_domain_up.
    + intros i I. unfold inside. cbn [fst snd]. assert (B : Z.to_nat i < length (ax_grid ax)) by lia. specialize (KP _ B). specialize (KQ _ B). cbv zeta. split.
      * intros [(X & Y)|(X & Y)]; [|lra]. apply KQ in Y. destruct (le_lt_dec p (Z.to_nat i)) as [|H]; [lia|]. apply KP in H. lra.
      * intros (X & Y). left. split; [apply Qnot_lt_le; intro H; apply KP in H; lia|]. apply KQ. lia.
  - destruct (grid_position_down ax a U) as (p & EP & HP & KP). destruct (grid_position_down ax b U) as (q & EQ & HQ & KQ).
    assert (PQ : p <= q).
    { destruct (le_lt_dec p q) as [|H]; [assumption|]. exfalso. assert (A : (a < nth q (ax_grid ax) 0)%Q) by (apply KP; lia). assert (B : (b < nth q (ax_grid ax) 0)%Q) by lra. apply KQ in B; lia. }
    exists p, q. split; [lia|]. split.
    + unfold box_key, normalize_slice. cbn [opt_is_real is_real orb fst snd]. rewrite (extent_to_slice_eq ax (Some (NReal a)) (Some (NReal b)) (or_intror U)).
      * cbn [bound_lo bound_hi num_val rmap]. rewrite EP, EQ, (down_reversed ax U NZ), (proj2 (Qltb_lt _ _) LE). reflexivity.
      * apply orb_true_iff. cbn [bound_lo bound_hi num_val]. destruct ON as [H|H]; [left|right]; now apply inside_domain_down.
    + intros i I. unfold inside. cbn [fst snd]. assert (B : Z.to_nat i < length (ax_grid ax)) by lia. specialize (KP _ B). specialize (KQ _ B). cbv zeta. split.
      * intros [(X & Y)|(X & Y)]; [lra|]. apply KQ in X. destruct (le_lt_dec p (Z.to_nat i)) as [|H]; [lia|]. apply KP in H. lra.
      * intros (X & Y). right. split; [apply KQ; lia|]. apply Qnot_lt_le. intro H. apply KP in H; lia.
Qed.
Lemma box_sel p q n : (p <= q)%nat -> (Z.of_nat q <= n)%Z -> sel_of n (inr (mkslice (Some (Z.of_nat p)) (Some (Z.of_nat q)) None)) = Ok (SRange (Z.of_nat p) 1 (Z.of_nat (q - p))).
Proof.
  intros H K. cbn [sel_of]. unfold slice_indices. cbn [s_step s_start s_stop Z.eqb bind]. assert (A : forall x, (0 <= x <= n)%Z -> adjust_bound n 1 x = x).
  { intros x X. unfold adjust_bound. destruct (Z.ltb_spec x 0); [lia|]. destruct (Z.leb_spec n x); cbn; [lia|reflexivity]. }
  rewrite !A by lia. rewrite range_len_step1. repeat f_equal. lia.
Qed.
Lemma box_places axes : forall sh boxes, Forall (fun ax => 0 < length (ax_grid ax)) axes -> Forall2 box_on axes boxes -> sh = map (fun ax => Z.of_nat (length (ax_grid ax))) axes ->
  exists sls ss, mapM (fun p => normalize_slice (fst p) (snd p)) (combine axes (map box_key boxes)) = Ok sls /\ sels_of sh sls = Ok ss /\
  forall i, in_shape sh i = true -> (in_box axes boxes i <-> exists j, in_shape (sel_shape ss) j = true /\ sel_index ss j = i).
Proof.
  induction axes as [|ax axes IH]; intros sh boxes U B ->; inversion B as [|? box ? bs B0 BS]; subst; cbn [map combine mapM sels_of].
  - exists [], []. split; [reflexivity|]. split; [reflexivity|]. intros [|i l] H; [|discriminate]. cbn. split; [intros _; exists []; split; reflexivity|trivial].
  - destruct (IH _ bs (Forall_inv_tail U) BS eq_refl) as (sls & ss & M & S & K). destruct (box_slice ax box (Forall_inv U) B0) as (p & q & PQ & N & I).
    cbn [fst snd]. rewrite N, M. cbn [bind]. eexists. exists (SRange (Z.of_nat p) 1 (Z.of_nat (q - p)) :: ss). split; [reflexivity|]. split; [rewrite box_sel, S by lia; reflexivity|].
    intros [|i l] H; [discriminate|]. cbn [in_shape] in H. apply andb_true_iff in H as (H & H'). apply andb_true_iff in H as (H1 & H2). apply Z.leb_le in H1. apply Z.ltb_lt in H2. specialize (I i (conj H1 H2)). specialize (K l H'). cbn [in_box sel_shape sel_index]. rewrite I, K. split.
    + intros (A & j & J & E). exists ((i - Z.of_nat p)%Z :: j). cbn [in_shape]. rewrite J, andb_true_r. split; [apply andb_true_iff; split; [apply Z.leb_le|apply Z.ltb_lt]; lia|]. rewrite E. f_equal. lia.
    + intros ([|j0 j] & J & E); [discriminate|]. cbn [in_shape] in J. apply andb_true_iff in J as (J & J'). apply andb_true_iff in J as (J1 & J2). apply Z.leb_le in J1. apply Z.ltb_lt in J2. injection E as E E'. split; [lia|]. exists j. now split.
Qed.
Lemma shape_counted {V} (f : field V) : consistent f -> Forall axis_counted (f_axes f) -> f_shape f = map (fun ax => Z.of_nat (length (ax_grid ax))) (f_axes f).
Proof.
  intros (L & N & _) A. apply (nth_ext _ _ 0%Z 0%Z); [rewrite map_length; symmetry; exact L|]. intros k K.
  destruct (nth_error (f_shape f) k) as [n|] eqn:E; [|apply nth_error_None in E; lia]. destruct (nth_error (f_axes f) k) as [ax|] eqn:E'; [|apply nth_error_None in E'; lia].
  rewrite (nth_error_nth _ _ _ E). rewrite (nth_error_nth (map _ (f_axes f)) k 0%Z (x := Z.of_nat (length (ax_grid ax)))) by (now rewrite nth_error_map, E'). rewrite <- (N k ax n E' E). rewrite Forall_forall in A. apply A. now apply nth_error_In in E'.
Qed.
Lemma on_counted ax box : box_on ax box -> axis_counted ax.
Proof. intros [((_ & _ & _ & H) & _)|((_ & _ & _ & H) & _)]; unfold axis_counted, ax_len; exact H. Qed.
Lemma set_box {V} (f : field V) boxes : consistent f -> counted f -> nonempty (f_shape f) -> Forall2 box_on (f_axes f) boxes ->
  (forall x, exists g, field_setitem f (map box_key boxes) (scalar x) = Ok g /\ forall i, in_shape (f_shape f) i = true ->
     (in_box (f_axes f) boxes i -> a_at (f_data g) i = x) /\ (~ in_box (f_axes f) boxes i -> a_at (f_data g) i = a_at (f_data f) i)) /\
  (forall v g, field_setitem f (map box_key boxes) v = Ok g -> forall i, in_shape (f_shape f) i = true -> ~ in_box (f_axes f) boxes i -> a_at (f_data g) i = a_at (f_data f) i).
Proof.
  intros CO C NE B. assert (SH : f_shape f = map (fun ax => Z.of_nat (length (ax_grid ax))) (f_axes f)).
  { apply (shape_counted f CO). clear -B. induction B as [|ax box l l' H _ IH]; constructor; [exact (on_counted _ _ H)|exact IH]. }
  assert (U : Forall (fun ax => 0 < length (ax_grid ax)) (f_axes f)).
  { clear -NE SH. rewrite SH in NE. clear SH. unfold nonempty in NE. induction (f_axes f) as [|ax l IH]; [constructor|]. cbn [map] in NE. inversion NE; subst. constructor; [lia|now apply IH]. }
  destruct (box_places (f_axes f) _ boxes U B eq_refl) as (sls & ss & M & S & K). rewrite <- SH in *.
  assert (N : normalize_slices (f_axes f) (f_shape f) (map box_key boxes) = Ok sls).
  { unfold normalize_slices. rewrite map_length. assert (L : length boxes = length (f_axes f)) by (clear -B; induction B; cbn [length]; congruence). replace (_ =? _)%Z with true; [exact M|]. symmetry. apply Z.eqb_eq. rewrite L, (proj1 CO). unfold dims.
    destruct (Z.eqb_spec (zprod (f_shape f)) 0) as [Z0|]; [|reflexivity]. exfalso. clear -NE Z0. revert Z0. unfold nonempty in NE. induction NE as [|n sh H _ IH]; cbn [zprod fold_right]; [discriminate|]. fold (zprod sh). intro E. apply IH. nia. }
  assert (T : place_of (f_shape f) sls = Ok (mkarr (sel_shape ss) (sel_index ss))) by (unfold place_of, np_getitem; cbn [a_shape]; rewrite S; reflexivity).
  assert (OUT : forall v g, field_setitem f (map box_key boxes) v = Ok g -> forall i, in_shape (f_shape f) i = true -> ~ in_box (f_axes f) boxes i -> a_at (f_data g) i = a_at (f_data f) i).
  { intros v g E i I O. destruct (set_elements _ _ _ _ C E) as (s & t & N' & T' & _ & _ & _ & _ & _ & A). rewrite N in N'. injection N' as <-. rewrite T in T'. injection T' as <-. apply A. cbn [a_shape a_at]. intros j J EQ. apply O, (K i I). eauto. }
  split; [|exact OUT]. intro x. destruct (proj1 (set_total f (map box_key boxes) (scalar x) sls _ C N T)) as (g & E); [intros k Hk; cbn in Hk; lia|]. exists g. split; [exact E|]. intros i I. split; [|exact (OUT _ g E i I)]. intro O.
  destruct (set_elements _ _ _ _ C E) as (s & t & N' & T' & _ & _ & _ & _ & A & _). rewrite N in N'. injection N' as <-. rewrite T in T'. injection T' as <-. apply (K i I) in O as (j & J & <-). cbn [a_at a_shape] in A. rewrite (A j [] J); [reflexivity|]. split; [reflexivity|]. cbn. lia.
Qed.
