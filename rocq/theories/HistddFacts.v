(** Lemmas about histogramdd and the density histogram. *)
From Coq Require Import Lia Lqa Permutation ZifyBool ZifyNat.
From Verif Require Import PyBase PyBaseFacts NumpyModel NumpyFacts QSum DepSpec DepModel DepFacts
  DepHistFacts DepSumFacts DepLinFacts HistddModel.

(** *** Memory safety in terms of the data *)
Lemma scaled_pos_any r n dx v : inv_dx r n = Ok dx -> scaled (fst r) dx v == cell_pos r n v.
Proof.
  destruct r as [a b]. unfold inv_dx, scaled, cell_pos, cell_width. cbn [fst snd].
  destruct (Qeqb_spec (b - a) 0) as [|N]; [discriminate|]. intros [= <-].
  destruct (Z.eq_dec n 0) as [->|Z].
  - assert (E : (b - a) / inject_Z 0 == 0) by (unfold Qdiv; change (/ inject_Z 0) with 0; ring).
    rewrite E. change (inject_Z 0) with 0. unfold Qdiv. change (/ 0) with 0. ring.
  - assert (~ inject_Z n == 0) by (apply inject_Z_nz; exact Z). field. split; assumption.
Qed.

Lemma second_safe_fits ub o r n data :
  (forall v, In v data -> cell_pos r n v < inject_Z int_max) -> second_safe ub o r n data.
Proof.
  intros F dx v D I P. apply cell_nonneg_fits; [|exact P]. rewrite (scaled_pos_any r n dx v D). apply F, I.
Qed.

(** a conversion that saturates instead of wrapping is safe for all positions *)
Lemma second_safe_saturating ub o r n data :
  (forall q, 0 <= q -> (0 <= ub q)%Z) -> second_safe ub o r n data.
Proof.
  intros U dx v D I P. set (x := scaled _ _ _) in *.
  assert (G : forall y, 0 <= y -> (0 <= c_int ub y)%Z).
  { intros y Y. unfold c_int. destruct (_ && _); [apply trunc_nonneg, Y|apply U, Y]. }
  destruct o; cbn [cell]; apply G; lra.
Qed.

(** *** Minima and maxima *)

Lemma fold_min_spec t : forall x, let m := fold_left q_min t x in
  In m (x :: t) /\ forall y, In y (x :: t) -> m <= y.
Proof.
  induction t as [|z t IH]; intros x; cbn [fold_left].
  - split; [left; reflexivity|]. intros y [->|[]]. lra.
  - destruct (IH (q_min x z)) as [I L]. unfold q_min in *. destruct (Qleb_spec x z) as [A|A].
    + split.
      * destruct I as [I|I]; [left; exact I|right; right; exact I].
      * intros y [->|[->|Y]]; [apply L; left; reflexivity| |apply L; right; exact Y].
        assert (B : fold_left q_min t x <= x) by (apply L; left; reflexivity). unfold q_min in *. lra.
    + split.
      * destruct I as [I|I]; [right; left; exact I|right; right; exact I].
      * intros y [->|[->|Y]]; [|apply L; left; reflexivity|apply L; right; exact Y].
        assert (B : fold_left q_min t z <= z) by (apply L; left; reflexivity). unfold q_min in *. lra.
Qed.

Lemma fold_max_spec t : forall x, let m := fold_left q_max t x in
  In m (x :: t) /\ forall y, In y (x :: t) -> y <= m.
Proof.
  induction t as [|z t IH]; intros x; cbn [fold_left].
  - split; [left; reflexivity|]. intros y [->|[]]. lra.
  - destruct (IH (q_max x z)) as [I L]. unfold q_max in *. destruct (Qleb_spec x z) as [A|A].
    + split.
      * destruct I as [I|I]; [right; left; exact I|right; right; exact I].
      * intros y [->|[->|Y]]; [|apply L; left; reflexivity|apply L; right; exact Y].
        assert (B : z <= fold_left q_max t z) by (apply L; left; reflexivity). unfold q_max in *. lra.
    + split.
      * destruct I as [I|I]; [left; exact I|right; right; exact I].
      * intros y [->|[->|Y]]; [apply L; left; reflexivity| |apply L; right; exact Y].
        assert (B : x <= fold_left q_max t x) by (apply L; left; reflexivity). unfold q_max in *. lra.
Qed.

Lemma np_min_ok d : d <> [] -> exists m, np_min d = Ok m /\ is_min d m.
Proof. destruct d as [|x t]; [congruence|]. intros _. eexists. split; [reflexivity|]. apply (fold_min_spec t x). Qed.
Lemma np_max_ok d : d <> [] -> exists m, np_max d = Ok m /\ is_max d m.
Proof. destruct d as [|x t]; [congruence|]. intros _. eexists. split; [reflexivity|]. apply (fold_max_spec t x). Qed.

Lemma axis_range_ok kr ax d e : d <> [] ->
  match kr with None => e = None | Some l => nth_error l ax = Some e end ->
  exists r, axis_range kr ax d = Ok r /\ resolves_range e d r.
Proof.
  intros D E. destruct (np_min_ok d D) as (m & M & SM). destruct (np_max_ok d D) as (M' & MM & SMM).
  assert (X : axis_range kr ax d =
     let! a := match e with Some (Some a, _) => Ok a | _ => np_min d end in
     let! b := match e with Some (_, Some b) => Ok b | _ => np_max d end in Ok (a, b)).
  { unfold axis_range. destruct kr; [rewrite E|subst e]; reflexivity. }
  rewrite X, M, MM. destruct e as [[[a|] [b|]]|]; cbn [bind]; eexists; (split; [reflexivity|]);
    split; cbn [fst snd resolves]; (reflexivity || assumption).
Qed.

(** the requested range as handed to histogramdd: nothing, or one entry per axis *)
Definition range_arg (reqs : list (option (option Q * option Q))) : hrange :=
  match reqs with [] => RNone | _ => RSeq reqs end.
Definition req_at (reqs : list (option (option Q * option Q))) (ax : nat) :=
  nth ax reqs None.

Lemma normal_range_arg reqs : reqs <> [] -> normal_range (range_arg reqs) = Ok (Some reqs).
Proof. destruct reqs; [congruence|reflexivity]. Qed.

Lemma axis_range_arg reqs n ax d : d <> [] -> (reqs = [] \/ length reqs = n) -> (ax < n)%nat ->
  exists kr, normal_range (range_arg reqs) = Ok kr
   /\ exists r, axis_range kr ax d = Ok r /\ resolves_range (req_at reqs ax) d r.
Proof.
  intros D [->|L] A.
  - exists None. split; [reflexivity|]. unfold req_at. rewrite (nth_overflow []) by (cbn; lia).
    apply axis_range_ok; [exact D|reflexivity].
  - exists (Some reqs). destruct reqs as [|q reqs]; [cbn in L; lia|]. split; [reflexivity|].
    apply axis_range_ok; [exact D|]. unfold req_at. apply nth_error_nth'. lia.
Qed.

Lemma histdd_1d ub spacing d reqs n ws sh : d <> [] -> (reqs = [] \/ length reqs = 1%nat) ->
  exists r, resolves_range (req_at reqs 0) d r
  /\ histogramdd ub spacing (DVec d) (range_arg reqs) ws (BInt n) (Some sh)
     = rmap (fun he => (fst he, [snd he])) (histogram ub spacing d r n ws sh)
  /\ histogramdd ub spacing (DSeq [d]) (range_arg reqs) ws (BSeq [n]) (Some sh)
     = rmap (fun he => (fst he, [snd he])) (histogram ub spacing d r n ws sh).
Proof.
  intros D R. destruct (axis_range_arg reqs 1 0 d D R ltac:(lia)) as (kr & K & r & A & RS).
  exists r. split; [exact RS|]. unfold histogramdd.
  destruct d as [|x t]; [congruence|]. cbn [normal_data bind length Nat.leb guard normal_bins repeat].
  rewrite K. cbn [bind]. rewrite A. cbn [bind]. split; destruct (histogram _ _ _ _ _ _ _); reflexivity.
Qed.

Lemma histdd_2d ub spacing dx dy reqs nx ny ws sh : dx <> [] -> dy <> [] ->
  (reqs = [] \/ length reqs = 2%nat) ->
  exists rx ry, resolves_range (req_at reqs 0) dx rx /\ resolves_range (req_at reqs 1) dy ry
  /\ histogramdd ub spacing (DSeq [dx; dy]) (range_arg reqs) ws (BSeq [nx; ny]) (Some sh)
     = rmap (fun he => (fst (fst he), [snd (fst he); snd he]))
         (histogram2d ub spacing dx dy ws rx ry nx ny sh)
  /\ histogramdd ub spacing (DSeq [dx; dy]) (range_arg reqs) ws (BInt nx) (Some sh)
     = rmap (fun he => (fst (fst he), [snd (fst he); snd he]))
         (histogram2d ub spacing dx dy ws rx ry nx nx sh).
Proof.
  intros D D' R. destruct (axis_range_arg reqs 2 0 dx D R ltac:(lia)) as (kr & K & rx & A & RS).
  destruct (axis_range_arg reqs 2 1 dy D' R ltac:(lia)) as (kr' & K' & ry & A' & RS').
  assert (kr' = kr) by congruence. subst.
  exists rx, ry. split; [exact RS|]. split; [exact RS'|]. unfold histogramdd.
  cbn [normal_data bind length Nat.leb guard normal_bins repeat].
  rewrite K. cbn [bind]. rewrite A. cbn [bind]. rewrite A'. cbn [bind].
  split; destruct (histogram2d _ _ _ _ _ _ _ _ _ _) as [[[h ex] ey]|e]; reflexivity.
Qed.

Lemma histdd_3d ub spacing dx dy dz reqs nx ny nz ws sh : dx <> [] -> dy <> [] -> dz <> [] ->
  (reqs = [] \/ length reqs = 3%nat) ->
  exists rx ry rz, resolves_range (req_at reqs 0) dx rx /\ resolves_range (req_at reqs 1) dy ry
     /\ resolves_range (req_at reqs 2) dz rz
  /\ histogramdd ub spacing (DSeq [dx; dy; dz]) (range_arg reqs) ws (BSeq [nx; ny; nz]) (Some sh)
     = rmap (fun he => (fst (fst (fst he)), [snd (fst (fst he)); snd (fst he); snd he]))
         (histogram3d ub spacing dx dy dz ws rx ry rz nx ny nz sh)
  /\ histogramdd ub spacing (DSeq [dx; dy; dz]) (range_arg reqs) ws (BInt nx) (Some sh)
     = rmap (fun he => (fst (fst (fst he)), [snd (fst (fst he)); snd (fst he); snd he]))
         (histogram3d ub spacing dx dy dz ws rx ry rz nx nx nx sh).
Proof.
  intros D D' D'' R. destruct (axis_range_arg reqs 3 0 dx D R ltac:(lia)) as (kr & K & rx & A & RS).
  destruct (axis_range_arg reqs 3 1 dy D' R ltac:(lia)) as (kr' & K' & ry & A' & RS').
  destruct (axis_range_arg reqs 3 2 dz D'' R ltac:(lia)) as (kr'' & K'' & rz & A'' & RS'').
  assert (kr' = kr) by congruence. assert (kr'' = kr) by congruence. subst.
  exists rx, ry, rz. do 3 (split; [assumption|]). unfold histogramdd.
  cbn [normal_data bind length Nat.leb guard normal_bins repeat].
  rewrite K. cbn [bind]. rewrite A. cbn [bind]. rewrite A'. cbn [bind]. rewrite A''. cbn [bind].
  split; destruct (histogram3d _ _ _ _ _ _ _ _ _ _ _ _ _) as [[[[h ex] ey] ez]|e]; reflexivity.
Qed.

(** an (N, D) array with more than three rows is its columns *)
Lemma histdd_matrix ub spacing nc rows r ws b sh : (3 < length rows)%nat ->
  histogramdd ub spacing (DMat nc rows) r ws b sh
  = histogramdd ub spacing (DSeq (map (column rows) (seq 0 nc))) r ws b sh.
Proof.
  intros L. unfold histogramdd. cbn [normal_data]. rewrite (proj2 (Nat.ltb_lt _ _) L). reflexivity.
Qed.

(** *** The density histogram *)
Lemma getidx_first {A} (a : A) l : getidx (a :: l) 0 = Ok a.
Proof. unfold getidx. cbn [length]. destruct (_ && _)%bool eqn:E; [reflexivity|cbn in E; lia]. Qed.
Lemma getidx_second {A} (a b : A) l : getidx (a :: b :: l) 1 = Ok b.
Proof.
  unfold getidx. cbn [length]. change (1 <? 0)%Z with false. cbv iota.
  destruct (_ && _)%bool eqn:E; [reflexivity|lia].
Qed.

Lemma linspace_first_step spacing r n e : good_range spacing r n ->
  np_linspace (fst r) (snd r) (n + 1) = Ok e ->
  exists e0 e1, getidx e 0 = Ok e0 /\ getidx e 1 = Ok e1 /\ e1 - e0 == cell_width r n
    /\ length e = Z.to_nat (n + 1) /\ e0 == fst r /\ last e 0 == snd r.
Proof.
  intros (A & _ & N) E. unfold np_linspace in E.
  destruct (Z.ltb_spec (n + 1) 0); [lia|]. destruct (Z.eqb_spec (n + 1) 0); [lia|].
  destruct (Z.eqb_spec (n + 1) 1); [lia|]. injection E as <-.
  replace (n + 1 - 1)%Z with n by lia.
  assert (NZ : ~ inject_Z n == 0) by (apply inject_Z_nz; lia).
  destruct (Z.to_nat n) as [|k] eqn:K; [lia|]. cbn [seq map app].
  set (f := fun i : nat => inject_Z (Z.of_nat i) * ((snd r - fst r) / inject_Z n) + fst r).
  assert (L : length (f 0%nat :: map f (seq 1 k) ++ [snd r]) = Z.to_nat (n + 1)).
  { cbn [length]. rewrite app_length, map_length, seq_length. cbn [length]. lia. }
  assert (LA : last (f 0%nat :: map f (seq 1 k) ++ [snd r]) 0 == snd r).
  { change (f 0%nat :: map f (seq 1 k) ++ [snd r]) with ((f 0%nat :: map f (seq 1 k)) ++ [snd r]).
    rewrite last_last. reflexivity. }
  destruct k as [|k].
  - assert (n = 1)%Z by lia. subst n. exists (f 0%nat), (snd r). cbn [seq map app].
    do 2 (split; [reflexivity|]). split; [unfold f, cell_width; cbn [Z.of_nat]; change (inject_Z 0) with 0; change (inject_Z 1) with 1; field|].
    split; [exact L|]. split; [unfold f; cbn [Z.of_nat]; change (inject_Z 0) with 0; ring|exact LA].
  - exists (f 0%nat), (f 1%nat). split; [|split; [|split; [|split; [|split]]]].
    + apply getidx_first.
    + cbn [seq map app]. apply getidx_second.
    + unfold f, cell_width. cbn [Z.of_nat Pos.of_succ_nat]. change (inject_Z 0) with 0. change (inject_Z 1) with 1. field. exact NZ.
    + exact L.
    + unfold f; cbn [Z.of_nat]; change (inject_Z 0) with 0; ring.
    + exact LA.
Qed.

Lemma total_div sh f c : total sh (fun idx => f idx / c) == total sh f / c.
Proof.
  unfold Qdiv. rewrite Qmult_comm. rewrite <- total_scale. apply total_ext. intros; apply Qmult_comm.
Qed.

Lemma create_hist_eq ub spacing data w ranges b shape d0 rest : data = d0 :: rest -> d0 <> [] ->
  (length data <= 3)%nat -> ranges <> [] ->
  create_hist ub spacing data w ranges b shape =
    let! he := histogramdd ub spacing (DSeq data) (range_arg (map both ranges)) (Some w) b shape in
    let '(h, edges) := he in
      let! widths := fold_right (fun e acc =>
           let! ws := acc in
           let! e1 := getidx e 1 in
           let! e0 := getidx e 0 in
           Ok ((e1 - e0) :: ws)) (Ok []) edges in
      Ok (mkarr (a_shape h) (fun idx => a_at h idx / q_prod widths), edges).
Proof.
  intros -> D L R. unfold create_hist, guard.
  rewrite (proj2 (Nat.leb_le _ _) L). cbn [bind]. destruct d0 as [|x t]; [congruence|].
  assert (E : range_arg (map both ranges) = RSeq (map both ranges)) by (destruct ranges; [congruence|reflexivity]).
  rewrite E. reflexivity.
Qed.

Lemma density_1d_edges ub spacing d data w ranges n shp :
  valid_order d -> shp = Some (ShInt (Z.of_nat d)) -> data <> [] -> length w = length data -> length ranges = 3%nat ->
  (forall r, resolves_range (both (nth 0 ranges None)) data r ->
     good_range spacing r n /\ Forall (wholly_inside d r n) data) ->
  exists r h e, resolves_range (both (nth 0 ranges None)) data r
    /\ create_hist ub spacing [data] w ranges (BSeq [n]) shp = Ok (h, [e])
    /\ a_shape h = [n]
    /\ total [n] (a_at h) * cell_width r n == qsum w
    /\ np_linspace (fst r) (snd r) (n + 1) = Ok e.
Proof.
  intros V -> D L LR F.
  rewrite (create_hist_eq _ _ _ _ _ _ _ data []) by (try reflexivity; try assumption; cbn; try lia; destruct ranges; discriminate).
  unfold histogramdd. cbn [normal_data bind length Nat.leb guard normal_bins].
  destruct ranges as [|rx ranges]; [discriminate|]. cbn [map range_arg normal_range bind].
  destruct (axis_range_ok (Some (both rx :: map both ranges)) 0 data (both rx) D eq_refl) as (r & A & RS).
  rewrite A. cbn [bind]. cbn [nth] in F |- *. destruct (F r RS) as [G W].
  destruct (hist1_total ub spacing d data r n (Some w) V G ltac:(intros l [= <-]; exact L) W) as (h & e & H & T).
  destruct (hist1_shares_in_range ub spacing d data r n (Some w) V G ltac:(intros l [= <-]; exact L))
    as (h' & e' & H' & Sh & _).
  { eapply Forall_impl; [|exact W]. intros v. apply (wholly_within spacing), G. }
  rewrite H in H'. injection H' as <- <-.
  destruct (order_of_valid d V) as (o & _ & O).
  destruct (histogram_shares ub spacing data r n (Some w) _ o G O) as (h2 & e2 & H2 & _ & E2 & _).
  { cbn [weights_list]. lia. }
  rewrite H in H2. injection H2 as <- <-.
  rewrite H. cbn [bind fst snd fold_right].
  destruct (linspace_first_step spacing r n e G E2) as (e0 & e1 & I0 & I1 & DW & _).
  rewrite I1, I0. cbn [bind].
  exists r. do 2 eexists. split; [exact RS|]. split; [reflexivity|]. cbn [a_shape a_at].
  split; [exact Sh|]. split; [|exact E2]. rewrite total_div. cbn [q_prod fold_right]. rewrite Sh in T. rewrite T.
  cbn [weights_list]. pose proof (width_pos spacing r n G). rewrite DW. field. lra.
Qed.
Lemma density_1d ub spacing d data w ranges n shp :
  valid_order d -> shp = Some (ShInt (Z.of_nat d)) -> data <> [] -> length w = length data -> length ranges = 3%nat ->
  (forall r, resolves_range (both (nth 0 ranges None)) data r ->
     good_range spacing r n /\ Forall (wholly_inside d r n) data) ->
  exists r h e, resolves_range (both (nth 0 ranges None)) data r
    /\ create_hist ub spacing [data] w ranges (BSeq [n]) shp = Ok (h, [e])
    /\ a_shape h = [n]
    /\ total [n] (a_at h) * cell_width r n == qsum w.
Proof.
  intros V Sp D L LR F. destruct (density_1d_edges ub spacing d data w ranges n shp V Sp D L LR F) as (r & h & e & A & B & C & T & _).
  exists r, h, e. auto.
Qed.

Lemma density_2d_edges ub spacing d dx dy w ranges nx ny shp :
  valid_order d -> shp = Some (ShInt (Z.of_nat d)) -> dx <> [] -> length dx = length dy ->
  length w = length dx -> length ranges = 3%nat ->
  (forall r, resolves_range (both (nth 0 ranges None)) dx r ->
     good_range spacing r nx /\ Forall (wholly_inside d r nx) dx) ->
  (forall r, resolves_range (both (nth 1 ranges None)) dy r ->
     good_range spacing r ny /\ Forall (wholly_inside d r ny) dy) ->
  exists rx ry h ex ey, resolves_range (both (nth 0 ranges None)) dx rx
    /\ resolves_range (both (nth 1 ranges None)) dy ry
    /\ create_hist ub spacing [dx; dy] w ranges (BSeq [nx; ny]) shp = Ok (h, [ex; ey])
    /\ a_shape h = [nx; ny]
    /\ total [nx; ny] (a_at h) * (cell_width rx nx * cell_width ry ny) == qsum w
    /\ np_linspace (fst rx) (snd rx) (nx + 1) = Ok ex /\ np_linspace (fst ry) (snd ry) (ny + 1) = Ok ey.
Proof.
  intros V -> D EL L LR F F'.
  assert (D' : dy <> []) by (intros ->; cbn in EL; destruct dx; [congruence|discriminate]).
  rewrite (create_hist_eq _ _ _ _ _ _ _ dx [dy]) by (try reflexivity; try assumption; cbn; try lia; destruct ranges; discriminate).
  unfold histogramdd. cbn [normal_data bind length Nat.leb guard normal_bins].
  destruct ranges as [|qx [|qy ranges]]; try discriminate. cbn [map range_arg normal_range bind].
  destruct (axis_range_ok (Some (both qx :: both qy :: map both ranges)) 0 dx (both qx) D eq_refl) as (rx & A & RS).
  destruct (axis_range_ok (Some (both qx :: both qy :: map both ranges)) 1 dy (both qy) D' eq_refl) as (ry & A' & RS').
  rewrite A. cbn [bind]. rewrite A'. cbn [bind]. cbn [nth] in F, F' |- *.
  destruct (F rx RS) as [G W]. destruct (F' ry RS') as [G' W'].
  assert (LW : forall l, Some w = Some l -> length l = length dx) by (intros l [= <-]; exact L).
  destruct (hist2_total ub spacing d dx dy rx ry nx ny (Some w) V G G' EL LW W W') as (h & ex & ey & H & T).
  destruct (order_of_valid d V) as (o & DO & O).
  assert (LW' : (length dx <= length (weights_list (Some w) (length dx)))%nat) by (cbn [weights_list]; lia).
  destruct (histogram2d_shares ub spacing dx dy rx ry nx ny (Some w) _ o G G' O EL LW') as (h2 & ex2 & ey2 & H2 & Sh & E2 & E2' & _).
  { intros v I. rewrite Forall_forall in W'. destruct (shape_inside_range _ _ _ _ _ G' (proj1 (W' v I))) as [P Q].
    destruct (pos_bounds _ _ _ _ G' P Q). unfold good_range in G'. assert (N : (ny < int_max)%Z) by lia.
    rewrite Zlt_Qlt in N. lra. }
  rewrite H in H2. injection H2 as <- <- <-.
  rewrite H. cbn [bind fst snd fold_right].
  destruct (linspace_first_step spacing rx nx ex G E2) as (e0 & e1 & I0 & I1 & DW & _).
  destruct (linspace_first_step spacing ry ny ey G' E2') as (e0' & e1' & I0' & I1' & DW' & _).
  rewrite I1', I0'. cbn [bind]. rewrite I1, I0. cbn [bind].
  exists rx, ry. do 3 eexists. split; [exact RS|]. split; [exact RS'|]. split; [reflexivity|]. cbn [a_shape a_at].
  split; [exact Sh|]. split; [|split; [exact E2|exact E2']]. rewrite total_div. cbn [q_prod fold_right]. rewrite Sh in T. rewrite T.
  cbn [weights_list]. pose proof (width_pos spacing rx nx G). pose proof (width_pos spacing ry ny G').
  rewrite DW, DW'. field. split; lra.
Qed.
Lemma density_2d ub spacing d dx dy w ranges nx ny shp :
  valid_order d -> shp = Some (ShInt (Z.of_nat d)) -> dx <> [] -> length dx = length dy ->
  length w = length dx -> length ranges = 3%nat ->
  (forall r, resolves_range (both (nth 0 ranges None)) dx r ->
     good_range spacing r nx /\ Forall (wholly_inside d r nx) dx) ->
  (forall r, resolves_range (both (nth 1 ranges None)) dy r ->
     good_range spacing r ny /\ Forall (wholly_inside d r ny) dy) ->
  exists rx ry h ex ey, resolves_range (both (nth 0 ranges None)) dx rx
    /\ resolves_range (both (nth 1 ranges None)) dy ry
    /\ create_hist ub spacing [dx; dy] w ranges (BSeq [nx; ny]) shp = Ok (h, [ex; ey])
    /\ a_shape h = [nx; ny]
    /\ total [nx; ny] (a_at h) * (cell_width rx nx * cell_width ry ny) == qsum w.
Proof.
  intros V Sp D EL L LR F F'. destruct (density_2d_edges ub spacing d dx dy w ranges nx ny shp V Sp D EL L LR F F') as (rx & ry & h & ex & ey & A & A' & B & C & T & _).
  exists rx, ry, h, ex, ey. auto.
Qed.

Lemma density_3d_edges ub spacing d dx dy dz w ranges nx ny nz shp :
  valid_order d -> shp = Some (ShInt (Z.of_nat d)) -> dx <> [] -> length dx = length dy -> length dx = length dz ->
  length w = length dx -> length ranges = 3%nat ->
  (forall r, resolves_range (both (nth 0 ranges None)) dx r ->
     good_range spacing r nx /\ Forall (wholly_inside d r nx) dx) ->
  (forall r, resolves_range (both (nth 1 ranges None)) dy r ->
     good_range spacing r ny /\ Forall (wholly_inside d r ny) dy) ->
  (forall r, resolves_range (both (nth 2 ranges None)) dz r ->
     good_range spacing r nz /\ Forall (wholly_inside d r nz) dz) ->
  exists rx ry rz h ex ey ez, resolves_range (both (nth 0 ranges None)) dx rx
    /\ resolves_range (both (nth 1 ranges None)) dy ry
    /\ resolves_range (both (nth 2 ranges None)) dz rz
    /\ create_hist ub spacing [dx; dy; dz] w ranges (BSeq [nx; ny; nz]) shp = Ok (h, [ex; ey; ez])
    /\ a_shape h = [nx; ny; nz]
    /\ total [nx; ny; nz] (a_at h) * (cell_width rx nx * cell_width ry ny * cell_width rz nz) == qsum w
    /\ np_linspace (fst rx) (snd rx) (nx + 1) = Ok ex /\ np_linspace (fst ry) (snd ry) (ny + 1) = Ok ey /\ np_linspace (fst rz) (snd rz) (nz + 1) = Ok ez.
Proof.
  intros V -> D EL EL' L LR F F' F''.
  assert (D' : dy <> []) by (intros ->; cbn in EL; destruct dx; [congruence|discriminate]).
  assert (D'' : dz <> []) by (intros ->; cbn in EL'; destruct dx; [congruence|discriminate]).
  rewrite (create_hist_eq _ _ _ _ _ _ _ dx [dy; dz]) by (try reflexivity; try assumption; cbn; try lia; destruct ranges; discriminate).
  unfold histogramdd. cbn [normal_data bind length Nat.leb guard normal_bins].
  destruct ranges as [|qx [|qy [|qz ranges]]]; try discriminate. cbn [map range_arg normal_range bind].
  destruct (axis_range_ok (Some (both qx :: both qy :: both qz :: map both ranges)) 0 dx (both qx) D eq_refl) as (rx & A & RS).
  destruct (axis_range_ok (Some (both qx :: both qy :: both qz :: map both ranges)) 1 dy (both qy) D' eq_refl) as (ry & A' & RS').
  destruct (axis_range_ok (Some (both qx :: both qy :: both qz :: map both ranges)) 2 dz (both qz) D'' eq_refl) as (rz & A'' & RS'').
  rewrite A. cbn [bind]. rewrite A'. cbn [bind]. rewrite A''. cbn [bind]. cbn [nth] in F, F', F'' |- *.
  destruct (F rx RS) as [G W]. destruct (F' ry RS') as [G' W']. destruct (F'' rz RS'') as [G'' W''].
  assert (LW : forall l, Some w = Some l -> length l = length dx) by (intros l [= <-]; exact L).
  destruct (hist3_total ub spacing d dx dy dz rx ry rz nx ny nz (Some w) V G G' G'' EL EL' LW W W' W'') as (h & ex & ey & ez & H & T).
  destruct (order_of_valid d V) as (o & DO & O).
  assert (LW' : (length dx <= length (weights_list (Some w) (length dx)))%nat) by (cbn [weights_list]; lia).
  destruct (histogram3d_shares ub spacing dx dy dz rx ry rz nx ny nz (Some w) _ o G G' G'' O EL EL' LW')
    as (h2 & ex2 & ey2 & ez2 & H2 & Sh & E2 & E2' & E2'' & _).
  { intros v I. rewrite Forall_forall in W'. destruct (shape_inside_range _ _ _ _ _ G' (proj1 (W' v I))) as [P Q].
    destruct (pos_bounds _ _ _ _ G' P Q). unfold good_range in G'. assert (N : (ny < int_max)%Z) by lia.
    rewrite Zlt_Qlt in N. lra. }
  { intros v I. rewrite Forall_forall in W''. destruct (shape_inside_range _ _ _ _ _ G'' (proj1 (W'' v I))) as [P Q].
    destruct (pos_bounds _ _ _ _ G'' P Q). unfold good_range in G''. assert (N : (nz < int_max)%Z) by lia.
    rewrite Zlt_Qlt in N. lra. }
  rewrite H in H2. injection H2 as <- <- <- <-.
  rewrite H. cbn [bind fst snd fold_right].
  destruct (linspace_first_step spacing rx nx ex G E2) as (e0 & e1 & I0 & I1 & DW & _).
  destruct (linspace_first_step spacing ry ny ey G' E2') as (e0' & e1' & I0' & I1' & DW' & _).
  destruct (linspace_first_step spacing rz nz ez G'' E2'') as (e0'' & e1'' & I0'' & I1'' & DW'' & _).
  rewrite I1'', I0''. cbn [bind]. rewrite I1', I0'. cbn [bind]. rewrite I1, I0. cbn [bind].
  exists rx, ry, rz. do 4 eexists. do 3 (split; [assumption|]). split; [reflexivity|]. cbn [a_shape a_at].
  split; [exact Sh|]. split; [|split; [exact E2|split; [exact E2'|exact E2'']]]. rewrite total_div. cbn [q_prod fold_right]. rewrite Sh in T. rewrite T.
  cbn [weights_list]. pose proof (width_pos spacing rx nx G). pose proof (width_pos spacing ry ny G').
  pose proof (width_pos spacing rz nz G'').
  rewrite DW, DW', DW''. field. repeat split; lra.
Qed.
Lemma density_3d ub spacing d dx dy dz w ranges nx ny nz shp :
  valid_order d -> shp = Some (ShInt (Z.of_nat d)) -> dx <> [] -> length dx = length dy -> length dx = length dz ->
  length w = length dx -> length ranges = 3%nat ->
  (forall r, resolves_range (both (nth 0 ranges None)) dx r ->
     good_range spacing r nx /\ Forall (wholly_inside d r nx) dx) ->
  (forall r, resolves_range (both (nth 1 ranges None)) dy r ->
     good_range spacing r ny /\ Forall (wholly_inside d r ny) dy) ->
  (forall r, resolves_range (both (nth 2 ranges None)) dz r ->
     good_range spacing r nz /\ Forall (wholly_inside d r nz) dz) ->
  exists rx ry rz h ex ey ez, resolves_range (both (nth 0 ranges None)) dx rx
    /\ resolves_range (both (nth 1 ranges None)) dy ry
    /\ resolves_range (both (nth 2 ranges None)) dz rz
    /\ create_hist ub spacing [dx; dy; dz] w ranges (BSeq [nx; ny; nz]) shp = Ok (h, [ex; ey; ez])
    /\ a_shape h = [nx; ny; nz]
    /\ total [nx; ny; nz] (a_at h) * (cell_width rx nx * cell_width ry ny * cell_width rz nz) == qsum w.
Proof.
  intros V Sp D EL EL' L LR F F' F''. destruct (density_3d_edges ub spacing d dx dy dz w ranges nx ny nz shp V Sp D EL EL' L LR F F' F'') as (rx & ry & rz & h & ex & ey & ez & A & A' & A'' & B & C & T & _).
  exists rx, ry, rz, h, ex, ey, ez. auto 10.
Qed.

(** *** One particle *)
Lemma single1 ub spacing d r n v w : valid_order d -> good_range spacing r n ->
  tested_cell d n (cell_pos r n v) -> fits_int (cell_pos r n v) ->
  exists h e, histogram ub spacing [v] r n (Some [w]) (ShInt (Z.of_nat d)) = Ok (h, e)
    /\ a_shape h = [n]
    /\ forall i, (0 <= i < n)%Z -> a_at h [i] == bspline d (cell_dist r n i v) * w.
Proof.
  intros V G T F. destruct (order_of_valid d V) as (o & <- & O).
  destruct (histogram_exact ub spacing [v] r n (Some [w]) _ o G O) as (h & e & H & Sh & _ & X).
  { cbn; lia. } { constructor; [split; assumption|constructor]. }
  exists h, e. do 2 (split; [assumption|]). intros i I. rewrite (X i I). cbn [weights_list combine map length fst snd].
  rewrite qsum_cons, qsum_nil. ring.
Qed.

Lemma share_bounds d u w : 0 <= w -> 0 <= bspline d u * w /\ bspline d u * w <= w.
Proof.
  intros W. pose proof (bspline_nonneg d u). pose proof (bspline_le1 d u). split.
  - apply Qmult_le_0_compat; assumption.
  - rewrite <- (Qmult_1_l w) at 2. apply Qmult_le_compat_r; assumption.
Qed.

Lemma single1_local ub spacing d r n v w : valid_order d -> good_range spacing r n ->
  tested_cell d n (cell_pos r n v) -> fits_int (cell_pos r n v) -> 0 <= w ->
  exists h e, histogram ub spacing [v] r n (Some [w]) (ShInt (Z.of_nat d)) = Ok (h, e)
    /\ forall i, (0 <= i < n)%Z -> 0 <= a_at h [i] /\ a_at h [i] <= w
         /\ (reach d < qabs (cell_dist r n i v) -> a_at h [i] == 0).
Proof.
  intros V G T F W. destruct (single1 ub spacing d r n v w V G T F) as (h & e & H & _ & X).
  exists h, e. split; [exact H|]. intros i I. rewrite (X i I).
  destruct (share_bounds d (cell_dist r n i v) w W). do 2 (split; [assumption|]).
  intros R. rewrite (bspline_out d _ R). ring.
Qed.

Lemma single2 ub spacing d rx ry nx ny v v' w : valid_order d -> good_range spacing rx nx ->
  good_range spacing ry ny ->
  tested_cell d nx (cell_pos rx nx v) -> fits_int (cell_pos rx nx v) ->
  tested_sign d ny (cell_pos ry ny v') -> fits_int (cell_pos ry ny v') -> 0 <= w ->
  exists h ex ey, histogram2d ub spacing [v] [v'] (Some [w]) rx ry nx ny (ShInt (Z.of_nat d)) = Ok (h, ex, ey)
    /\ forall i j, (0 <= i < nx)%Z -> (0 <= j < ny)%Z -> 0 <= a_at h [i; j] /\ a_at h [i; j] <= w
         /\ (reach d < qabs (cell_dist rx nx i v) \/ reach d < qabs (cell_dist ry ny j v') -> a_at h [i; j] == 0).
Proof.
  intros V G G' T F T' F' W. destruct (order_of_valid d V) as (o & <- & O).
  destruct (histogram2d_exact ub spacing [v] [v'] rx ry nx ny (Some [w]) _ o G G' O eq_refl) as (h & ex & ey & H & _ & _ & _ & X).
  { cbn; lia. } { constructor; [split; assumption|constructor]. } { constructor; [split; assumption|constructor]. }
  exists h, ex, ey. split; [exact H|]. intros i j I J.
  assert (E : a_at h [i; j] == bspline (degree o) (cell_dist rx nx i v) * (bspline (degree o) (cell_dist ry ny j v') * w)).
  { rewrite (X i j I J). cbn [weights_list combine map length fst snd]. rewrite qsum_cons, qsum_nil. ring. }
  rewrite E.
  destruct (share_bounds (degree o) (cell_dist ry ny j v') w W) as [A B].
  destruct (share_bounds (degree o) (cell_dist rx nx i v) _ A) as [A' B']. split; [exact A'|]. split; [lra|].
  intros [R|R]; rewrite (bspline_out _ _ R); ring.
Qed.

(** *** A range of no width *)
Lemma hist_degenerate ub spacing data v n ws sh : 0 < spacing v ->
  spacing (v + spacing v) <= 2 * spacing v ->
  histogram ub spacing data (v, v) n ws sh
  = histogram ub spacing data (v - spacing v, v + spacing v) n ws sh.
Proof.
  intros P L. unfold histogram.
  assert (E : widen spacing (v, v) = (v - spacing v, v + spacing v)).
  { cbn [widen]. assert (Z : qabs (v - v) == 0) by (rewrite qabs_Qabs; setoid_replace (v - v) with 0 by ring; reflexivity).
    destruct (Qltb_spec (qabs (v - v)) (spacing v)) as [|N]; [reflexivity|]. exfalso. apply N. lra. }
  assert (E' : widen spacing (v - spacing v, v + spacing v) = (v - spacing v, v + spacing v)).
  { cbn [widen]. assert (Z : qabs (v + spacing v - (v - spacing v)) == 2 * spacing v)
      by (rewrite qabs_pos; lra).
    destruct (Qltb_spec (qabs (v + spacing v - (v - spacing v))) (spacing (v + spacing v))) as [B|N]; [|reflexivity].
    exfalso. lra. }
  rewrite E, E'. reflexivity.
Qed.

Lemma hist_degenerate_neg ub spacing data v n ws sh : spacing v <= 0 -> (0 <= n)%Z ->
  histogram ub spacing data (v, v) n ws sh = Err ZeroDivisionError.
Proof.
  intros P N. unfold histogram.
  assert (E : widen spacing (v, v) = (v, v)).
  { cbn [widen]. destruct (Qltb_spec (qabs (v - v)) (spacing v)) as [B|]; [|reflexivity].
    exfalso. pose proof (qabs_nonneg (v - v)). lra. }
  rewrite E. cbn [fst snd]. destruct (linspace_ok v v n N) as [l L]. rewrite L. cbn [bind inv_dx].
  destruct (Qeqb_spec (v - v) 0) as [|B]; [reflexivity|]. exfalso. apply B. ring.
Qed.

(** *** No particles *)
Lemma empty_hist_1d ub spacing w ranges n sh : length ranges = 3%nat -> (2 <= n)%Z ->
  create_hist ub spacing [[]] w ranges (BSeq [n]) sh = Err IndexError.
Proof.
  intros L N. destruct ranges as [|r0 [|r1 rs]]; try discriminate.
  unfold create_hist. cbn [length Nat.leb guard bind np_zeros forallb].
  unfold np_zeros. cbn [forallb]. destruct (Z.leb_spec 0 n); [|lia]. cbn [andb bind].
  destruct (Z.to_nat n) as [|[|k]] eqn:K; [lia|lia|]. cbn [firstn edges_of bins_at nth_error bind].
  unfold create_edges. destruct r0 as [[a b]|].
  - destruct (linspace_ok a b n ltac:(lia)) as [l E]. rewrite E. reflexivity.
  - destruct (linspace_ok 0 1 n ltac:(lia)) as [l E]. rewrite E. reflexivity.
Qed.

Lemma empty_hist_2d ub spacing w ranges n m sh : length ranges = 3%nat -> (3 <= n)%Z -> (0 <= m)%Z ->
  create_hist ub spacing [[]; []] w ranges (BSeq [n; m]) sh = Err IndexError.
Proof.
  intros L N M. destruct ranges as [|r0 [|r1 [|r2 rs]]]; try discriminate.
  unfold create_hist. cbn [length Nat.leb guard bind].
  unfold np_zeros. cbn [forallb]. destruct (Z.leb_spec 0 n); [|lia]. destruct (Z.leb_spec 0 m); [|lia]. cbn [andb bind].
  destruct (Z.to_nat n) as [|[|[|k]]] eqn:K; [lia|lia|lia|]. cbn [firstn edges_of bins_at nth_error bind].
  assert (C : forall r q, (0 <= q)%Z -> exists l, create_edges r q = Ok l).
  { intros r q Q. unfold create_edges. destruct r as [[a b]|]; apply linspace_ok, Q. }
  destruct (C r0 n) as [l E]; [lia|]. destruct (C r1 m) as [l' E']; [lia|]. rewrite E. cbn [bind]. rewrite E'. reflexivity.
Qed.

Lemma empty_hist_3d ub spacing w r0 r1 r2 n m k sh : (3 <= n)%Z -> (0 <= m)%Z -> (0 <= k)%Z ->
  exists h e0 e1 e2,
  create_hist ub spacing [[]; []; []] w [r0; r1; r2] (BSeq [n; m; k]) sh = Ok (h, [e0; e1; e2])
  /\ a_shape h = [n; m; k] /\ (forall idx, a_at h idx = 0)
  /\ length e0 = Z.to_nat (n + 1) /\ length e1 = Z.to_nat (m + 1) /\ length e2 = Z.to_nat (k + 1).
Proof.
  intros N M K.
  unfold create_hist. cbn [length Nat.leb guard bind].
  unfold np_zeros. cbn [forallb]. destruct (Z.leb_spec 0 n); [|lia]. destruct (Z.leb_spec 0 m); [|lia].
  destruct (Z.leb_spec 0 k); [|lia]. cbn [andb bind].
  destruct (Z.to_nat n) as [|[|[|q]]] eqn:Q; [lia|lia|lia|]. cbn [firstn edges_of bins_at nth_error bind].
  rewrite firstn_nil. cbn [edges_of].
  assert (C : forall r q, (0 <= q)%Z -> exists l, create_edges r q = Ok l /\ length l = Z.to_nat (q + 1)).
  { intros r p P. unfold create_edges. destruct r as [[a b]|].
    - destruct (linspace_ok a b p P) as [l E]. exists l. split; [exact E|]. apply (np_linspace_ok _ _ _ _ E).
    - destruct (linspace_ok 0 1 p P) as [l E]. exists l. split; [exact E|]. apply (np_linspace_ok _ _ _ _ E). }
  destruct (C r0 n) as (l & E & L); [lia|]. destruct (C r1 m) as (l' & E' & L'); [lia|].
  destruct (C r2 k) as (l'' & E'' & L''); [lia|]. rewrite E. cbn [bind]. rewrite E'. cbn [bind]. rewrite E''. cbn [bind].
  do 4 eexists. split; [reflexivity|]. repeat split; assumption.
Qed.

(** *** Returned edges *)
Lemma hist1_edges ub spacing d data r n ws : valid_order d -> good_range spacing r n ->
  (forall l, ws = Some l -> length l = length data) ->
  exists h e, histogram ub spacing data r n ws (ShInt (Z.of_nat d)) = Ok (h, e)
   /\ a_shape h = [n] /\ length e = Z.to_nat (n + 1)
   /\ forall i, (0 <= i <= n)%Z -> nth (Z.to_nat i) e 0 == edge r n i.
Proof.
  intros V G L. destruct (order_of_valid d V) as (o & <- & O).
  destruct (histogram_shares ub spacing data r n ws _ o G O) as (h & e & H & Sh & E & _).
  { rewrite weights_ok by exact L. lia. }
  exists h, e. do 2 (split; [assumption|]). destruct (np_linspace_ok _ _ _ _ E) as [LE X]. split; [exact LE|].
  intros i I. unfold good_range in G. rewrite X by lia. rewrite Z2Nat.id by lia.
  replace (n + 1 - 1)%Z with n by lia. reflexivity.
Qed.

Lemma shape_names ub spacing data range bins ws name d :
  In (name, d) [("NGP", 0%Z); ("tophat", 1%Z); ("triangle", 2%Z); ("spline3", 3%Z)]%string ->
  histogram ub spacing data range bins ws (ShName name) = histogram ub spacing data range bins ws (ShInt d)
  /\ (forall datay ry ybins,
        histogram2d ub spacing data datay ws range ry bins ybins (ShName name)
        = histogram2d ub spacing data datay ws range ry bins ybins (ShInt d)
        /\ forall dataz rz zbins,
            histogram3d ub spacing data datay dataz ws range ry rz bins ybins zbins (ShName name)
            = histogram3d ub spacing data datay dataz ws range ry rz bins ybins zbins (ShInt d)).
Proof.
  intro H. assert (E : order_of (ShName name) = order_of (ShInt d)).
  { cbn [In] in H. destruct H as [H|[H|[H|[H|[]]]]]; injection H as <- <-; reflexivity. }
  unfold histogram, histogram2d, histogram3d. rewrite E. auto.
Qed.
(** flat pairs *)
Lemma histdd_flat ub spacing d a b n ws sh : d <> [] -> exists r, resolves_range (Some (Some a, b)) d r
  /\ histogramdd ub spacing (DVec d) (RPair (Some a) b) ws (BInt n) (Some sh) = rmap (fun he => (fst he, [snd he])) (histogram ub spacing d r n ws sh)
  /\ histogramdd ub spacing (DSeq [d]) (RPair (Some a) b) ws (BSeq [n]) (Some sh) = rmap (fun he => (fst he, [snd he])) (histogram ub spacing d r n ws sh).
Proof. intro N. exact (histdd_1d ub spacing d [Some (Some a, b)] n ws sh N (or_intror eq_refl)). Qed.
Lemma histdd_flat_open ub spacing d b n ws sh : histogramdd ub spacing (DVec d) (RPair None b) ws n sh = histogramdd ub spacing (DVec d) RNone ws n sh.
Proof. destruct d as [|x d]; reflexivity. Qed.
Lemma histdd_nothing ub spacing lo hi n ws sh : lo = None \/ hi = None ->
  histogramdd ub spacing (DSeq [[]]) (RSeq [Some (lo, hi)]) ws n sh = Err ValueError
  /\ histogramdd ub spacing (DSeq [[]]) RNone ws n sh = Err ValueError.
Proof. intros [-> | ->]; split; try reflexivity; destruct lo; reflexivity. Qed.
Lemma histdd_empty_refused ub spacing r n ws sh : histogramdd ub spacing (DVec []) r ws n sh = Err IndexError.
Proof. reflexivity. Qed.
Lemma histdd_empty ub spacing a b n ws sh : histogramdd ub spacing (DSeq [[]]) (RSeq [Some (Some a, Some b)]) ws (BInt n) (Some sh)
  = rmap (fun he => (fst he, [snd he])) (histogram ub spacing [] (a, b) n ws sh).
Proof. cbn. destruct (histogram ub spacing [] (a, b) n ws sh); reflexivity. Qed.
