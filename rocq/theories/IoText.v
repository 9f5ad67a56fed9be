(** Lemmas about text files and images. *)
From Coq Require Import String Ascii List ZArith QArith Lia Lqa Bool.
From Verif Require Import PyBase PyBaseFacts NumpyModel NumpyFacts AxisModel AxisSpec AxisFacts AxisInterpFacts NdModel NdFacts FieldModel FieldSpec FieldReduceFacts ReaderFacts IoModel IoSpec IoFacts.
Import ListNotations.
Local Close Scope Q_scope.

Lemma mk_axis_called spl nm un gn g e n ax : mk_axis spl nm un gn g e n = Ok ax -> ax_name ax = nm /\ ax_unit ax = un.
Proof.
  unfold mk_axis. intro H. apply bind_ok in H as (? & _ & H). apply bind_ok in H as (? & _ & H). apply bind_ok in H as (gn' & _ & H). apply bind_ok in H as (g' & _ & H).
  destruct gn' as [|g0 gr]; [discriminate|]. apply bind_ok in H as (? & _ & H). apply bind_ok in H as (? & _ & H). injection H as <-. split; reflexivity.
Qed.
(** pixels are numbered from 0 *)
Definition pixels (nm un : string) (n : nat) (ax : axis) : Prop :=
  ax_name ax = nm /\ ax_unit ax = un /\ ax_len ax = Z.of_nat n /\ length (ax_grid ax) = n /\ axis_up ax /\ forall i, i < n -> (nth i (ax_grid ax) 0 == inject_Z (Z.of_nat i))%Q.
Lemma pixel_axis_ok spl nm un n : reproduces_lines spl -> 1 <= n -> exists ax, pixel_axis spl nm un (Z.of_nat n) = Ok ax /\ pixels nm un n ax.
Proof.
  intros Hs Hn. unfold pixel_axis. destruct (Nat.eq_dec n 1) as [-> | N1].
  - cbn [np_linspace]. destruct (axis_from_single_point spl nm un 0%Q) as (ax & E & Eg & _ & U). change (np_linspace 0 (inject_Z (Z.of_nat 1 - 1)) (Z.of_nat 1)) with (Ok [0%Q]). cbn [bind]. exists ax. split; [exact E|].
    destruct (mk_axis_called _ _ _ _ _ _ _ _ E) as [E1 E2]. split; [exact E1|]. split; [exact E2|]. split; [destruct U as [_ (_ & _ & D)]; unfold ax_len; rewrite D, Eg; reflexivity|]. split; [now rewrite Eg|]. split; [exact U|].
    intros i Hi. assert (i = 0) as -> by lia. now rewrite Eg.
  - destruct (np_linspace_total 0 (inject_Z (Z.of_nat n - 1)) (Z.of_nat n)) as [g Hg]; [lia|]. rewrite Hg. cbn [bind]. destruct (np_linspace_ok _ _ _ _ Hg) as [Lg Vg]. rewrite Nat2Z.id in *.
    assert (Vi : forall i, i < n -> (nth i g 0 == inject_Z (Z.of_nat i))%Q).
    { intros i Hi. rewrite Vg by lia. field. intro C. apply inject_Z_nz in C; [exact C|lia]. }
    destruct (axis_from_uniform_grid spl nm un g 1) as (ax & E & Eg & U); [exact Hs|lia|lra|intros i Hi; rewrite !Vi by lia; change (inject_Z (Z.of_nat 0)) with 0%Q; ring|].
    exists ax. split; [exact E|]. destruct (mk_axis_called _ _ _ _ _ _ _ _ E) as [E1 E2]. split; [exact E1|]. split; [exact E2|]. assert (U' := U). destruct U' as (_ & L & N & _). split; [unfold ax_len; now rewrite N, Lg|]. split; [now rewrite Eg, Lg|]. split.
    + eapply uniform_up; [|..|exact U]; [lia|]. rewrite Lg, Vi by lia. change (inject_Z (Z.of_nat 0)) with 0%Q. assert (0 < inject_Z (Z.of_nat n))%Q by (apply inject_Z_pos; lia). lra.
    + intros i Hi. rewrite Eg. now apply Vi.
Qed.

(** * csv *)
Lemma split_one d w : has d w = false -> split_at d w = [w].
Proof. induction w as [|c w IH]; cbn; [reflexivity|]. destruct (Ascii.eqb c d); [discriminate|]. intro H. now rewrite IH. Qed.
Lemma split_cons d w r : has d w = false -> split_at d (w ++ String d r) = w :: split_at d r.
Proof. induction w as [|c w IH]; cbn; [now rewrite Ascii.eqb_refl|]. destruct (Ascii.eqb c d); [discriminate|]. intro H. now rewrite IH. Qed.
Lemma split_joined d l : l <> [] -> Forall (fun w => has d w = false) l -> split_at d (joined (String d "") l) = l.
Proof.
  intros N F. induction F as [|w l Hw F IH]; [congruence|]. destruct l as [|w' l]; [cbn; now apply split_one|].
  change (joined (String d "") (w :: w' :: l)) with (w ++ String d (joined (String d "") (w' :: l)))%string. rewrite split_cons by exact Hw. now rewrite IH.
Qed.
Lemma has_app d a b : has d (a ++ b) = has d a || has d b.
Proof. induction a as [|c a IH]; cbn; [reflexivity|]. destruct (Ascii.eqb c d); [reflexivity|exact IH]. Qed.
Lemma has_joined d e l : has d e = false -> Forall (fun w => has d w = false) l -> has d (joined e l) = false.
Proof.
  intros He F. induction F as [|w l Hw F IH]; [reflexivity|]. destruct l as [|w' l]; [exact Hw|]. change (joined e (w :: w' :: l)) with (w ++ e ++ joined e (w' :: l))%string. now rewrite !has_app, Hw, He, IH.
Qed.
Lemma joined_nonempty e l : l <> [] -> Forall (fun w => w <> ""%string) l -> joined e l <> ""%string.
Proof.
  intros N F. destruct F as [|w l Hw F]; [congruence|]. destruct l as [|w' l]; [exact Hw|]. change (joined e (w :: w' :: l)) with (w ++ e ++ joined e (w' :: l))%string. destruct w; [congruence|discriminate].
Qed.
Lemma filter_all {A} (p : A -> bool) l : (forall x, In x l -> p x = true) -> filter p l = l.
Proof. induction l as [|x l IH]; intro H; [reflexivity|]. cbn. rewrite H by now left. f_equal. apply IH. intros; apply H; now right. Qed.
Lemma all_len_ok {A} n (l : list (list A)) : (forall x, In x l -> length x = n) -> all_len n l = true.
Proof. induction l as [|x l IH]; intro H; [reflexivity|]. cbn. rewrite H by now left. rewrite Nat.eqb_refl. apply IH. intros; apply H; now right. Qed.
Lemma zrange_length n : length (zrange n) = Z.to_nat n.
Proof. unfold zrange. now rewrite map_length, seq_length. Qed.
Lemma zrange_nth n k : k < Z.to_nat n -> nth_error (zrange n) k = Some (Z.of_nat k).
Proof. intro H. unfold zrange. rewrite nth_error_map, (nth_error_nth' _ 0) by (rewrite seq_length; exact H). cbn. now rewrite seq_nth. Qed.
Definition text (fmt : Q -> string) (a : nda Q) (n m : nat) : list string := map (fun i => joined " " (map (fun j => fmt (a_at a [i; j])) (zrange (Z.of_nat m)))) (zrange (Z.of_nat n)).
Lemma text_nonempty fmt parse d a n m l : (forall i j, (0 <= i < Z.of_nat n)%Z -> (0 <= j < Z.of_nat m)%Z -> readable fmt parse d (a_at a [i; j])) -> 1 <= m -> In l (text fmt a n m) -> l <> ""%string.
Proof.
  intros R Hm I. unfold text in I. apply in_map_iff in I as (i & <- & I). apply zrange_In in I. apply joined_nonempty.
  - destruct m; [lia|]. unfold zrange. rewrite Nat2Z.id. discriminate.
  - apply Forall_forall. intros w Iw. apply in_map_iff in Iw as (j & <- & Ij). apply zrange_In in Ij. now apply R.
Qed.
Lemma csv_space_ok spl fmt parse base a n m : reproduces_lines spl -> a_shape a = [Z.of_nat n; Z.of_nat m] -> 2 <= n -> 2 <= m ->
  (forall i j, (0 <= i < Z.of_nat n)%Z -> (0 <= j < Z.of_nat m)%Z -> readable fmt parse " " (a_at a [i; j])) ->
  exists file g, export_csv fmt a = Ok file /\ import_csv spl parse base " " file = Ok g /\ f_shape g = a_shape a /\
    (forall i j, (0 <= i < Z.of_nat n)%Z -> (0 <= j < Z.of_nat m)%Z -> a_at (f_data g) [i; j] = Some (a_at a [i; j])) /\
    l_name (f_top g) = base /\ exists x y, f_axes g = [x; y] /\ pixels "x" "px" n x /\ pixels "y" "px" m y.
Proof.
  intros Hs Sh Hn Hm R. unfold export_csv. rewrite Sh. eexists. 
  assert (G : forall i, In i (zrange (Z.of_nat n)) -> split_at " " (joined " " (map (fun j => fmt (a_at a [i; j])) (zrange (Z.of_nat m)))) = map (fun j => fmt (a_at a [i; j])) (zrange (Z.of_nat m))).
  { intros i I. apply zrange_In in I. apply split_joined; [destruct m; [lia|]; unfold zrange; rewrite Nat2Z.id; discriminate|]. apply Forall_forall. intros w Iw. apply in_map_iff in Iw as (j & <- & Ij). apply zrange_In in Ij. now apply R. }
  set (rows := map (fun i => map (fun j => fmt (a_at a [i; j])) (zrange (Z.of_nat m))) (zrange (Z.of_nat n))).
  assert (Er : map (split_at " ") (filter (fun l => negb (String.eqb l "")) (text fmt a n m)) = rows).
  { rewrite filter_all; [|intros l I; apply Bool.negb_true_iff, String.eqb_neq; eapply text_nonempty; [exact R|lia|exact I]]. unfold text, rows. rewrite map_map. apply map_ext_in. exact G. }
  assert (Lr : length rows = n) by (unfold rows; now rewrite map_length, zrange_length, Nat2Z.id).
  assert (Ll : forall r, In r rows -> length r = m) by (intros r I; unfold rows in I; apply in_map_iff in I as (i & <- & _); now rewrite map_length, zrange_length, Nat2Z.id).
  unfold import_csv, genfromtxt. fold (text fmt a n m). rewrite Er. destruct rows as [|r0 rs] eqn:E0; [cbn in Lr; lia|]. rewrite <- E0 in *. rewrite (Ll r0) by (rewrite E0; now left). rewrite all_len_ok by exact Ll. cbn [bind]. rewrite Lr.
  destruct (Z.eqb_spec (Z.of_nat n) 1); [lia|]. destruct (Z.eqb_spec (Z.of_nat m) 1); [lia|]. cbn [mapM fst snd a_shape].
  destruct (pixel_axis_ok spl "x" "px" n Hs) as (x & Ex & Px); [lia|]. destruct (pixel_axis_ok spl "y" "px" m Hs) as (y & Ey & Py); [lia|].
  change (getidx [Z.of_nat n; Z.of_nat m] 0) with (Ok (Z.of_nat n)). change (getidx [Z.of_nat n; Z.of_nat m] 1) with (Ok (Z.of_nat m)). cbn [bind]. rewrite Ex. cbn [bind]. rewrite Ey. cbn [bind].
  eexists. split; [reflexivity|]. split; [apply field_of_total; [cbn [map]; destruct Px as (_ & _ & -> & _); destruct Py as (_ & _ & -> & _); reflexivity|cbn; lia]|].
  split; [reflexivity|]. split; [|split; [reflexivity|exists x, y; split; [reflexivity|now split]]].
  intros i j Hi Hj. cbn [f_data a_at]. unfold rows. rewrite nth_error_map, zrange_nth by lia. cbn [option_map]. rewrite Z2Nat.id by lia. rewrite nth_error_map, zrange_nth by lia. cbn [option_map]. rewrite Z2Nat.id by lia. now apply R.
Qed.
(** with the delimiter import_field takes by itself nothing is read *)
Lemma csv_default_fails spl fmt parse base a n m : reproduces_lines spl -> a_shape a = [Z.of_nat n; Z.of_nat m] -> 1 <= n -> 1 <= m ->
  (forall i j, (0 <= i < Z.of_nat n)%Z -> (0 <= j < Z.of_nat m)%Z -> readable fmt parse "," (a_at a [i; j])) ->
  exists file, export_csv fmt a = Ok file /\ import_csv spl parse base "," file = Err IndexError.
Proof.
  intros Hs Sh Hn Hm R. unfold export_csv. rewrite Sh. eexists. split; [reflexivity|]. fold (text fmt a n m).
  assert (Er : map (split_at ",") (filter (fun l => negb (String.eqb l "")) (text fmt a n m)) = map (fun l => [l]) (text fmt a n m)).
  { rewrite filter_all; [|intros l I; apply Bool.negb_true_iff, String.eqb_neq; eapply text_nonempty; [exact R|lia|exact I]]. apply map_ext_in. intros l I. apply split_one. unfold text in I. apply in_map_iff in I as (i & <- & I). apply zrange_In in I.
    apply has_joined; [reflexivity|]. apply Forall_forall. intros w Iw. apply in_map_iff in Iw as (j & <- & Ij). apply zrange_In in Ij. now apply R. }
  unfold import_csv, genfromtxt. rewrite Er. clear Er. assert (L : length (text fmt a n m) = n) by (unfold text; now rewrite map_length, zrange_length, Nat2Z.id). destruct (text fmt a n m) as [|l0 ls] eqn:El; [cbn in L; lia|]. rewrite <- El in *.
  assert (E2 : map (fun l => [l]) (text fmt a n m) = [l0] :: map (fun l => [l]) ls) by (rewrite El; reflexivity). rewrite E2. rewrite <- E2. cbn [length]. rewrite all_len_ok by (intros x I; apply in_map_iff in I as (? & <- & _); reflexivity). rewrite map_length, L.
  cbn [bind Z.of_nat Z.eqb]. destruct (Z.eqb_spec (Z.of_nat n) 1); cbn [Pos.of_succ_nat Z.eqb Pos.eqb]; cbn [mapM fst snd a_shape bind]; [reflexivity|].
  destruct (pixel_axis_ok spl "x" "px" n Hs) as (x & Ex & Px); [lia|]. change (getidx [Z.of_nat n] 0) with (Ok (Z.of_nat n)). cbn [bind]. rewrite Ex. reflexivity.
Qed.
Lemma csv_load spl disk stem : load_field spl disk (stem ++ ".csv") = Err ValueError.
Proof.
  unfold load_field. assert (X : endswith (lower (stem ++ ".csv")) "npz" = false); [|now rewrite X]. rewrite lower_app. change (lower ".csv") with ".csv"%string. generalize (lower stem) as s. clear.
  induction s as [|c s IH]; [reflexivity|]. cbn [String.append endswith]. rewrite IH. destruct (String.eqb_spec (String c (s ++ ".csv")) "npz") as [E|]; [|reflexivity].
  exfalso. assert (L : forall s, 4 <= String.length (s ++ ".csv")) by (induction s0 as [|? ? IH']; cbn; lia). assert (H := f_equal String.length E). specialize (L s). cbn in H. lia.
Qed.
Lemma csv_dims fmt a : (length (a_shape a) = 0 \/ 3 <= length (a_shape a)) -> export_csv fmt a = Err ValueError.
Proof. unfold export_csv. destruct (a_shape a) as [|x [|y [|z l]]]; cbn; intro H; try reflexivity; lia. Qed.

(** * images *)
Lemma image_ok spl open3 base hot a h w rest : reproduces_lines spl -> a_shape a = Z.of_nat h :: Z.of_nat w :: rest -> 1 <= h -> 1 <= w -> (rest = [] \/ exists n, 1 <= n /\ rest = [Z.of_nat n] /\ (hot = false \/ 5 <= n)) ->
  exists g, import_image spl open3 base hot a = Ok g /\ f_shape g = Z.of_nat w :: Z.of_nat h :: rest /\
    (forall r c k, (0 <= r < Z.of_nat h)%Z -> (0 <= c < Z.of_nat w)%Z -> a_at (f_data g) (c :: (Z.of_nat h - 1 - r)%Z :: k) = a_at a (r :: c :: k)) /\
    (exists x y axs, f_axes g = x :: y :: axs /\ pixels "x" "px" w x /\ pixels "y" "px" h y /\ length axs = length rest) /\ l_name (f_top g) = base.
Proof.
  intros Hs Sh Hh Hw Hr. unfold import_image.
  assert (E0 : (if hot then hotpixels open3 a else Ok a) = Ok a).
  { destruct hot; [|reflexivity]. unfold hotpixels. rewrite Sh. destruct Hr as [-> | (n & _ & -> & [C|C])]; [reflexivity|discriminate|]. destruct (Z.ltb_spec (Z.of_nat n) 5); [lia|reflexivity]. }
  rewrite E0. cbn [bind]. unfold upright. rewrite Sh. cbn [bind a_shape combine mapM fst snd].
  destruct (pixel_axis_ok spl "x" "px" w Hs Hw) as (x & Ex & Px). destruct (pixel_axis_ok spl "y" "px" h Hs Hh) as (y & Ey & Py). rewrite Ex. cbn [bind]. rewrite Ey. cbn [bind].
  assert (V : forall r c k, (0 <= r < Z.of_nat h)%Z -> a_at a ((Z.of_nat h - 1 - (Z.of_nat h - 1 - r))%Z :: c :: k) = a_at a (r :: c :: k)) by (intros; do 2 f_equal; lia).
  destruct Hr as [-> | (n & Hn & -> & _)].
  - cbn [combine mapM bind]. eexists. split; [apply field_of_total; [cbn [map a_shape]; destruct Px as (_ & _ & -> & _); destruct Py as (_ & _ & -> & _); reflexivity|cbn; lia]|].
    split; [reflexivity|]. split; [intros r c k Hr _; apply V, Hr|]. split; [|reflexivity]. exists x, y, []. split; [reflexivity|]. split; [exact Px|]. split; [exact Py|reflexivity].
  - destruct (pixel_axis_ok spl "channel" "" n Hs Hn) as (z & Ez & Pz). cbn [combine mapM bind fst snd]. rewrite Ez. cbn [bind]. eexists. split; [apply field_of_total; [cbn [map a_shape]; destruct Px as (_ & _ & -> & _); destruct Py as (_ & _ & -> & _); destruct Pz as (_ & _ & -> & _); reflexivity|cbn; lia]|].
    split; [reflexivity|]. split; [intros r c k Hr _; apply V, Hr|]. split; [|reflexivity]. exists x, y, [z]. split; [reflexivity|]. split; [exact Px|]. split; [exact Py|reflexivity].
Qed.
Lemma hot_colour spl open3 base a h w n : a_shape a = [h; w; n] -> (0 <= n < 5)%Z -> (forall b, a_shape (open3 b) = a_shape b) -> import_image spl open3 base true a = Err RuntimeError.
Proof.
  intros Sh Hn Ho. unfold import_image, hotpixels. rewrite Sh. destruct (Z.ltb_spec n 5); [|lia].
  assert (G : forall l b, a_shape b = [h; w; n] -> exists c, fold_left (fun b i => let! a := b in let! c := grey_opening open3 (channel a i) in Ok (set_channel a i c)) l (Ok b) = Ok c /\ a_shape c = [h; w; n]).
  { induction l as [|i l IH]; intros b Sb; [exists b; now split|]. cbn [fold_left bind]. unfold grey_opening at 2, channel at 2. rewrite Sb. cbn [a_shape bind]. apply IH. exact Sb. }
  destruct (G (zrange n) a Sh) as (c & Ec & Sc). rewrite Ec. cbn [bind]. unfold grey_opening. rewrite Sc. reflexivity.
Qed.
Lemma png_ok b (a : nda Z) : (0 <= b <= 16)%Z -> exists c, png_counts true (Some [b]) a = Ok c /\ a_shape c = a_shape a /\ forall i v, a_at a i = (v * 2 ^ (16 - b))%Z -> a_at c i = v.
Proof.
  intro H. unfold png_counts. cbn [negb]. destruct (Z.ltb_spec 16 b); [lia|]. eexists. split; [reflexivity|]. split; [reflexivity|]. intros i v E. cbn [np_map a_at]. rewrite E, Z.shiftr_div_pow2 by lia. apply Z.div_mul. clear E. apply Z.pow_nonzero; [discriminate|lia].
Qed.
Lemma png_eight b (a c : nda Z) i : (0 <= b <= 8)%Z -> png_counts true (Some [b]) a = Ok c -> (0 <= a_at a i < 256)%Z -> a_at c i = 0%Z.
Proof.
  intros H E Hv. assert (P : (0 <= 16 - b)%Z) by lia. assert (P8 : (8 <= 16 - b)%Z) by lia. unfold png_counts in E. cbn [negb] in E. destruct (Z.ltb_spec 16 b); [lia|]. injection E as <-. cbn [np_map a_at]. rewrite Z.shiftr_div_pow2 by exact P. apply Z.div_small. split; [apply Hv|].
  apply Z.lt_le_trans with 256%Z; [apply Hv|]. change 256%Z with (2 ^ 8)%Z. apply Z.pow_le_mono_r; [reflexivity|exact P8].
Qed.
Lemma hot_grey spl open3 base a h w : a_shape a = [h; w] -> import_image spl open3 base true a = import_image spl open3 base false a.
Proof. intro E. unfold import_image, hotpixels. now rewrite E. Qed.

(** * the ending of the name *)
Lemma endswith_three s ext suffix : String.length ext = 3 -> String.length suffix = 3 -> endswith (s ++ ext) suffix = String.eqb ext suffix.
Proof.
  intros L M. induction s as [|c s IH].
  - cbn [String.append]. destruct ext as [|a [|b [|d [|]]]]; try discriminate L. cbn [endswith]. destruct (String.eqb _ suffix); [reflexivity|].
    destruct suffix as [|a' [|b' [|d' [|]]]]; try discriminate M. cbn. destruct (Ascii.eqb b a'), (Ascii.eqb d b'), (Ascii.eqb d a'); reflexivity.
  - cbn [String.append endswith]. rewrite IH. destruct (String.eqb_spec (String c (s ++ ext)) suffix) as [E|]; [|reflexivity].
    exfalso. assert (H := f_equal String.length E). cbn in H. assert (Q : forall s, String.length (s ++ ext) = String.length s + String.length ext) by (induction s0 as [|? ? IH']; cbn; [reflexivity|now rewrite IH']). rewrite Q in H. lia.
Qed.
Lemma lower_len s : String.length (lower s) = String.length s.
Proof. induction s as [|c s IH]; cbn; [reflexivity|now rewrite IH]. Qed.
Lemma export_by_name spl unstag fmt stem ext f : String.length ext = 3 ->
  export_field spl unstag fmt (stem ++ ext) f =
    if String.eqb (lower ext) "npz" then rmap (fun z => (savez_name (stem ++ ext), FNpz z)) (export_npz f)
    else if String.eqb (lower ext) "csv" then rmap (fun l => ((stem ++ ext)%string, FText l)) (export_csv fmt (f_data f))
    else if String.eqb (lower ext) "vtk" then rmap (fun v => ((stem ++ ext)%string, FVtk v)) (export_scalars spl unstag true false [f])
    else Err ValueError.
Proof.
  intro L. unfold export_field. rewrite lower_app. rewrite !endswith_three by (rewrite ?lower_len; auto). reflexivity.
Qed.
Lemma load_by_name spl disk stem ext : String.length ext = 3 ->
  load_field spl disk (stem ++ ext) = if String.eqb (lower ext) "npz" then match disk (stem ++ ext)%string with Some (FNpz z) => import_npz spl z | Some _ => Err ValueError | None => Err IOError end else Err ValueError.
Proof. intro L. unfold load_field. rewrite lower_app. rewrite endswith_three by (rewrite ?lower_len; auto). destruct (String.eqb _ _); reflexivity. Qed.
