(** Particle collections: C33-C38.  In all theorems [sizes] is the number of particles of a
    species, and [history sizes w s] says that w is the store after some sequence of
    permitted operations and s the selections followed alongside (ParticleSpec). *)
From Coq Require Import Lia.
From Verif Require Import PyBase PyBaseFacts NumpyModel NdModel FieldModel HelperModel ParticleModel ParticleSpec ParticleFacts ParticleOps ParticleHist ParticleRun ParticleLaws ParticleDemo.
Open Scope list_scope.

(** ** C38: reading never shows more or less than the selected part of the raw data *)
Theorem C38_reads_partial : forall sizes A (e : expr A) w s m w' d,
  history sizes w s -> (m < length (w_ms w))%nat -> ms_call m e w = (w', Ok d) ->
  flat d = all_values e (nth m s []).
Proof. intros sizes A. exact (@call_values sizes A). Qed.
Print Assumptions C38_reads_partial.
Theorem C38_readable_partial : forall sizes A (e : expr A) w s m,
  history sizes w s -> (m < length (w_ms w))%nat ->
  (forall g, In g (nth m s []) -> g_sel g <> [] /\ forall key, In key (e_keys e) -> known (g_dump g) (g_name g) key) ->
  outcome m e w = Ok (VVec (all_values e (nth m s []))).
Proof. intros sizes A. exact (@call_total sizes A). Qed.
Print Assumptions C38_readable_partial.
Theorem C38_length_partial : forall sizes w s m,
  history sizes w s -> (m < length (w_ms w))%nat -> snd (ms_len m w) = Ok (total (nth m s [])).
Proof. exact len_total. Qed.
Print Assumptions C38_length_partial.
(** no permitted operation changes what an existing collection shows, except += on it *)
Theorem C38_frame_partial : forall sizes A (e : expr A) o w s m,
  history sizes w s -> allowed sizes o w -> (m < length (w_ms w))%nat -> (forall x, o <> UIadd m x) ->
  outcome m e (step o w) = outcome m e w /\ snd (ms_len m (step o w)) = snd (ms_len m w).
Proof. intros sizes A. exact (@frame sizes A). Qed.
Print Assumptions C38_frame_partial.
Example C38_case : history demo_sizes demo1 track1 /\ length (w_ms demo1) = 2%nat /\
  map (map g_sel) track1 = [[[0; 1; 2; 3]; [0; 1]]; [[0; 3]; [0]]]%nat /\
  outcome 1 px demo1 = Ok (VVec [1; 4; 5]) /\ outcome 1 pmass demo1 = Ok (VVec [9; 9; 18]) /\
  (forall g, In g (nth 1 track1 []) -> g_sel g <> [] /\ forall key, In key (e_keys px) -> known (g_dump g) (g_name g) key) /\
  allowed demo_sizes (UFilter 1 (x_above 2)) demo1.
Proof.
  split; [exact demo1_history|]. do 4 (split; [vm_compute; reflexivity|]). split; [|vm_compute; repeat constructor].
  intros g I. vm_compute in I. destruct I as [<-|[<-|[]]]; (split; [discriminate|]); intros key [<-|[]]; discriminate.
Qed.
(** the user writes into the array that was passed to compress: the collection changes *)
Theorem C38_alias_refuted : exists sizes w s m k p b,
  history sizes w s /\ (m < length (w_ms w))%nat /\ outcome m px (step (UWrite k p b) w) <> outcome m px w.
Proof.
  exists demo_sizes, demo1, track1, 1%nat, 0%nat, 1%nat, true. split; [exact demo1_history|]. split; [vm_compute; lia|].
  vm_compute. discriminate.
Qed.
Print Assumptions C38_alias_refuted.

(** ** C33: successive filters *)
Theorem C33_conjunction_partial : forall sizes es m w s w' m',
  history sizes w s -> (m < length (w_ms w))%nat -> filter_chain es m w = (w', Ok m') ->
  exists s', history sizes w' (s ++ s') /\
    nth m' (s ++ s') [] = map (select_if (fun g i => forallb (fun e => expr_value e g i) es)) (nth m s []) /\
    (m' < length (s ++ s'))%nat.
Proof. exact chain_ok. Qed.
Print Assumptions C33_conjunction_partial.
Theorem C33_accepted_partial : forall sizes e w s m,
  history sizes w s -> (m < length (w_ms w))%nat ->
  (forall g, In g (nth m s []) -> g_sel g <> [] /\ (forall key, In key (e_keys e) -> known (g_dump g) (g_name g) key) /\
     exists key, In key (e_keys e) /\ ~ is_scalar (g_dump g) (g_name g) key) ->
  is_ok (snd (ms_filter m e w)) = true.
Proof. exact filter_total. Qed.
Print Assumptions C33_accepted_partial.
Example C33_case : history demo_sizes demo0 track0 /\
  (let r := filter_chain [x_above 1; x_above 2; x_above (7 # 2)] 0 demo0 in
   snd r = Ok 3%nat /\ outcome 3 px (fst r) = Ok (VVec [4; 5; 6]) /\ outcome 0 px (fst r) = Ok (VVec [1; 2; 3; 4; 5; 6])) /\
  (forall g, In g (nth 0 track0 []) -> g_sel g <> [] /\ (forall key, In key (e_keys (x_above 1)) -> known (g_dump g) (g_name g) key) /\
     exists key, In key (e_keys (x_above 1)) /\ ~ is_scalar (g_dump g) (g_name g) key).
Proof.
  split; [exact demo0_history|]. split; [vm_compute; auto|].
  intros g I. vm_compute in I. destruct I as [<-|[<-|[]]]; (split; [discriminate|]; split; [intros key [<-|[]]; discriminate|]);
  exists "x"%string; (split; [now left|]); intros [q H]; discriminate H.
Qed.
(** a condition on a quantity that is constant for a species raises TypeError *)
Theorem C33_constant_refuted : exists sizes w s m e,
  history sizes w s /\ (m < length (w_ms w))%nat /\
  (forall g, In g (nth m s []) -> g_sel g <> [] /\ forall key, In key (e_keys e) -> known (g_dump g) (g_name g) key) /\
  snd (ms_filter m e w) = Err TypeError.
Proof.
  exists demo_sizes, demo0, track0, 0%nat, (mass_above 10). split; [exact demo0_history|]. split; [vm_compute; lia|]. split; [|reflexivity].
  intros g I. vm_compute in I. destruct I as [<-|[<-|[]]]; (split; [discriminate|]); intros key [<-|[]]; discriminate.
Qed.
Print Assumptions C33_constant_refuted.

(** ** C37: a boolean condition for all species *)
Theorem C37_values_partial : forall sizes A (e : expr A) w s m v w1 m1 d d1,
  history sizes w s -> allowed sizes (UCompress m v) w ->
  ms_compress m v w = (w1, Ok m1) -> outcome m e w = Ok d -> outcome m1 e w1 = Ok d1 ->
  flat d1 = keep (firstn (v_len v) (skipn (v_off v) (nth (v_buf v) (w_bools w) []))) (flat d).
Proof. intros sizes A. exact (@compress_values sizes A). Qed.
Print Assumptions C37_values_partial.
(** accepted exactly if the array is long enough; each species gets its own part *)
Theorem C37_distribution_partial : forall sizes w s m v,
  history sizes w s -> allowed sizes (UCompress m v) w ->
  if (total (nth m s []) <=? v_len v)%nat
  then snd (ms_compress m v w) = Ok (length s) /\
    history sizes (fst (ms_compress m v w))
      (s ++ [distribute (firstn (v_len v) (skipn (v_off v) (nth (v_buf v) (w_bools w) []))) (nth m s [])])
  else snd (ms_compress m v w) = Err ValueError /\ history sizes (fst (ms_compress m v w)) s.
Proof. exact compress_result. Qed.
Print Assumptions C37_distribution_partial.
Example C37_case : allowed demo_sizes (UCompress 0 (mkview 0 1 4)) demo1 /\ snd (ms_compress 0 (mkview 0 1 4) demo1) = Err ValueError /\
  allowed demo_sizes (UCompress 1 (mkview 0 2 3)) demo1 /\ snd (ms_compress 1 (mkview 0 2 3) demo1) = Ok 2%nat /\
  outcome 2 px (fst (ms_compress 1 (mkview 0 2 3) demo1)) = Ok (VVec [4; 5]).
Proof. split; [vm_compute; repeat constructor|]. split; [reflexivity|]. split; [vm_compute; repeat constructor|]. split; reflexivity. Qed.
(** an array that is too long does not raise *)
Theorem C37_long_refuted : exists sizes w s m v,
  history sizes w s /\ allowed sizes (UCompress m v) w /\ (total (nth m s []) < v_len v)%nat /\
  is_ok (snd (ms_compress m v w)) = true.
Proof.
  exists demo_sizes, demo1, track1, 1%nat, (mkview 0 0 6). split; [exact demo1_history|]. split; [vm_compute; repeat constructor|].
  split; [vm_compute; lia|reflexivity].
Qed.
Print Assumptions C37_long_refuted.

(** ** C34: selection by ids *)
Theorem C34_membership_partial : forall sizes w s m k w1 m1,
  history sizes w s -> allowed sizes (UCompressIds m k) w -> ms_compress_ids m k w = (w1, Ok m1) ->
  history sizes w1 (s ++ [map (select_if (has_id (nth k (w_ids w) []))) (nth m s [])]) /\ m1 = length s.
Proof. exact ids_step. Qed.
Print Assumptions C34_membership_partial.
Theorem C34_set_partial : forall sizes A (e : expr A) w s m k k',
  history sizes w s -> allowed sizes (UCompressIds m k) w -> allowed sizes (UCompressIds m k') w ->
  (forall z, In z (nth k (w_ids w) []) <-> In z (nth k' (w_ids w) [])) ->
  let r := ms_compress_ids m k w in let r' := ms_compress_ids m k' w in
  snd r = snd r' /\ forall m1, snd r = Ok m1 -> outcome m1 e (fst r) = outcome m1 e (fst r') /\ snd (ms_len m1 (fst r)) = snd (ms_len m1 (fst r')).
Proof. intros sizes A. exact (@ids_same_set sizes A). Qed.
Print Assumptions C34_set_partial.
Theorem C34_accepted_partial : forall sizes w s m k,
  history sizes w s -> allowed sizes (UCompressIds m k) w -> nth k (w_ids w) [] <> [] ->
  (forall g, In g (nth m s []) -> g_sel g <> [] /\ known (g_dump g) (g_name g) "id" /\ ~ is_scalar (g_dump g) (g_name g) "id") ->
  is_ok (snd (ms_compress_ids m k w)) = true.
Proof. exact ids_total. Qed.
Print Assumptions C34_accepted_partial.
Example C34_case : allowed demo_sizes (UCompressIds 0 0) demo1 /\ snd (ms_compress_ids 0 0 demo1) = Ok 2%nat /\
  outcome 2 px (fst (ms_compress_ids 0 0 demo1)) = Ok (VVec [1; 3; 5]) /\
  (let w := step (UIds [10; 1; 3]%Z) demo1 in
   allowed demo_sizes (UCompressIds 0 1) w /\ (forall z, In z (nth 0 (w_ids w) []) <-> In z (nth 1 (w_ids w) []))) /\
  nth 0 (w_ids demo1) [] <> [] /\
  (forall g, In g (nth 0 track1 []) -> g_sel g <> [] /\ known (g_dump g) (g_name g) "id" /\ ~ is_scalar (g_dump g) (g_name g) "id").
Proof.
  split; [vm_compute; repeat constructor|]. do 2 (split; [vm_compute; reflexivity|]). split.
  { split; [vm_compute; repeat constructor|]. intro z. cbn. intuition. }
  split; [discriminate|]. intros g I. vm_compute in I. destruct I as [<-|[<-|[]]]; (split; [discriminate|]; split; [discriminate|]); intros [q H]; discriminate H.
Qed.
(** the array of ids is sorted in place *)
Theorem C34_argument_refuted : exists sizes w s m k,
  history sizes w s /\ allowed sizes (UCompressIds m k) w /\ is_ok (snd (ms_compress_ids m k w)) = true /\
  nth k (w_ids (fst (ms_compress_ids m k w))) [] <> nth k (w_ids w) [].
Proof.
  exists demo_sizes, demo1, track1, 0%nat, 0%nat. split; [exact demo1_history|]. split; [vm_compute; repeat constructor|]. split; [reflexivity|]. vm_compute. discriminate.
Qed.
Print Assumptions C34_argument_refuted.
(** an empty list of ids does not select nothing but raises IndexError *)
Theorem C34_empty_refuted : exists sizes w s m k,
  history sizes w s /\ allowed sizes (UCompressIds m k) w /\ nth k (w_ids w) [] = [] /\ snd (ms_compress_ids m k w) = Err IndexError.
Proof.
  exists demo_sizes, (step (UIds []) demo0), track0, 0%nat, 0%nat. split; [|split; [vm_compute; repeat constructor|split; reflexivity]].
  apply (h_step demo_sizes (UIds []) demo0 track0); [exact demo0_history|exact I].
Qed.
Print Assumptions C34_empty_refuted.

(** ** C35: inversion *)
Theorem C35_complement_partial : forall sizes w s m, history sizes w s -> (m < length (w_ms w))%nat ->
  snd (ms_invert m w) = Ok (length s) /\ history sizes (fst (ms_invert m w)) (s ++ [map complement (nth m s [])]).
Proof. exact invert_step. Qed.
Print Assumptions C35_complement_partial.
Theorem C35_groups_partial : forall sizes w s m g, history sizes w s -> In g (nth m s []) ->
  g_count g = sizes (g_dump g) (g_name g) /\ in_order g.
Proof. exact history_groups. Qed.
Print Assumptions C35_groups_partial.
Theorem C35_count_partial : forall gs, Forall in_order gs ->
  (total gs + total (map complement gs) = fold_right Nat.add 0 (map g_count gs))%nat.
Proof. exact complement_total. Qed.
Print Assumptions C35_count_partial.
Theorem C35_involution_partial : forall sizes A (e : expr A) w s m, history sizes w s -> (m < length (w_ms w))%nat ->
  let w1 := fst (ms_invert m w) in let w2 := fst (ms_invert (length s) w1) in
  let s2 := (s ++ [map complement (nth m s []); map complement (map complement (nth m s []))])%list in
  nth (S (length s)) s2 [] = nth m s [] /\ history sizes w2 s2 /\ outcome (S (length s)) e w2 = outcome m e w.
Proof. intros sizes A. exact (@invert_twice sizes A). Qed.
Print Assumptions C35_involution_partial.
Theorem C35_uncompress_partial : forall sizes w s m, history sizes w s -> (m < length (w_ms w))%nat ->
  snd (ms_uncompress m w) = Ok (length s) /\ history sizes (fst (ms_uncompress m w)) (s ++ [map everything (nth m s [])]).
Proof. exact uncompress_step. Qed.
Print Assumptions C35_uncompress_partial.
Example C35_case : (1 < length (w_ms demo1))%nat /\
  outcome 2 px (fst (ms_invert 1 demo1)) = Ok (VVec [2; 3; 6]) /\
  outcome 3 px (fst (ms_invert 2 (fst (ms_invert 1 demo1)))) = Ok (VVec [1; 4; 5]) /\
  outcome 2 px (fst (ms_uncompress 1 demo1)) = Ok (VVec [1; 2; 3; 4; 5; 6]) /\ Forall in_order (nth 1 track1 []).
Proof.
  split; [vm_compute; lia|]. do 3 (split; [vm_compute; reflexivity|]). apply Forall_forall. intros g I. exact (proj2 (C35_groups_partial demo_sizes demo1 track1 1 g demo1_history I)).
Qed.
(** the inverse of an unfiltered collection is empty, but it cannot be filtered again, and its
    sum with a filtered collection cannot be evaluated *)
Theorem C35_unfiltered_refuted : exists sizes w s m m' (e : expr Q),
  history sizes w s /\ (m < length (w_ms w))%nat /\ (m' < length (w_ms w))%nat /\
  (exists m1, snd (ms_invert m w) = Ok m1 /\
     let w1 := fst (ms_invert m w) in
     snd (ms_len m1 w1) = Ok 0%nat /\
     snd (ms_filter m1 (mkexpr (e_keys e) (fun _ => true)) w1) = Err ValueError /\
     is_ok (outcome m' e w1) = true /\ is_ok (outcome m1 e w1) = true /\
     exists m2, snd (ms_add m1 m' w1) = Ok m2 /\ outcome m2 e (fst (ms_add m1 m' w1)) = Err ValueError).
Proof.
  exists demo_sizes, demo1, track1, 0%nat, 1%nat, px. split; [exact demo1_history|]. split; [vm_compute; lia|]. split; [vm_compute; lia|].
  exists 2%nat. split; [reflexivity|]. cbv zeta. do 4 (split; [vm_compute; reflexivity|]). exists 3%nat. split; reflexivity.
Qed.
Print Assumptions C35_unfiltered_refuted.

(** ** C36: sums *)
Theorem C36_add_partial : forall sizes w s a b, history sizes w s -> allowed sizes (UAdd a b) w ->
  snd (ms_add a b w) = Ok (length s) /\ history sizes (fst (ms_add a b w)) (s ++ [nth a s [] ++ nth b s []]).
Proof. exact add_step. Qed.
Print Assumptions C36_add_partial.
Theorem C36_values_partial : forall sizes A (e : expr A) w s a b l l', history sizes w s -> allowed sizes (UAdd a b) w ->
  outcome a e w = Ok (VVec l) -> outcome b e w = Ok (VVec l') -> outcome (length s) e (fst (ms_add a b w)) = Ok (VVec (l ++ l')).
Proof. intros sizes A. exact (@add_values sizes A). Qed.
Print Assumptions C36_values_partial.
Theorem C36_length_partial : forall l m, total (l ++ m) = (total l + total m)%nat.
Proof. exact total_app. Qed.
Print Assumptions C36_length_partial.
Theorem C36_iadd_partial : forall sizes w s a b, history sizes w s -> allowed sizes (UIadd a b) w -> a <> b ->
  snd (ms_iadd a b w) = Ok a /\ history sizes (fst (ms_iadd a b w)) (upd s a (nth a s [] ++ nth b s [])).
Proof. exact iadd_step. Qed.
Print Assumptions C36_iadd_partial.
Theorem C36_iadd_values_partial : forall sizes A (e : expr A) w s a b l l', history sizes w s -> allowed sizes (UIadd a b) w -> a <> b ->
  outcome a e w = Ok (VVec l) -> outcome b e w = Ok (VVec l') -> outcome a e (fst (ms_iadd a b w)) = Ok (VVec (l ++ l')).
Proof. intros sizes A. exact (@iadd_values sizes A). Qed.
Print Assumptions C36_iadd_values_partial.
Example C36_case : allowed demo_sizes (UAdd 1 0) demo1 /\ allowed demo_sizes (UIadd 1 0) demo1 /\
  outcome 2 px (fst (ms_add 1 0 demo1)) = Ok (VVec [1; 4; 5; 1; 2; 3; 4; 5; 6]) /\
  outcome 2 pmass (fst (ms_add 1 0 demo1)) = Ok (VVec [9; 9; 18; 9; 9; 9; 9; 18; 18]) /\
  outcome 1 px (fst (ms_iadd 1 0 demo1)) = Ok (VVec [1; 4; 5; 1; 2; 3; 4; 5; 6]).
Proof. do 2 (split; [vm_compute; repeat constructor|]). do 2 (split; [vm_compute; reflexivity|]). vm_compute. reflexivity. Qed.
(** a += a never ends *)
Theorem C36_self_refuted : exists sizes w s m, history sizes w s /\ allowed sizes (UIadd m m) w /\ snd (ms_iadd m m w) = Err Diverges.
Proof.
  exists demo_sizes, demo1, track1, 1%nat. split; [exact demo1_history|]. split; [vm_compute; repeat constructor|reflexivity].
Qed.
Print Assumptions C36_self_refuted.
