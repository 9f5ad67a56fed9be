(** Weighted statistics of particle collections: C40.  [sizes] and [history] as in
    PropParticle; [f] stands for np.argsort. *)
From Coq Require Import Lia.
From Verif Require Import PyBase PyBaseFacts NumpyModel NdModel FieldModel HelperModel ParticleModel ParticleSpec StatModel StatSpec StatFacts StatLaws StatDemo.
Open Scope list_scope.

Theorem C40_mean_value : forall sizes m e wt w s w' a,
  history sizes w s -> (m < length (w_ms w))%nat -> ms_mean m e wt w = (w', Ok a) ->
  let d := all_values e (nth m s []) in let p := particle_weights (opt_weight wt) (nth m s []) in
  ~ total_weight d p == 0 /\ a * total_weight d p == moment d p.
Proof. exact mean_moment. Qed.
Print Assumptions C40_mean_value.
Theorem C40_mean_defined : forall sizes m e wt w s,
  history sizes w s -> (m < length (w_ms w))%nat -> readable ("weight"%string :: fst (opt_weight wt) ++ e_keys e) (nth m s []) ->
  let W := total_weight (all_values e (nth m s [])) (particle_weights (opt_weight wt) (nth m s [])) in
  if W ==?q 0 then snd (ms_mean m e wt w) = Err ZeroDivisionError else exists a, snd (ms_mean m e wt w) = Ok a.
Proof. exact mean_defined. Qed.
Print Assumptions C40_mean_defined.
Theorem C40_mean_bounds : forall sizes m e wt w s w' a lo hi,
  history sizes w s -> (m < length (w_ms w))%nat -> ms_mean m e wt w = (w', Ok a) ->
  (forall y, In y (particle_weights (opt_weight wt) (nth m s [])) -> 0 <= y) ->
  (forall x, In x (all_values e (nth m s [])) -> lo <= x /\ x <= hi) -> lo <= a /\ a <= hi.
Proof. exact mean_bounds. Qed.
Print Assumptions C40_mean_bounds.
Theorem C40_mean_linear : forall sizes m e wt w s w1 w2 a b p q,
  history sizes w s -> (m < length (w_ms w))%nat -> ms_mean m e wt w = (w1, Ok a) ->
  ms_mean m (linear p q e) wt w = (w2, Ok b) -> b == p * a + q.
Proof. exact mean_linear. Qed.
Print Assumptions C40_mean_linear.
Theorem C40_var_value : forall sizes m e wt w s w1 w2 v a,
  history sizes w s -> (m < length (w_ms w))%nat -> ms_var m e wt w = (w1, Ok v) -> ms_mean m e (Some wt) w = (w2, Ok a) ->
  let d := all_values e (nth m s []) in let p := particle_weights (some_weight wt) (nth m s []) in
  v * total_weight d p == moment (map (fun x => (x - a) * (x - a)) d) p /\
  ((forall y, In y p -> 0 < y) -> (v == 0 <-> forall x, In x d -> x == a)).
Proof. exact var_meaning. Qed.
Print Assumptions C40_var_value.
Theorem C40_var_nonneg : forall sizes m e wt w s w' v,
  history sizes w s -> (m < length (w_ms w))%nat -> ms_var m e wt w = (w', Ok v) ->
  (forall y, In y (particle_weights (some_weight wt) (nth m s [])) -> 0 <= y) -> 0 <= v.
Proof. exact var_nonneg. Qed.
Print Assumptions C40_var_nonneg.
(** p = 1: translation invariance *)
Theorem C40_var_linear : forall sizes m e wt w s w1 w2 a b p q,
  history sizes w s -> (m < length (w_ms w))%nat -> ms_var m e wt w = (w1, Ok a) ->
  ms_var m (linear p q e) wt w = (w2, Ok b) -> b == p * p * a.
Proof. exact var_linear. Qed.
Print Assumptions C40_var_linear.
Theorem C40_var_defined : forall sizes m e wt w s,
  history sizes w s -> (m < length (w_ms w))%nat -> readable ("weight"%string :: e_keys wt ++ e_keys e) (nth m s []) ->
  ~ total_weight (all_values e (nth m s [])) (particle_weights (some_weight wt) (nth m s [])) == 0 -> exists v, snd (ms_var m e wt w) = Ok v.
Proof. exact var_defined. Qed.
Print Assumptions C40_var_defined.
(** the values returned are the quantiles, for every order argsort gives to equal values *)
Theorem C40_quantile_value : forall sizes f m e qs wt w s w' xs,
  history sizes w s -> (m < length (w_ms w))%nat -> sorting f -> ms_quantile f m e qs wt w = (w', Ok xs) -> qs <> [] ->
  (forall y, In y (particle_weights (opt_weight wt) (nth m s [])) -> 0 <= y) ->
  Forall2 (is_quantile (all_values e (nth m s [])) (particle_weights (opt_weight wt) (nth m s []))) qs xs.
Proof. exact quantile_values. Qed.
Print Assumptions C40_quantile_value.
Theorem C40_median_value : forall sizes f m e wt w s w' xs,
  history sizes w s -> (m < length (w_ms w))%nat -> sorting f -> ms_median f m e wt w = (w', Ok xs) ->
  (forall y, In y (particle_weights (opt_weight wt) (nth m s [])) -> 0 <= y) ->
  exists x, xs = [x] /\ is_quantile (all_values e (nth m s [])) (particle_weights (opt_weight wt) (nth m s [])) (1 # 2) x.
Proof. exact median_value. Qed.
Print Assumptions C40_median_value.
Theorem C40_quantile_defined : forall sizes f m e qs wt w s,
  history sizes w s -> (m < length (w_ms w))%nat -> sorting f ->
  readable ("weight"%string :: fst (opt_weight wt) ++ e_keys e) (nth m s []) -> nth m s [] <> [] ->
  (forall y, In y (particle_weights (opt_weight wt) (nth m s [])) -> 0 <= y) -> (forall q, In q qs -> 0 <= q <= 1) ->
  exists xs, snd (ms_quantile f m e qs wt w) = Ok xs /\
    Forall2 (is_quantile (all_values e (nth m s [])) (particle_weights (opt_weight wt) (nth m s []))) qs xs.
Proof. exact quantile_ok. Qed.
Print Assumptions C40_quantile_defined.
Theorem C40_quantile_refused : forall f m e qs wt w,
  (exists q, In q qs /\ (q < 0 \/ 1 < q)) -> ms_quantile f m e qs wt w = (w, Err ValueError).
Proof. exact quantile_refused. Qed.
Print Assumptions C40_quantile_refused.
Theorem C40_quantile_monotone : forall sizes f m e qs wt w s w' xs i j,
  history sizes w s -> (m < length (w_ms w))%nat -> sorting f ->
  ms_quantile f m e qs wt w = (w', Ok xs) -> (forall y, In y (particle_weights (opt_weight wt) (nth m s [])) -> 0 <= y) ->
  (i < length qs)%nat -> (j < length qs)%nat -> nth i qs 0 <= nth j qs 0 -> nth i xs 0 <= nth j xs 0.
Proof. exact quantile_monotone. Qed.
Print Assumptions C40_quantile_monotone.
Theorem C40_quantile_ties : forall sizes f g m e q wt w s w1 w2 x y,
  history sizes w s -> (m < length (w_ms w))%nat -> sorting f -> sorting g ->
  ms_quantile f m e [q] wt w = (w1, Ok [x]) -> ms_quantile g m e [q] wt w = (w2, Ok [y]) ->
  (forall y, In y (particle_weights (opt_weight wt) (nth m s [])) -> 0 <= y) -> x == y.
Proof. exact quantile_ties. Qed.
Print Assumptions C40_quantile_ties.
Example C40_case : history stat_sizes stat0 stat_track /\ (0 < length (w_ms stat0))%nat /\ sorting demo_argsort /\
  readable ["weight"; "x"]%string (nth 0 stat_track []) /\
  all_values sx (nth 0 stat_track []) = [3; 1; 2; 1] /\ particle_weights no_weight (nth 0 stat_track []) = [1 * 1; 2 * 1; 1 * 1; 4 * 1] /\
  rmap Qred (snd (ms_mean 0 sx None stat0)) = Ok (11 # 8) /\
  rmap Qred (snd (ms_var 0 sx (mkexpr [] (fun _ => 1)) stat0)) = Ok (31 # 64) /\
  snd (ms_quantile demo_argsort 0 sx [0; 1 # 2; 3 # 4; 7 # 8; 1] None stat0) = Ok [1; 1; 1; 2; 3] /\
  snd (ms_median demo_argsort 0 sx (Some sx) stat0) = Ok [1] /\
  snd (ms_quantile demo_argsort 0 sx [3 # 2] None stat0) = Err ValueError.
Proof.
  split; [exact stat0_history|]. split; [vm_compute; lia|]. split; [exact demo_sorting|]. split.
  { intros g I. vm_compute in I. destruct I as [<-|[]]. split; [discriminate|]. intros key [<-|[<-|[]]]; discriminate. }
  repeat (split; [vm_compute; reflexivity|]). vm_compute. reflexivity.
Qed.
(** with weights of both signs the mean may leave the range of the values *)
Theorem C40_sign_needed : exists sizes m e wt w s,
  history sizes w s /\ (m < length (w_ms w))%nat /\ (forall x, In x (all_values e (nth m s [])) -> x <= 3) /\
  match snd (ms_mean m e wt w) with Ok a => 3 < a | Err _ => False end.
Proof.
  exists stat_sizes, 0%nat, sx, (Some (mkexpr ["x"]%string (fun l => nth 0 l 0 - (5 # 4)))), stat0, stat_track.
  split; [exact stat0_history|]. split; [vm_compute; lia|]. split.
  - intros x I. vm_compute in I. repeat destruct I as [<-|I]; try (vm_compute; discriminate). destruct I.
  - vm_compute. reflexivity.
Qed.
Print Assumptions C40_sign_needed.
