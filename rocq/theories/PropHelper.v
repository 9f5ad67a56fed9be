(** Property theorems about helper functions: C44, C45, C46, C50, C64, C121. *)
From Coq Require Import Lia Qround Permutation Factorial.
From Verif Require Import PyBase PyBaseFacts NumpyModel NumpyFacts NdModel NdFacts FieldModel FieldSpec
  HelperModel HelperSpec HelperFacts ChunkFacts FieldCutFacts MoveFacts.

(** ** C44 *)
(** After any sequence of earlier calls, failed ones included, a call returns the smallest
    admissible size or raises; it only raises if there is none up to n + 10000.  The
    number of powers tried, a floating point logarithm, is an argument. *)
Theorem C44_history_partial :
  forall pw m calls n, enough_powers pw -> match m with None => True | Some m => (1 <= m)%Z end ->
    exists s, fftw_init pw m [2; 3; 5; 7; 11; 13]%Z = Ok s /\
      match snd (fftw_call pw (fftw_after pw s calls) n) with
      | Ok r => next_friendly n r
      | Err _ => forall x, fftw_friendly x -> ~ (n <= x <= n + 10000)%Z
      end.
Proof. exact fftw_history. Qed.
Print Assumptions C44_history_partial.

(** and up to 2083725 it never raises *)
Theorem C44_no_failure_partial :
  forall pw m calls n, enough_powers pw -> match m with None => True | Some m => (1 <= m)%Z end -> (n <= 2083725)%Z ->
    exists s r, fftw_init pw m [2; 3; 5; 7; 11; 13]%Z = Ok s /\ snd (fftw_call pw (fftw_after pw s calls) n) = Ok r /\
      next_friendly n r.
Proof. exact fftw_no_failure. Qed.
Print Assumptions C44_no_failure_partial.

(** The first gap of more than 10000: a new object raises for the size just above
    2083725; the same call works once a larger size has been asked for. *)
Theorem C44_gap_refuted :
  exists s, fftw_init exact_powers None [2; 3; 5; 7; 11; 13]%Z = Ok s /\
    snd (fftw_call exact_powers s 2083726) = Err IndexError /\
    snd (fftw_call exact_powers (fftw_after exact_powers s [2095632%Z]) 2083726) = Ok 2095632%Z.
Proof. eexists. split; [vm_compute; reflexivity|]. split; vm_compute; reflexivity. Qed.
Print Assumptions C44_gap_refuted.

(** the exact logarithm satisfies the hypothesis on pw *)
Example C44_meets : enough_powers exact_powers.
Proof. exact exact_enough. Qed.
Example C44_meets_calls :
  exists s, fftw_init exact_powers None [2; 3; 5; 7; 11; 13]%Z = Ok s /\
    map (fun n => snd (fftw_call exact_powers (fftw_after exact_powers s [500; 7; 17]%Z) n)) [17; 121; 143; 1001]%Z
    = [Ok 18; Ok 125; Ok 144; Ok 1008]%Z.
Proof. eexists. split; [vm_compute; reflexivity|]. vm_compute. reflexivity. Qed.

(** ** C45 *)
Theorem C45_power_of_two_partial :
  forall n, (1 <= n)%Z ->
    exists k, (0 <= k)%Z /\ fft_padsize_power2 n = (2 ^ k)%Z /\ (n < 2 ^ k <= 2 * n)%Z /\
      (forall j, (0 <= j)%Z -> (n < 2 ^ j)%Z -> (2 ^ k <= 2 ^ j)%Z) /\
      ((forall j, (0 <= j)%Z -> n <> 2 ^ j)%Z ->
         (2 ^ k < 2 * n)%Z /\ forall j, (0 <= j)%Z -> (n <= 2 ^ j)%Z -> (2 ^ k <= 2 ^ j)%Z).
Proof. exact padsize_power2_spec. Qed.
Print Assumptions C45_power_of_two_partial.

(** a power of two is doubled although it is itself the smallest power that is at least n *)
Theorem C45_powers_refuted : forall k, (0 <= k)%Z -> fft_padsize_power2 (2 ^ k) = (2 * 2 ^ k)%Z.
Proof. exact padsize_of_power. Qed.
Print Assumptions C45_powers_refuted.

Example C45_meets : map fft_padsize_power2 [1; 2; 3; 4; 5; 1000; 1024]%Z = [2; 4; 4; 8; 8; 1024; 2048]%Z.
Proof. vm_compute. reflexivity. Qed.

(** ** C46 *)
(** interp is the serial interpolation of scipy; it is assumed to look at samples at most
    five cells away.  For an output without empty axes and coordinates inside the input,
    every output element is written exactly once, and under every interleaving of the
    workers' writes the result is that of the single call on the whole input. *)
Theorem C46_any_schedule_partial :
  forall interp a coord osh chunklen,
    local_interp interp -> Forall (fun n => (0 < n)%Z) osh ->
    (forall idx, in_shape osh idx = true -> inside (a_shape a) (coord idx)) ->
    exists ws, all_writes interp a coord osh chunklen = Ok ws /\
      Permutation (map fst (concat ws)) (all_idx osh) /\
      forall r mem idx, interleaving ws r -> in_shape osh idx = true ->
        exists v, write_all r mem idx = Some v /\ v == interp a (coord idx).
Proof. exact parallel_equals_serial. Qed.
Print Assumptions C46_any_schedule_partial.

(** an output with an empty axis raises; the single call returns an empty array *)
Theorem C46_empty_refuted :
  forall interp a coord chunklen, (0 < chunklen)%Z ->
    all_writes interp a coord [0%Z] (Some chunklen) = Err IndexError.
Proof. exact empty_output. Qed.
Print Assumptions C46_empty_refuted.

(** nearest neighbour interpolation meets the hypothesis; a row of 40 samples sampled at
    every half position, with chunks of 7 *)
Example C46_meets : local_interp nearest.
Proof. exact nearest_local. Qed.
Definition row40 : nda Q := mkarr [40%Z] (fun idx => inject_Z (nth 0 idx 0 * nth 0 idx 0)%Z).
Example C46_meets_row :
  exists ws, all_writes nearest row40 (fun idx => [inject_Z (nth 0 idx 0%Z) / 2]) [79%Z] (Some 7%Z) = Ok ws /\
    (length ws =? 12)%nat && (nth 60 (map snd (concat ws)) 0 ==?q 900) = true.
Proof. apply ok_such. vm_compute. reflexivity. Qed.

(** ** C50 *)
Theorem C50_monotonicity_partial :
  forall l, (monotonicity l = 1%Z <-> increasing l) /\
    ((2 <= length l)%nat -> (monotonicity l = (-1)%Z <-> decreasing l)) /\
    (monotonicity l = 0%Z <-> ~ increasing l /\ ~ decreasing l).
Proof. exact monotonicity_spec. Qed.
Print Assumptions C50_monotonicity_partial.

(** one value is (vacuously) strictly decreasing as well, but reported as increasing *)
Theorem C50_short_refuted : forall x, decreasing [x] /\ monotonicity [x] = 1%Z.
Proof. exact monotonicity_one. Qed.
Print Assumptions C50_short_refuted.

Theorem C50_fraction_bounds_partial :
  forall l fr a b, max_frac_bounds l fr = Ok (a, b) ->
    exists m, In m l /\ (forall x, In x l -> x <= m) /\ (0 <= a < b)%Z /\ (b <= Z.of_nat (length l))%Z /\
      m * fr < nth (Z.to_nat a) l 0 /\ m * fr < nth (Z.to_nat (b - 1)) l 0 /\
      forall k, (0 <= k < Z.of_nat (length l))%Z -> m * fr < nth (Z.to_nat k) l 0 -> (a <= k < b)%Z.
Proof. exact frac_bounds_ok. Qed.
Print Assumptions C50_fraction_bounds_partial.

Theorem C50_fraction_bounds_found_partial :
  forall l fr m, In m l -> (forall x, In x l -> x <= m) -> 0 < m -> fr < 1 ->
    exists a b, max_frac_bounds l fr = Ok (a, b).
Proof. exact frac_bounds_total. Qed.
Print Assumptions C50_fraction_bounds_found_partial.

(** nothing exceeds any fraction of a maximum that is not positive *)
Theorem C50_zero_refuted : max_frac_bounds [0; 0; 0] (1 # 2) = Err IndexError.
Proof. vm_compute. reflexivity. Qed.
Print Assumptions C50_zero_refuted.

Example C50_meets : map monotonicity [[1; 2; 5]; [3; 1; 0]; [1; 1; 2]; [1; 3; 2]; []] = [1; -1; 0; 0; 1]%Z.
Proof. vm_compute. reflexivity. Qed.
Example C50_meets_bounds : max_frac_bounds [0; 1; 5; 10; 4; 6; 0] (1 # 2) = Ok (3, 6)%Z.
Proof. vm_compute. reflexivity. Qed.

(** ** C64 *)
Theorem C64_moveaxis_partial :
  forall (a : nda Q) src dst,
    let n := length (a_shape a) in (0 < n)%nat -> length src = length dst ->
    let s := map (fun s => (s mod Z.of_nat n)%Z) src in
    let d := map (fun d => (d mod Z.of_nat n)%Z) dst in
    NoDup s -> NoDup d ->
    exists p b, np_moveaxis a src dst = Ok b /\ Permutation p (seq 0 n) /\
      (forall i, (i < length src)%nat -> nth (Z.to_nat (nth i d 0%Z)) p 0%nat = Z.to_nat (nth i s 0%Z)) /\
      (forall i j, (i < j < n)%nat -> ~ In (Z.of_nat (nth i p 0%nat)) s -> ~ In (Z.of_nat (nth j p 0%nat)) s ->
         (nth i p 0%nat < nth j p 0%nat)%nat) /\
      a_shape b = map (fun k => nth k (a_shape a) 0%Z) p /\
      forall idx, length idx = n -> a_at b (map (fun k => nth k idx 0%Z) p) = a_at a idx.
Proof. exact np_moveaxis_spec. Qed.
Print Assumptions C64_moveaxis_partial.
(** an array without axes: ZeroDivisionError as soon as an axis is given *)
Theorem C64_scalar_refuted : forall V (a : nda V) src dst, a_shape a = [] -> (np_moveaxis a src dst = Err ZeroDivisionError <-> src <> [] \/ dst <> []).
Proof. exact @moveaxis_scalar. Qed.
Print Assumptions C64_scalar_refuted.

(** numpy raises for an axis out of range, for a repeated destination and for lists of
    different lengths; here the result is some transposition *)
Definition box234 : nda Q := mkarr [2; 3; 4]%Z (fun idx => inject_Z (nth 0 idx 0 * 100 + nth 1 idx 0 * 10 + nth 2 idx 0)%Z).
Theorem C64_bad_axes_refuted :
  rmap a_shape (np_moveaxis box234 [3%Z] [2%Z]) = Ok [3; 4; 2]%Z /\
  rmap a_shape (np_moveaxis box234 [0; 1]%Z [0; 0]%Z) = Ok [3; 2; 4]%Z /\
  rmap a_shape (np_moveaxis box234 [0]%Z [2; 0]%Z) = Ok [3; 4; 2]%Z.
Proof. split; [vm_compute; reflexivity|]. split; vm_compute; reflexivity. Qed.
Print Assumptions C64_bad_axes_refuted.

Example C64_meets :
  rmap a_shape (np_moveaxis box234 [-1; 0]%Z [0; 1]%Z) = Ok [4; 2; 3]%Z /\
  rmap (fun b => a_at b [3; 1; 2]%Z) (np_moveaxis box234 [-1; 0]%Z [0; 1]%Z) = Ok (a_at box234 [1; 2; 3]%Z).
Proof. split; vm_compute; reflexivity. Qed.

(** ** C121 *)
(** objects are multiplied from the left, ... *)
Theorem C121_next : forall (A : Type) (mul : A -> A -> A) l x,
  product mul (l ++ [x]) = match product mul l with Ok p => Ok (mul p x) | Err _ => Ok x end.
Proof. exact @product_next. Qed.
Print Assumptions C121_next.
(** ... which makes no difference to the product of parts and of objects in another order *)
Theorem C121_parts : forall (A : Type) (mul : A -> A -> A) l m p q, (forall x y z, mul x (mul y z) = mul (mul x y) z) ->
  product mul l = Ok p -> product mul m = Ok q -> product mul (l ++ m) = Ok (mul p q).
Proof. exact @product_parts. Qed.
Print Assumptions C121_parts.
Theorem C121_order : forall (A : Type) (mul : A -> A -> A) l m, (forall x y z, mul x (mul y z) = mul (mul x y) z) -> (forall x y, mul x y = mul y x) ->
  Permutation l m -> product mul l = product mul m.
Proof. exact @product_order. Qed.
Print Assumptions C121_order.
Theorem C121_fails : forall (A : Type) (mul : A -> A -> A) l, (exists e, product mul l = Err e) <-> l = [].
Proof. exact @product_fails. Qed.
Print Assumptions C121_fails.
Theorem C121_numbers : forall l, l <> [] -> product Z.mul l = Ok (fold_right Z.mul 1%Z l).
Proof. exact product_numbers. Qed.
Print Assumptions C121_numbers.
(** the example of the documentation needs range(1, n+1) and n > 0 *)
Theorem C121_factorial_partial : forall n, (0 < n)%nat -> product Z.mul (map Z.of_nat (seq 1 n)) = Ok (Z.of_nat (fact n)).
Proof. exact product_factorial. Qed.
Print Assumptions C121_factorial_partial.
Theorem C121_factorial_refuted : forall n, product Z.mul (map Z.of_nat (seq 0 n)) <> Ok (Z.of_nat (fact n)).
Proof. intros [|n]; [discriminate|]. rewrite product_zero by lia. pose proof (lt_O_fact (S n)). intro E. assert (Z.of_nat (fact (S n)) = 0%Z) by congruence. lia. Qed.
Print Assumptions C121_factorial_refuted.
Example C121_case : product Z.mul [7; 2; 3]%Z = Ok 42%Z /\ product Z.sub [7; 2; 3]%Z = Ok 2%Z /\ Permutation [7; 2; 3]%Z [3; 7; 2]%Z.
Proof. repeat split. apply (Permutation_app_comm [7; 2]%Z [3]%Z). Qed.
