(** Model of /repo/postpic/experimental.py 33-121 over the reals: the adaptive propagation.
    No proofs in this file.

    The operations on fields are arguments: [op_state] is Field._transform_state(), [op_fft] Field.fft(),
    [op_reduce] autoreduce(), [op_box] the extents of the axes, [op_pad] pad(pad).fft_autopad(),
    [op_propagate] helper.kspace_propagate with the time step and the moving window, [op_cut]
    autocutout(fractions=(0.01, 0.02)). *)
From Coq Require Import Reals.
From Verif Require Import PyBase NdModel.
Local Open Scope R_scope.

Record adapt_ops (S : Type) := mkOps {
  op_state : S -> option bool; op_fft : S -> res S; op_reduce : S -> res S; op_box : S -> list (R * R);
  op_pad : S -> list (R * R) -> res S; op_propagate : S -> R -> list R -> res S; op_cut : S -> res S }.
Arguments mkOps {S}. Arguments op_state {S}. Arguments op_fft {S}. Arguments op_reduce {S}. Arguments op_box {S}. Arguments op_pad {S}. Arguments op_propagate {S}. Arguments op_cut {S}.

(** np.mean; the mean of nothing is nan *)
Definition rmean (l : list R) : option R := match l with [] => None | _ => Some (fold_right Rplus 0 l / INR (length l)) end.
(** np.mean(ax.extent) and ax.physical_length (datahandling.py 283-284) *)
Definition centre (e : R * R) : R := (fst e + snd e) / 2.
Definition rlength (e : R * R) : R := Rabs (snd e - fst e).
(** 61-62 *)
Definition window_vector (n : nat) (axis : Z) : res (list R) := setidx (repeat 0 n) axis 1.
(** 71-108: one turn of the loop, from time and field to what is yielded, and time and field; a nan or
    infinite padding is refused by pad (ValueError and OverflowError of int(), both as ValueError) *)
Definition adapt_step {S} (ops : adapt_ops S) (c : R) (do_fft : bool) (axis : Z) (mw : list R) (x0 : R) (state : R * S) : res ((R * S) * (R * S)) :=
  let! s := op_reduce ops (snd state) in
  let lengths := map rlength (op_box ops s) in
  let! transv := delidx lengths axis in
  match rmean transv with
  | None => Err ValueError
  | Some m =>
      let distance := / 2 * m in
      let timestep := distance / c in
      let! e := getidx (op_box ops s) axis in
      let x := centre e - x0 + distance in
      let! xlen := getidx lengths axis in
      if Req_EM_T x 0 then Err ValueError
      else
        let xpad := distance / x * (/ 2 * xlen) in
        let! pad := setidx (repeat (distance, distance) (length (op_box ops s))) axis (xpad, / 10 * xpad) in
        let! s := op_pad ops s pad in
        let! s := op_propagate ops s timestep mw in
        let t := fst state + timestep in
        let! s := op_cut ops s in
        let! out := (if do_fft then op_fft ops s else Ok s) in
        Ok ((t, out), (t, s))
  end.
(** a generator after some calls of next: still running, finished, or left by an exception *)
Inductive status := More | Finished | Raised (e : exn).
(** 120-121 *)
Definition stops (t_final : option R) (t : R) : bool :=
  match t_final with
  | None => false
  | Some f => if Req_EM_T f 0 then false else if Rlt_dec f t then true else false
  end.
(** 70-108 inside 117-121, for at most n calls of next *)
Fixpoint adapt_loop {S} (ops : adapt_ops S) (c : R) (do_fft : bool) (axis : Z) (mw : list R) (x0 : R) (t_final : option R) (n : nat) (state : R * S) : list (R * S) * status :=
  match n with
  | O => ([], More)
  | Datatypes.S n' =>
      match adapt_step ops c do_fft axis mw x0 state with
      | Err e => ([], Raised e)
      | Ok (y, state') =>
          if stops t_final (fst y) then ([y], Finished)
          else let (l, st) := adapt_loop ops c do_fft axis mw x0 t_final n' state' in (y :: l, st)
      end
  end.
(** 48-65 *)
Definition adapt_start {S} (ops : adapt_ops S) (axis : Z) (field_in : S) : res (bool * S * list R * R) :=
  match op_state ops field_in with
  | None => Err ValueError
  | Some do_fft =>
      let! s := (if do_fft then op_fft ops field_in else Ok field_in) in
      let! mw := window_vector (length (op_box ops s)) axis in
      let! e := getidx (op_box ops s) axis in
      Ok (do_fft, s, mw, centre e)
  end.
(** kspace_propagate_adaptive, 112-121: the results of the first n calls of next *)
Definition adaptive {S} (ops : adapt_ops S) (c : R) (field_in : S) (axis : Z) (t_final : option R) (yield_zeroth_step : bool) (n : nat) : list (R * S) * status :=
  match n with
  | O => ([], More)
  | Datatypes.S n' =>
      match adapt_start ops axis field_in with
      | Err e => ([], Raised e)
      | Ok (do_fft, s, mw, x0) =>
          if yield_zeroth_step then
            if stops t_final 0 then ([(0, field_in)], Finished)
            else let (l, st) := adapt_loop ops c do_fft axis mw x0 t_final n' (0, s) in ((0, field_in) :: l, st)
          else adapt_loop ops c do_fft axis mw x0 t_final n (0, s)
      end
  end.
