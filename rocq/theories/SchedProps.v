(** C23 to C25: schedules. *)
From Coq Require Import Reals Lra QArith Qround.
From Verif Require Import SchedSpec SchedProofs SchedRealProofs NumQ.
Local Open Scope R_scope.

(** C23. A generator hyperparameter yields item k at step k, or its last item once exhausted, for every
    non-decreasing sequence of steps; a smaller step raises ValueError and changes nothing. *)
Theorem C23_values :
  forall (T : Type) (NT : Num T) (NX : NumX T) (seq : nat -> option T) s calls,
    wrap_generator seq = Ok s -> nondecreasing (map fst calls) -> Forall (fun c => (0 <= fst c)%Z) calls ->
    Forall2 (fun c r => exists v, r = Ok v /\ yields seq (Z.to_nat (fst c)) v) calls (snd (sched_run s calls)).
Proof. exact @generator_values. Qed.
Print Assumptions C23_values.
Theorem C23_unique :
  forall (T : Type) (seq : nat -> option T) k v w, yields seq k v -> yields seq k w -> v = w.
Proof. exact @yields_unique. Qed.
Print Assumptions C23_unique.
Theorem C23_decrease :
  forall (T : Type) (NT : Num T) (NX : NumX T) (seq : nat -> option T) s calls c step ls,
    wrap_generator seq = Ok s -> nondecreasing (map fst (calls ++ [c])%list) -> Forall (fun c => (0 <= fst c)%Z) (calls ++ [c]) ->
    (step < fst c)%Z ->
    let s' := fst (sched_run s (calls ++ [c])) in sched_call s' step ls = (s', Err ValueError).
Proof. exact @generator_decrease. Qed.
Print Assumptions C23_decrease.
Theorem C23_empty :
  forall (T : Type) (seq : nat -> option T), seq 0%nat = None -> wrap_generator seq = Err ValueError.
Proof. exact @generator_empty. Qed.
Print Assumptions C23_empty.
Definition ex_gen (n : nat) : option R := nth_error [10; 20; 30] n.
Example C23_ex : exists s, wrap_generator ex_gen = Ok s /\
  snd (sched_run s [(0%Z, None); (0%Z, None); (1%Z, None); (4%Z, None); (9%Z, None); (3%Z, None)])
  = [Ok 10; Ok 10; Ok 20; Ok 30; Ok 30; Err ValueError].
Proof. eexists. split; reflexivity. Qed.

(** C24. Negative steps are rejected by every schedule. *)
Theorem C24_negative_step :
  forall (T : Type) (NT : Num T) (NX : NumX T) (s : schedule T) step ls, (step < 0)%Z -> sched_call s step ls = (s, Err ValueError).
Proof. exact @negative_step. Qed.
Print Assumptions C24_negative_step.
Theorem C24_constant :
  forall (T : Type) (NT : Num T) (NX : NumX T) (rate : T) step ls, (0 <= step)%Z -> sched_call (Constant rate) step ls = (Constant rate, Ok rate).
Proof. exact @constant_value. Qed.
Print Assumptions C24_constant.
Theorem C24_constant_then :
  forall (T : Type) (NT : Num T) (NX : NumX T) (rate : T) steps inner step ls, (0 <= step)%Z ->
    sched_call (ConstantThen rate steps inner) step ls =
    if Z.ltb step steps then (ConstantThen rate steps inner, Ok rate)
    else (ConstantThen rate steps (fst (sched_call inner step ls)), snd (sched_call inner step ls)).
Proof. exact @constant_then_value. Qed.
Print Assumptions C24_constant_then.
Theorem C24_decaying :
  forall base decay t step ls, 0 <= base -> 0 <= decay -> 0 <= t -> (0 <= step)%Z ->
    exists v, sched_call (Decaying base decay t) step ls = (Decaying base decay t, Ok v) /\
      v = base / (1 + decay * (IZR step + t)) /\ 0 <= v <= base /\
      forall step' w, (step <= step')%Z -> snd (sched_call (Decaying base decay t) step' ls) = Ok w -> w <= v.
Proof. exact decaying_call. Qed.
Print Assumptions C24_decaying.
Theorem C24_decaying_zero : forall base decay t step ls, (0 <= step)%Z -> 1 + decay * (IZR step + t) = 0 -> snd (sched_call (Decaying base decay t) step ls) = Err ZeroDivisionError.
Proof. exact decaying_zero. Qed.
Print Assumptions C24_decaying_zero.
Theorem C24_compounding_up :
  forall start stop c ls, 0 <= start <= stop -> 1 <= c ->
    exists v : nat -> R, (forall n, sched_call (Compounding start stop c 0) (Z.of_nat n) ls = (Compounding start stop c 0, Ok (v n))) /\
      v 0%nat = start /\ (forall n, v (S n) = Rmin (v n * c) stop) /\ (forall n, start <= v n <= stop) /\ (forall n, v n <= v (S n)).
Proof. exact compounding_call_up. Qed.
Print Assumptions C24_compounding_up.
Theorem C24_compounding_down :
  forall start stop c ls, 0 <= stop < start -> 0 < c <= 1 ->
    exists v : nat -> R, (forall n, sched_call (Compounding start stop c 0) (Z.of_nat n) ls = (Compounding start stop c 0, Ok (v n))) /\
      v 0%nat = start /\ (forall n, v (S n) = Rmax (v n * c) stop) /\ (forall n, stop <= v n <= start) /\ (forall n, v (S n) <= v n).
Proof. exact compounding_call_down. Qed.
Print Assumptions C24_compounding_down.
Theorem C24_warmup_linear :
  forall initial warmup total ls, 0 <= initial -> (0 <= warmup < total)%Z ->
    exists v : Z -> R,
      (forall step, (0 <= step)%Z -> sched_call (Warmup initial warmup total) step ls = (Warmup initial warmup total, Ok (v step))) /\
      (forall step, (0 <= step < warmup)%Z -> v step = initial * (IZR step / IZR warmup)) /\
      v warmup = initial /\
      (forall step, (warmup <= step <= total)%Z -> v step = initial * (IZR (total - step) / IZR (total - warmup))) /\
      (forall step, (total <= step)%Z -> v step = 0) /\
      (forall step, (0 <= step)%Z -> 0 <= v step <= initial).
Proof. exact warmup_call. Qed.
Print Assumptions C24_warmup_linear.
Theorem C24_cyclic_triangular :
  forall min_lr max_lr period ls, min_lr <= max_lr -> (0 < period)%Z ->
    exists v : Z -> R,
      (forall step, (0 <= step)%Z -> sched_call (Cyclic min_lr max_lr period) step ls = (Cyclic min_lr max_lr period, Ok (v step))) /\
      (forall step cycle r, (0 <= step)%Z -> (step + 1 = 2 * period * cycle + r)%Z -> (0 <= r < 2 * period)%Z ->
         v step = min_lr + (max_lr - min_lr) * (1 - Rabs (IZR r / IZR period - 1))) /\
      (forall step, (0 <= step)%Z -> min_lr <= v step <= max_lr) /\
      (forall step, (0 <= step)%Z -> v (step + 2 * period)%Z = v step).
Proof. exact cyclic_call. Qed.
Print Assumptions C24_cyclic_triangular.
(** C24. slanted_triangular, when num_steps*cut_frac >= 1 and up to step cut/cut_frac. *)
Theorem C24_slanted_triangular :
  forall max_rate num_steps cut_frac ratio ls, 0 <= max_rate -> 0 < cut_frac < 1 -> (1 <= ratio)%Z ->
    1 <= IZR num_steps * cut_frac ->
    let s := slanted_triangular py_int max_rate num_steps cut_frac ratio 0 in
    exists (cut : Z) (v : Z -> R),
      (0 < cut)%Z /\ IZR cut <= IZR num_steps * cut_frac < IZR cut + 1 /\
      (forall step, (0 <= step)%Z -> sched_call s step ls = (s, Ok (v step))) /\
      v (cut - 1)%Z = max_rate /\
      (forall s1 s2, (0 <= s1 <= s2)%Z -> (s2 + 1 <= cut)%Z -> v s1 <= v s2) /\
      (forall s1 s2, (cut <= s1 + 1)%Z -> (s1 <= s2)%Z -> v s2 <= v s1) /\
      (forall step, (0 <= step)%Z -> IZR step + 1 <= IZR cut / cut_frac -> max_rate / IZR ratio <= v step <= max_rate).
Proof. exact slanted_call. Qed.
Print Assumptions C24_slanted_triangular.
(** C24. Findings: every step fails when num_steps*cut_frac < 1, and rates become negative past the end. *)
Theorem C24_slanted_short_refuted :
  forall max_rate num_steps cut_frac ratio step ls, 0 <= IZR num_steps * cut_frac < 1 -> (0 <= step)%Z ->
    snd (sched_call (slanted_triangular py_int max_rate num_steps cut_frac ratio 0) step ls) = Err ZeroDivisionError.
Proof. exact slanted_zero_cut. Qed.
Print Assumptions C24_slanted_short_refuted.
Theorem C24_slanted_negative_refuted :
  exists v, snd (sched_call (slanted_triangular py_int 1 10 (1 / 10) 32 0) 20 None) = Ok v /\ v < 0.
Proof. exact slanted_negative_call. Qed.
Print Assumptions C24_slanted_negative_refuted.
(** C24. to_generator lists the values of a stateless schedule at start, start+step_size, ... *)
Theorem C24_to_generator :
  forall (s : schedule R) start step_size n, (0 <= start)%Z -> (0 <= step_size)%Z ->
    (forall step, fst (sched_call s step None) = s) ->
    to_generator s start step_size n = Ok (map (fun i => snd (sched_call s (start + Z.of_nat i * step_size)%Z None)) (seq 0 n)).
Proof. exact to_generator_values. Qed.
Print Assumptions C24_to_generator.
Theorem C24_to_generator_errors :
  forall (s : schedule R) start step_size n, (start < 0)%Z \/ (step_size < 0)%Z -> to_generator s start step_size n = Err ValueError.
Proof. exact to_generator_errors. Qed.
Print Assumptions C24_to_generator_errors.
#[local] Instance numx_Q : NumX Q :=
  { nrpow := fun a b => Qred (Qpower a (Qfloor b)); nfloor := fun x => inject_Z (Qfloor x) }.
Example C24_ex : to_generator (ConstantThen 7%Q 2 (Compounding 1%Q 10%Q 2%Q 0%Q)) 0 1 6 = Ok [Ok 7%Q; Ok 7%Q; Ok 4%Q; Ok 8%Q; Ok 10%Q; Ok 10%Q].
Proof. vm_compute. reflexivity. Qed.
Example C24_cyclic_ex : to_generator (Cyclic 1%Q 5%Q 2) 0 1 6 = Ok [Ok 3%Q; Ok 5%Q; Ok 3%Q; Ok 1%Q; Ok 3%Q; Ok 5%Q].
Proof. vm_compute. reflexivity. Qed.
Example C24_slanted_ex : to_generator (Slanted 8%Q 2 (1 # 2)%Q 4 0%Q) 0 1 4 = Ok [Ok 5%Q; Ok 8%Q; Ok 5%Q; Ok 2%Q].
Proof. vm_compute. reflexivity. Qed.
Example C24_warmup_ex : to_generator (Warmup 8%Q 2 4 : schedule Q) 0 1 6 =
  Ok [Ok 0%Q; Ok 4%Q; Ok 8%Q; Ok 4%Q; Ok 0%Q; Ok 0%Q].
Proof. vm_compute. reflexivity. Qed.

(** C25. The rate is scale^n times the wrapped schedule's, n being the number of completed runs of
    [mp] consecutive non-improving evaluations at new steps between improvements. *)
Theorem C25_values :
  forall mp, (0 < mp)%nat -> forall scale inner calls i c r,
    nondecreasing (map fst (evals_of calls)) -> Forall (fun c => (0 <= fst c)%Z) calls ->
    nth_error calls i = Some c -> nth_error (snd (sched_run inner calls)) i = Some r ->
    nth_error (snd (sched_run (plateau mp scale inner) calls)) i =
    Some (let* v := r in Ok (scale ^ plateaus mp (evals_of (firstn (S i) calls)) * v)).
Proof. exact plateau_values. Qed.
Print Assumptions C25_values.
Theorem C25_same_evaluation :
  forall mp (st : pstate R) e st', plateau_update mp st (Some e) = Ok st' -> plateau_update mp st' (Some e) = Ok st'.
Proof. exact plateau_idempotent. Qed.
Print Assumptions C25_same_evaluation.
Theorem C25_no_evaluation :
  forall mp scale inner (st : pstate R) step,
    fst (sched_call (Plateau mp scale inner st) step None) = Plateau mp scale (if Z.ltb step 0 then inner else fst (sched_call inner step None)) st.
Proof. exact plateau_no_score. Qed.
Print Assumptions C25_no_evaluation.
Theorem C25_order_checked :
  forall mp (st : pstate R) best last step score, p_best st = Some best -> p_last st = Some last ->
    score <= best -> (step < last)%Z -> plateau_update mp st (Some (step, score)) = Err ValueError.
Proof. exact plateau_order_checked. Qed.
Print Assumptions C25_order_checked.
(** C25. Finding: an improving evaluation from an earlier step is accepted. *)
Theorem C25_order_refuted :
  exists (st : pstate R) st', plateau_update 2 st (Some (5%Z, 3)) = Ok st' /\ p_last st = Some 10%Z /\ p_best st = Some 1.
Proof. exact plateau_order_unchecked. Qed.
Print Assumptions C25_order_refuted.
Example C25_ex :
  snd (sched_run (plateau 2 (1 # 2)%Q (Constant 8%Q) : schedule Q)
    [(0%Z, Some (0%Z, 5%Q)); (1%Z, Some (1%Z, 4%Q)); (2%Z, Some (1%Z, 4%Q)); (3%Z, Some (2%Z, 3%Q)); (4%Z, None); (5%Z, Some (3%Z, 6%Q))])
  = [Ok 8%Q; Ok 8%Q; Ok 8%Q; Ok 4%Q; Ok 4%Q; Ok 4%Q].
Proof. vm_compute. reflexivity. Qed.
