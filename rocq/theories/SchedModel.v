(** Schedules (thinc/schedules.py) and generator hyperparameters (thinc/optimizers.py 398-440).
    No proofs here. A schedule object is a value holding its attributes; calling it returns the object
    after the call (only plateau and generator schedules have state) and the rate. *)
From Verif Require Export NumModel.

(** Real powers and floor, used by two schedules. *)
Class NumX (T : Type) := { nrpow : T -> T -> T; nfloor : T -> T }.

(** A Python generator: the values it will yield, [None] where it raises StopIteration. The first
    [None] ends it: [pos] does not move past it. *)
Record gen (T : Type) := mkGen { g_seq : nat -> option T; g_pos : nat }.
Arguments mkGen {T}. Arguments g_seq {T}. Arguments g_pos {T}.
(** [next(generator)] *)
Definition gen_next {T} (g : gen T) : gen T * option T :=
  match g_seq g (g_pos g) with
  | Some v => (mkGen (g_seq g) (S (g_pos g)), Some v)
  | None => (g, None)
  end.

(** thinc/schedules.py 240-260 [_PlateauState] *)
Record pstate (T : Type) := mkP { p_best : option T; p_last : option Z; p_patience : nat; p_n : nat }.
Arguments mkP {T}. Arguments p_best {T}. Arguments p_last {T}. Arguments p_patience {T}. Arguments p_n {T}.

Inductive schedule (T : Type) : Type :=
| Constant (rate : T)
| ConstantThen (rate : T) (steps : Z) (inner : schedule T)
| Decaying (base decay t : T)
| Compounding (start stop compound t : T)
| Plateau (max_patience : nat) (scale : T) (inner : schedule T) (state : pstate T)
| Slanted (max_rate : T) (cut : Z) (cut_frac : T) (ratio : Z) (t : T)
| Warmup (initial : T) (warmup total : Z)
| Cyclic (min_lr max_lr : T) (period : Z)
| WrapGen (last_step : Z) (last_value : T) (g : gen T).
Arguments Constant {T}. Arguments ConstantThen {T}. Arguments Decaying {T}. Arguments Compounding {T}.
Arguments Plateau {T}. Arguments Slanted {T}. Arguments Warmup {T}. Arguments Cyclic {T}. Arguments WrapGen {T}.

Section Sched.
  Context {T : Type} `{Num T} `{NumX T}.
  Local Open Scope num_scope.

  Definition nmax (a b : T) : T := if a <? b then b else a.
  Definition nmin (a b : T) : T := if b <? a then b else a.
  Definition nabs (a : T) : T := if a <? nZ 0 then - a else a.

  (** thinc/schedules.py 156-157 [_clip] *)
  Definition sclip (value start stop : T) : T := if stop <? start then nmax value stop else nmin value stop.

  (** thinc/schedules.py 120-124 [_decaying_schedule]; Python raises ZeroDivisionError on a zero denominator *)
  Definition decaying_value (base decay t : T) (step : Z) : result T :=
    let d := nZ 1 + decay * (nZ step + t) in
    if d =? nZ 0 then Err ZeroDivisionError else Ok (base * (nZ 1 / d)).

  (** thinc/schedules.py 148-153 [_compounding_schedule] *)
  Definition compounding_value (start stop compound t : T) (step : Z) : T :=
    sclip (start * nrpow compound (nZ step + t)) start stop.

  (** thinc/schedules.py 289-301 [_slanted_triangular_schedule] *)
  Definition slanted_value (max_rate : T) (cut : Z) (cut_frac : T) (ratio : Z) (t : T) (step : Z) : result T :=
    let t_step := nZ step + t + nZ 1 in
    let* p :=
      (if t_step <? nZ cut then
         if Z.eqb cut 0 then Err ZeroDivisionError else Ok (t_step / nZ cut)
       else
         if cut_frac =? nZ 0 then Err ZeroDivisionError
         else
           let d := nZ cut * (nZ 1 / cut_frac - nZ 1) in
           if d =? nZ 0 then Err ZeroDivisionError else Ok (nZ 1 - ((t_step - nZ cut) / d))) in
    if Z.eqb ratio 0 then Err ZeroDivisionError
    else Ok (max_rate * (nZ 1 + p * (nZ (ratio - 1))) * (nZ 1 / nZ ratio)).

  (** thinc/schedules.py 322-331 [_warmup_linear_schedule] *)
  Definition warmup_value (initial : T) (warmup total : Z) (step : Z) : T :=
    let factor :=
      if Z.ltb step warmup then nZ step / nZ (Z.max 1 warmup)
      else nmax (nZ 0) (nZ (total - step) / nmax (nZ 1) (nZ (total - warmup))) in
    factor * initial.

  (** thinc/schedules.py 343-353 [_cyclic_triangular_schedule] *)
  Definition cyclic_value (min_lr max_lr : T) (period : Z) (step : Z) : result T :=
    if Z.eqb period 0 then Err ZeroDivisionError
    else
      let it := (step + 1)%Z in
      let cycle := nfloor (nZ 1 + nZ it / nZ (2 * period)) in
      let x := nabs (nZ it / nZ period - nZ 2 * cycle + nZ 1) in
      let relative := nmax (nZ 0) (nZ 1 - x) in
      Ok (min_lr + (max_lr - min_lr) * relative).

  (** thinc/schedules.py 192-237 [_plateau_schedule], up to the call of the inner schedule *)
  Definition plateau_update (max_patience : nat) (st : pstate T) (last_score : option (Z * T)) : result (pstate T) :=
    match last_score with
    | None => Ok st
    | Some (step, score) =>
      let improved := Ok (mkP (Some score) (Some step) 0 (p_n st)) in
      match p_best st, p_last st with
      | Some best, Some last =>
        if best <? score then improved
        else if Z.ltb step last then Err ValueError
        else if Z.ltb last step then
          let patience := S (p_patience st) in
          if Nat.eqb patience max_patience
          then Ok (mkP (p_best st) (Some step) 0 (S (p_n st)))
          else Ok (mkP (p_best st) (Some step) patience (p_n st))
        else Ok (mkP (p_best st) (Some step) (p_patience st) (p_n st))
      | _, _ => improved
      end
    end.

  (** thinc/optimizers.py 431-435: the loop [for i in range(n): value = next(generator)] *)
  Fixpoint gen_loop (n : nat) (g : gen T) (value : T) : gen T * T :=
    match n with
    | O => (g, value)
    | S n' => match gen_next g with
              | (g', Some v) => gen_loop n' g' v
              | (g', None) => (g', value)
              end
    end.

  (** thinc/schedules.py 34-40 [Schedule.__call__] with the schedule functions (79-87, 96-98, ...) and
      thinc/optimizers.py 416-440 [_wrap_generator_schedule] *)
  Fixpoint sched_call (s : schedule T) (step : Z) (last_score : option (Z * T)) : schedule T * result T :=
    if Z.ltb step 0 then (s, Err ValueError)
    else
      match s with
      | Constant rate => (s, Ok rate)
      | ConstantThen rate steps inner =>
        if Z.ltb step steps then (s, Ok rate)
        else let (inner', r) := sched_call inner step last_score in (ConstantThen rate steps inner', r)
      | Decaying base decay t => (s, decaying_value base decay t step)
      | Compounding start stop compound t => (s, Ok (compounding_value start stop compound t step))
      | Plateau mp scale inner st =>
        match plateau_update mp st last_score with
        | Err e => (s, Err e)
        | Ok st' =>
          let (inner', r) := sched_call inner step last_score in
          (Plateau mp scale inner' st', let* v := r in Ok (npow scale (p_n st') * v))
        end
      | Slanted max_rate cut cut_frac ratio t => (s, slanted_value max_rate cut cut_frac ratio t step)
      | Warmup initial warmup total => (s, Ok (warmup_value initial warmup total step))
      | Cyclic min_lr max_lr period => (s, cyclic_value min_lr max_lr period step)
      | WrapGen last_step last_value g =>
        if Z.ltb step last_step then (s, Err ValueError)
        else let (g', v) := gen_loop (Z.to_nat (step - last_step)) g last_value in (WrapGen step v g', Ok v)
      end.

  (** thinc/schedules.py 160-189 [plateau]: a new plateau schedule *)
  Definition plateau (max_patience : nat) (scale : T) (inner : schedule T) : schedule T :=
    Plateau max_patience scale inner (mkP None None 0 0).

  (** thinc/optimizers.py 398-413 [_wrap_generator]: [chain([peek], generator)] yields the same values
      as the generator did before [peek] was taken. *)
  Definition wrap_generator (seq : nat -> option T) : result (schedule T) :=
    match seq 0%nat with
    | None => Err ValueError
    | Some peek => Ok (WrapGen (-1) peek (mkGen seq 0))
    end.

  (** thinc/schedules.py 263-286 [slanted_triangular]: [cut = int(num_steps * cut_frac)]; [trunc] is Python's int() *)
  Definition slanted_triangular (trunc : T -> Z) (max_rate : T) (num_steps : Z) (cut_frac : T) (ratio : Z) (t : T) : schedule T :=
    Slanted max_rate (trunc (nZ num_steps * cut_frac)) cut_frac ratio t.

  (** A sequence of calls of one schedule object. *)
  Fixpoint sched_run (s : schedule T) (calls : list (Z * option (Z * T))) : schedule T * list (result T) :=
    match calls with
    | [] => (s, [])
    | (step, ls) :: calls' =>
      let (s1, r) := sched_call s step ls in
      let (s2, rs) := sched_run s1 calls' in
      (s2, r :: rs)
    end.

  (** thinc/schedules.py 47-66 [to_generator]: the first n values *)
  Definition to_generator (s : schedule T) (start step_size : Z) (n : nat) : result (list (result T)) :=
    if Z.ltb start 0 then Err ValueError
    else if Z.ltb step_size 0 then Err ValueError
    else Ok (snd (sched_run s (map (fun i => ((start + Z.of_nat i * step_size)%Z, None)) (seq 0 n)))).
End Sched.
