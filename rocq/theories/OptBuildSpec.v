(** Vocabulary for optimizers with schedules: C70. *)
From Coq Require Import ZArith List.
From Verif Require Import OptBuildModel.
Import ListNotations.

Section Spec.
  Context {T : Type} `{Num T} `{NumX T}.

  (** A schedule that has been asked up to step [n] and answers [f step] at every step that is not earlier than the last one
      asked for, whatever the last score is. *)
  Definition follows (f : nat -> T) (n : nat) (s : schedule T) : Prop :=
    exists I : nat -> schedule T -> Prop, I n s /\
      forall m s step ls, I m s -> m <= step -> exists s', sched_call s (Z.of_nat step) ls = (s', Ok (f step)) /\ I step s'.

  (** What an argument means: the value of the hyperparameter at every step. *)
  Definition arg_values (a : arg T) (f : nat -> T) : Prop :=
    match a with
    | ANum c => forall n, f n = c
    | AList l => l <> [] /\ forall n, nth_error l (Nat.min n (length l - 1)) = Some (f n)
    | AGen seq => forall n, exists j, j <= n /\ (forall i, i <= j -> seq i <> None) /\ seq j = Some (f n) /\ (j = n \/ seq (S j) = None)
    | ASched s => follows f 0 s
    | AOther => False
    end.

  (** Arguments that cannot be used. *)
  Definition bad_arg (a : arg T) : Prop := match a with AList l => l = [] | AGen seq => seq 0 = None | AOther => True | _ => False end.
End Spec.

(** An argument that may be left out, for a default. *)
Definition kw_values {T} `{Num T} `{NumX T} (o : option (arg T)) (d : T) (f : nat -> T) : Prop :=
  match o with Some a => arg_values a f | None => forall n, f n = d end.

(** Hyperparameters that depend only on the step. *)
Definition of_step {T K} (lr b1 b2 eps L2 clip : nat -> T) (radam decay : bool) : hyper T K :=
  mkHyper (fun n _ _ => lr n) (fun n _ _ => b1 n) (fun n _ _ => b2 n) (fun n _ _ => eps n) (fun n _ _ => L2 n) (fun n _ _ => clip n) radam decay.

(** An optimizer that acts, in every history, as OptModel.v describes for these hyperparameters. *)
Definition acts_as {T K} `{Num T} `{NumX T} `{EqD K} (r : result (optimizer T K)) (hp : hyper T K) (avg : bool) : Prop :=
  exists z, r = Ok z /\
    forall adam es, let '(z', out) := handle_all adam z es in run_events adam hp (opt_init avg) es = (z_opt z', out).
