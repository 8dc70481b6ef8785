(** Vocabulary of the schedule theorems. *)
From Coq Require Import Reals Rpower.
From Verif Require Export SchedModel NumR.

#[export] Instance numx_R : NumX R := { nrpow := Rpower; nfloor := fun x => IZR (Int_part x) }.

(** The value a generator with items [seq 0], [seq 1], ... stands for at step k: item k, or the last
    item if there are fewer. *)
Definition yields {T} (seq : nat -> option T) (k : nat) (v : T) : Prop :=
  exists j, (forall i, i <= j -> seq i <> None) /\ seq j = Some v /\ (j = k \/ j < k /\ seq (S j) = None).

Fixpoint nondecreasing (l : list Z) : Prop :=
  match l with
  | x :: ((y :: _) as l') => (x <= y)%Z /\ nondecreasing l'
  | _ => True
  end.

(** Evaluations are (step, score). An evaluation improves if its score is above all earlier ones. *)
Definition improves (prev : list (Z * R)) (e : Z * R) : bool :=
  forallb (fun p => if Rlt_dec (snd p) (snd e) then true else false) prev.
(** Seen after [prev], an evaluation counts as an improvement, as a non-improvement (if it is not the
    previous step again), or not at all. *)
Definition flag (prev : list (Z * R)) (e : Z * R) : list bool :=
  if improves prev e then [true]
  else if Z.ltb (fst (last prev e)) (fst e) then [false] else [].
Fixpoint flags (prev evals : list (Z * R)) : list bool :=
  match evals with
  | [] => []
  | e :: evals' => flag prev e ++ flags (prev ++ [e]) evals'
  end.
(** Lengths of the runs of non-improvements between improvements. *)
Fixpoint runs (cur : nat) (l : list bool) : list nat :=
  match l with
  | [] => [cur]
  | true :: l' => cur :: runs 0 l'
  | false :: l' => runs (S cur) l'
  end.
Definition plateaus (max_patience : nat) (evals : list (Z * R)) : nat :=
  list_sum_nat (map (fun len => len / max_patience) (runs 0 (flags [] evals))).

(** The evaluations a list of calls passes. *)
Definition evals_of (calls : list (Z * option (Z * R))) : list (Z * R) :=
  flat_map (fun c => match snd c with Some e => [e] | None => [] end) calls.

(** Python's [int(x)]: truncation towards zero. *)
Definition py_int (x : R) : Z := if Rlt_dec x 0 then (- Int_part (- x))%Z else Int_part x.
