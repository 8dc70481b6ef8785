(** Vocabulary of the theorems about the CUDA activations. *)
From Coq Require Import Reals.
From Verif Require Export ActSpec CudaSpec CudaActModel.
Local Open Scope R_scope.

(** The error function. *)
Definition is_erf (f : R -> R) : Prop :=
  f 0 = 0 /\ (forall x, derivable_pt_lim f x (2 / sqrt PI * exp (- (x * x)))) /\
  (forall eps, 0 < eps -> exists M, forall x, M <= x -> Rabs (f x - 1) < eps).
(** Swish and gelu as textbooks write them. *)
Definition exact_swish (x : R) : R := x * logistic x.
Definition gauss (erf : R -> R) (x : R) : R := 1 / 2 * (1 + erf (x / sqrt 2)).
Definition exact_gelu (erf : R -> R) (x : R) : R := x * gauss erf x.
