(** Vocabulary of the theorems about activations. *)
From Coq Require Import Reals.
From Verif Require Export DenseSpec ActModel.
Local Open Scope R_scope.

#[export] Instance trans_R : Trans R := { nexp := exp; nln := ln; ntanh := tanh; ncosh := cosh; npi := PI }.

Definition differentiable (f : R -> R) (x : R) : Prop := exists l, derivable_pt_lim f x l.
(** At [x], [back] multiplies the gradient by the derivative of [f], if there is one. *)
Definition true_at (f : R -> R) (back : R -> R -> R) (x : R) : Prop :=
  forall l, derivable_pt_lim f x l -> forall d, back d x = d * l.

(** The functions the code computes, as textbooks write them. *)
Definition logistic (x : R) : R := 1 / (1 + exp (- x)).
Definition softplus (x : R) : R := ln (1 + exp x).
Definition clamp (lo hi x : R) : R := Rmin hi (Rmax lo x).

(** gelu_approx with the constants of its backprop: the forward pass has sqrt(2/pi) and 0.044715 sqrt(2/pi). *)
Definition gelu_arg (x : R) : R := 356774 / 10000000 * x ^ 3 + 797885 / 1000000 * x.
Definition gelu_fixed (x : R) : R := x / 2 * (1 + tanh (gelu_arg x)).
Definition sech2 (x : R) : R := (1 / cosh x) ^ 2.
