(** Scalars. Code that computes with floats is modelled over an arbitrary type with the operations
    the code uses; theorems that need laws are stated for the real numbers (or name the law). *)
From Verif Require Export Base.

Class Num (T : Type) := {
  nZ : Z -> T;                          (* literals and int-to-float conversion *)
  nadd : T -> T -> T;
  nsub : T -> T -> T;
  nmul : T -> T -> T;
  ndiv : T -> T -> T;
  nopp : T -> T;
  nsqrt : T -> T;
  nltb : T -> T -> bool;
  neqb : T -> T -> bool
}.

Declare Scope num_scope.
Delimit Scope num_scope with num.
Infix "+" := nadd : num_scope.
Infix "-" := nsub : num_scope.
Infix "*" := nmul : num_scope.
Infix "/" := ndiv : num_scope.
Notation "- x" := (nopp x) : num_scope.
Infix "<?" := nltb : num_scope.
Infix "=?" := neqb : num_scope.

Section Num.
  Context {T : Type} `{Num T}.
  Local Open Scope num_scope.
  Definition nnat (n : nat) : T := nZ (Z.of_nat n).
  (** [x ** n] for a natural number n *)
  Fixpoint npow (x : T) (n : nat) : T := match n with O => nZ 1 | S k => x * npow x k end.
  Definition nsum (l : list T) : T := fold_left nadd l (nZ 0).
  (** Elementwise operations on arrays of the same size. *)
  Definition vmap2 (f : T -> T -> T) (a b : list T) : list T := map (fun p => f (fst p) (snd p)) (combine a b).
  Definition vscale (c : T) (a : list T) : list T := map (fun x => c * x) a.
End Num.
