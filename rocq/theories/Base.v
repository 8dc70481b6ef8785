(** Shared vocabulary of the model: Python exceptions as values, Python slices,
    and the few list functions used by several areas. No proofs here. *)
From Coq Require Export List Arith ZArith Bool Lia.
Export ListNotations.
Open Scope list_scope.

(** Python exceptions raised by the modelled code. [OutOfFuel] is not a Python
    exception: it marks a bounded run of a loop that did not finish. Nor is [MemFault]: it marks
    a C or C++ access outside its array, whose effect is undefined. *)
Inductive err : Type :=
| KeyError | ValueError | TypeError | IndexError | StopIteration
| NotImplementedError | AssertionError | NameError | ZeroDivisionError | OverflowError | AttributeError | RuntimeError | ImportError | OutOfFuel | MemFault.

Inductive result (A : Type) : Type :=
| Ok (a : A)
| Err (e : err).
Arguments Ok {A} a.
Arguments Err {A} e.

Definition bind {A B} (r : result A) (f : A -> result B) : result B :=
  match r with Ok a => f a | Err e => Err e end.

Declare Scope result_scope.
Notation "'let*' x ':=' r 'in' k" := (bind r (fun x => k))
  (at level 200, x pattern, right associativity) : result_scope.
Open Scope result_scope.

(** Python list indexing with a non-negative index; IndexError out of range. *)
Definition py_get {A} (l : list A) (i : nat) : result A :=
  match nth_error l i with Some a => Ok a | None => Err IndexError end.

(** Run a fallible function over a list, left to right, stopping at the first error. *)
Fixpoint mapM {A B} (f : A -> result B) (l : list A) : result (list B) :=
  match l with
  | [] => Ok []
  | a :: l' => let* b := f a in let* bs := mapM f l' in Ok (b :: bs)
  end.

(** Python slice bounds: [l[i:j]] with step 1, negative indices counted from the end,
    both bounds clamped into [0, len l]. *)
Definition clamp_index (n : nat) (i : Z) : nat :=
  if (i <? 0)%Z then Z.to_nat (Z.max 0 (i + Z.of_nat n)) else Nat.min (Z.to_nat i) n.

Definition py_slice {A} (l : list A) (i j : Z) : list A :=
  let a := clamp_index (length l) i in
  let b := clamp_index (length l) j in
  firstn (b - a) (skipn a l).

(** Replace position [i] of a list (no effect when out of range). *)
Fixpoint set_nth {A} (i : nat) (x : A) (l : list A) : list A :=
  match l, i with
  | [], _ => []
  | _ :: l', O => x :: l'
  | a :: l', S i' => a :: set_nth i' x l'
  end.

Definition list_sum_nat (l : list nat) : nat := fold_right Nat.add 0 l.
