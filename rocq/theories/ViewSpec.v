(** Vocabulary for C67. *)
From Coq Require Import ZArith List.
From Verif Require Export ViewModel.
Local Open Scope Z_scope.

(** The transposed array: the same memory with the axes swapped *)
Definition flip (v : view) : view := mkView (v_buf v) (v_off v) (v_cols v) (v_rows v) (v_s1 v) (v_s0 v).
(** The elements fill one piece of memory, in rows or in columns *)
Definition dense (v : view) : Prop := contiguous v = true \/ contiguous (flip v) = true.
(** The same two shapes *)
Definition same_shape (u v : view) : Prop := v_rows u = v_rows v /\ v_cols u = v_cols v.
(** Nothing changed outside of the memory between the first element of v and its size *)
Definition untouched {T} (v : view) (h h' : heap T) : Prop :=
  forall b p, (b <> v_buf v \/ p < v_off v \/ v_off v + Z.of_nat (size v) <= p) -> load h' b p = load h b p.
(** A 1d array without gaps *)
Definition plain1 (v : view) (n : nat) : Prop := v_rows v = 1%nat /\ v_cols v = n /\ v_s1 v = 1.
