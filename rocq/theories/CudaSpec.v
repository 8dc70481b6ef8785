(** Vocabulary of the theorems about CUDA kernels. *)
From Coq Require Export Permutation.
From Verif Require Export KernelSpec CudaModel.

Section Spec.
  Context {V : Type}.
  (** The element an access touches. *)
  Definition target (i : instr V) : nat := match i with Wr a _ => a | Rmw a _ => a end.
  (** Accesses made one after the other by a single processor. *)
  Definition perform (m : list V) (i : instr V) : list V :=
    match i with
    | Wr a v => set_nth a v m
    | Rmw a f => match nth_error m a with Some x => set_nth a (f x) m | None => m end
    end.
  Definition sequentially (m : list V) (l : list (instr V)) : list V := fold_left perform l m.
  (** The accesses of the iterations stay within [n] elements. *)
  Definition in_bounds (n N : nat) (work : nat -> list (instr V)) : Prop :=
    forall b i, b < N -> In i (work b) -> target i < n.
  (** No element is touched by two iterations. *)
  Definition disjoint (N : nat) (work : nat -> list (instr V)) : Prop :=
    forall b b' i i', b < N -> b' < N -> In i (work b) -> In i' (work b') -> target i = target i' -> b = b'.
End Spec.

(** A launch has at least one thread. *)
Definition has_threads (c : config) : Prop := num_blocks c * threads_per_block c <> 0.
