(** Vocabulary of the theorems about 32-bit integers in CUDA kernels. *)
From Verif Require Export CudaSpec CudaIntModel.
Local Open Scope Z_scope.

(** A value of type [int] *)
Definition int32 (z : Z) : Prop := - 2 ^ 31 <= z < 2 ^ 31.
(** A loop of [N] iterations on this grid can count to its end. *)
Definition countable (c : config) (N : nat) : Prop :=
  Z.of_nat (Nat.max 1 N) + Z.of_nat (num_blocks c * threads_per_block c) <= 2 ^ 31.
(** At most 2^31 numbers: their indices are ints. *)
Definition indexable (n : Z) : Prop := n <= 2 ^ 31.
