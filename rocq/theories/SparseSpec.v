(** Vocabulary of the theorems about SparseLinear. *)
From Verif Require Export ReduceSpec SparseModel.

(** The weight used by class [c] for one of the two hashes of a key: v1 windows overlap, v2 gives each class its
    own block of [L] weights. *)
Definition slot (v1 : bool) (L c : nat) (key seed : Z) : nat :=
  if v1 then Z.to_nat (Z.land (murmur32 key seed) (Z.of_nat L - 1)) + c
  else c * L + Z.to_nat (murmur32 key seed mod Z.of_nat L).
(** What a feature (key, value) adds to the score of class [c]. *)
Definition score_of (v1 : bool) (L c : nat) (W : list R) (f : Z * R) : R :=
  ((nth (slot v1 L c (fst f) 0) W 0 + nth (slot v1 L c (fst f) 1) W 0) * snd f)%R.
(** The examples of a batch. *)
Definition examples {A B} (keys : list A) (values : list B) (lengths : list Z) : list (list (A * B)) :=
  chop (map Z.to_nat lengths) (combine keys values).
