(** C38: SparseLinear. [slot v1 L c key seed] is the weight that class [c] uses for a key; [score_of] is what a
    feature adds to a score; [examples] cuts the features by the lengths. *)
From Coq Require Import QArith.
From Verif Require Import NumQ SparseSpec SparseProofs.
Local Open Scope nat_scope.

(** The hash is a 32-bit word, and both variants stay within the [nO * L] weights, for every key and every table
    length, not only powers of two. *)
Theorem C38_hash_range : forall key seed, (0 <= murmur32 key seed < 2 ^ 32)%Z.
Proof. exact murmur_range. Qed.
Print Assumptions C38_hash_range.
(** "12345678" hashes to 0x91b313ce, the published test vector. *)
Example C38_hash_ex : murmur32 4050765991979987505 0 = 2444432334%Z. Proof. reflexivity. Qed.
Theorem C38_slots_in_range :
  forall v1 L nO, L <> 0 -> nO <> 0 -> (Z.of_nat (nO * L) <= 2 ^ 31)%Z -> forall c key seed, c < nO -> slot v1 L c key seed < nO * L.
Proof. exact slot_range. Qed.
Print Assumptions C38_slots_in_range.
(** Hence no access outside the arrays: the scores are the bias plus the sum over the features. *)
Theorem C38_scores :
  forall v1 (L nO : nat) (W b values : list R) keys lengths, L <> 0 -> nO <> 0 -> (Z.of_nat (nO * L) <= 2 ^ 31)%Z ->
    length W = nO * L -> length b = nO -> nonneg lengths -> (zsum lengths <= Z.of_nat (length keys))%Z -> length values = length keys ->
    sparse_forward v1 (Z.of_nat nO) (Z.of_nat L) W b keys values lengths =
    Ok (mkM nO (map (fun e => map (fun c => nth c b 0 + msum (map (score_of v1 L c W) e))%R (seq 0 nO)) (examples keys values lengths))).
Proof. exact sparse_scores. Qed.
Print Assumptions C38_scores.
(** The gradient is the adjoint of the scores, in the weights and in the bias. *)
Theorem C38_adjoint :
  forall v1 (L nO : nat) (W b values : list R) keys lengths (dS S : mat R), L <> 0 -> nO <> 0 -> (Z.of_nat (nO * L) <= 2 ^ 31)%Z ->
    length W = nO * L -> length b = nO -> nonneg lengths -> (zsum lengths <= Z.of_nat (length keys))%Z -> length values = length keys ->
    wf_mat dS -> m_cols dS = nO -> m_len dS = length lengths -> lengths <> [] ->
    sparse_forward v1 (Z.of_nat nO) (Z.of_nat L) W b keys values lengths = Ok S ->
    exists dW db, sparse_backward v1 (Z.of_nat nO) (Z.of_nat L) keys values lengths dS = Ok (dW, db) /\ length dW = nO * L /\ length db = nO /\
      mdot (m_rows dS) (m_rows S) = (dot dW W + dot db b)%R.
Proof. exact sparse_adjoint. Qed.
Print Assumptions C38_adjoint.
Definition exW : list Q := [1; 2; 3; 4; 5; 6]%Q.
Example C38_forward_ex :
  sparse_forward false 2 3 exW [10; 20]%Q [7; 8; 9]%Z [1; 2; 3]%Q [2; 1]%Z = Ok (mkM 2 [[21; 49]; [19; 47]]%Q) /\
  sparse_forward true 2 3 exW [10; 20]%Q [7; 8; 9]%Z [1; 2; 3]%Q [2; 1]%Z = Ok (mkM 2 [[24; 40]; [28; 44]]%Q).
Proof. vm_compute. split; reflexivity. Qed.
Example C38_backward_ex :
  sparse_backward false 2 3 [7; 8; 9]%Z [1; 2; 3]%Q [2; 1]%Z (mkM 2 [[1; 10]; [100; 1000]]%Q) = Ok ([302; 303; 1; 3020; 3030; 10]%Q, [101; 1010]%Q).
Proof. vm_compute. reflexivity. Qed.

(** The two variants: v2 gives the classes disjoint weights; v1 never trains the weights from [L + nO - 1] on. *)
Theorem C38_v2_classes_disjoint :
  forall (L c c' : nat) key key' seed seed', L <> 0 -> slot false L c key seed = slot false L c' key' seed' -> c = c'.
Proof. exact sparse_v2_blocks. Qed.
Print Assumptions C38_v2_classes_disjoint.
Theorem C38_v1_unused_weights :
  forall (L nO : nat) (values : list R) keys lengths (dS : mat R) dW db, L <> 0 -> nO <> 0 -> (Z.of_nat (nO * L) <= 2 ^ 31)%Z ->
    nonneg lengths -> (zsum lengths <= Z.of_nat (length keys))%Z -> length values = length keys ->
    wf_mat dS -> m_cols dS = nO -> m_len dS = length lengths -> lengths <> [] ->
    sparse_backward true (Z.of_nat nO) (Z.of_nat L) keys values lengths dS = Ok (dW, db) ->
    forall j, L + nO - 1 <= j -> j < nO * L -> nth j dW 0%R = 0%R.
Proof. exact sparse_v1_unused. Qed.
Print Assumptions C38_v1_unused_weights.
(** Findings: the lengths are not checked against the features (a read outside the arrays), a negative length moves
    back to features already used, and a table of length 0 divides by zero. *)
Theorem C38_lengths_refuted :
  forall (T : Type) (N : Num T) (w b v : T) key,
    sparse_forward false 1 1 [w] [b] [key] [v] [2]%Z = Err MemFault /\
    sparse_forward false 1 1 [w] [b] [key] [v] [1; -1; 1]%Z = Ok (mkM 1 [[b + w * v + w * v]; [b]; [b + w * v + w * v]]%num).
Proof. exact @sparse_lengths. Qed.
Print Assumptions C38_lengths_refuted.
Theorem C38_no_weights_refuted :
  forall (T : Type) (N : Num T) (b v : T) key, sparse_forward false 1 0 [] [b] [key] [v] [1]%Z = Err MemFault.
Proof. exact @sparse_no_weights. Qed.
Print Assumptions C38_no_weights_refuted.
(** Finding: the backward function raises on an empty batch, which the forward function accepts. *)
Theorem C38_empty_batch_refuted :
  forall v1 nO L keys (values : list R) dS, m_rows dS = [] -> sparse_backward v1 nO L keys values [] dS = Err IndexError.
Proof. exact sparse_empty. Qed.
Print Assumptions C38_empty_batch_refuted.

(** Values of MurmurHash3_x86_32 of eight bytes, computed with another implementation. *)
Theorem C38_test_vectors : murmur32 0 0 = 1669671676%Z /\ murmur32 1 0 = 1392991556%Z /\ murmur32 1 1 = 3741873941%Z /\ murmur32 4050765991979987505 0 = 2444432334%Z /\
  murmur32 81985529216486895 0 = 4203775010%Z /\ murmur32 18446744073709551615 1 = 2540302534%Z.
Proof. exact @murmur_vectors. Qed.
Print Assumptions C38_test_vectors.
