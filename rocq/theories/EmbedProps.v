(** C40: Embed and HashEmbed. *)
From Coq Require Import QArith.
From Verif Require Import NumQ EmbedSpec EmbedProofs.
Local Open Scope nat_scope.

(** Embed: the table gradient is the adjoint of the (masked) lookup, on both scatter_add paths. The backward
    function only depends on the shape of the table, so this determines the gradient. *)
Theorem C40_embed_adjoint :
  forall fast (E dY : mat R) ids is_train mask Y, wf_mat E -> ids_in (m_len E) ids -> mask_ok (m_cols E) mask -> (is_train = false -> mask = None) ->
    wf_mat dY -> m_cols dY = m_cols E -> m_len dY = length ids ->
    embed_forward E ids is_train mask = Ok Y ->
    exists dE d', embed_backward fast (m_len E) (m_cols E) ids mask dY = Ok (dE, repeat 0%Z (length ids), d') /\ wf_mat dE /\ m_len dE = m_len E /\ m_cols dE = m_cols E /\
      mdot (m_rows dE) (m_rows E) = mdot (m_rows dY) (m_rows Y).
Proof. exact embed_adjoint. Qed.
Print Assumptions C40_embed_adjoint.
Theorem C40_embed_range_checked :
  forall (E : mat R) ids is_train mask, ~ Forall (fun k => (- Z.of_nat (m_len E) <= k < Z.of_nat (m_len E))%Z) ids -> embed_forward E ids is_train mask = Err IndexError.
Proof. exact embed_range. Qed.
Print Assumptions C40_embed_range_checked.
Definition exE : mat Q := mkM 2 [[1; 2]; [3; 4]; [5; 6]]%Q.
Example C40_embed_ex : embed_forward exE [2; 0; 2]%Z true (Some [2; 0]%Q) = Ok (mkM 2 [[10; 0]; [2; 0]; [10; 0]]%Q) /\
  embed_backward true 3 2 [2; 0; 2]%Z (Some [2; 0]%Q) (mkM 2 [[1; 1]; [10; 10]; [100; 100]]%Q) =
    Ok (mkM 2 [[20; 0]; [0; 0]; [202; 0]]%Q, [0; 0; 0]%Z, mkM 2 [[2; 0]; [20; 0]; [200; 0]]%Q).
Proof. vm_compute. split; reflexivity. Qed.

(** HashEmbed: the four buckets of every id lie in the table, and the table gradient is the adjoint. *)
Theorem C40_hashembed_adjoint :
  forall fast (E dY : mat R) seed ids is_train mask, wf_mat E -> m_len E <> 0 -> m_cols E <> 0 -> word 32 seed -> ids <> [] -> mask_ok (m_cols E) mask -> (is_train = false -> mask = None) ->
    wf_mat dY -> m_cols dY = m_cols E -> m_len dY = length ids ->
    exists Y keys dE d', hashembed_forward E seed ids is_train mask = Ok (Y, Some keys) /\ Forall (ids_in (m_len E)) keys /\ m_len Y = length ids /\ m_cols Y = m_cols E /\ wf_mat Y /\
      hashembed_backward fast (m_len E) (m_cols E) (Some keys) mask dY = Ok (dE, repeat 0%Z (length ids), d') /\ wf_mat dE /\ m_len dE = m_len E /\ m_cols dE = m_cols E /\
      mdot (m_rows dE) (m_rows E) = mdot (m_rows dY) (m_rows Y).
Proof. exact hashembed_adjoint. Qed.
Print Assumptions C40_hashembed_adjoint.
(** Each vector is the sum of the rows in the four buckets of its id. *)
Theorem C40_hashembed_vectors :
  forall (E : mat R) seed ids Y keys, wf_mat E -> m_len E <> 0 -> m_cols E <> 0 -> word 32 seed -> ids <> [] ->
    hashembed_forward E seed ids false None = Ok (Y, Some keys) ->
    keys = map (fun id => map (fun w => w mod Z.of_nat (m_len E))%Z (murmur128 id seed)) ids /\
    m_rows Y = map (fun k => colsum (m_cols E) (lookup (m_rows E) k)) keys.
Proof. exact hashembed_values. Qed.
Print Assumptions C40_hashembed_vectors.
Example C40_hashembed_ex : hashembed_forward exE 7 [1; 5]%Z true (Some [1; 2]%Q) = Ok (mkM 2 [[12; 32]; [6; 20]]%Q, Some [[1; 1; 1; 1]; [0; 1; 0; 0]]%Z) /\
  hashembed_backward true 3 2 (Some [[1; 1; 1; 1]; [0; 1; 0; 0]]%Z) (Some [1; 2]%Q) (mkM 2 [[1; 1]; [10; 10]]%Q) =
    Ok (mkM 2 [[30; 60]; [14; 28]; [0; 0]]%Q, [0; 0]%Z, mkM 2 [[1; 2]; [10; 20]]%Q).
Proof. vm_compute. split; reflexivity. Qed.

(** Finding: HashEmbed accepts an empty batch, but its backward function then uses unbound names. *)
Theorem C40_hashembed_empty_refuted :
  forall (T : Type) (N : Num T) fast (E : mat T) seed is_train mask dY, hashembed_forward E seed [] is_train mask = Ok (mkM (m_cols E) [], None) /\
    hashembed_backward fast (m_len E) (m_cols E) None mask dY = Err NameError.
Proof. exact @hashembed_empty. Qed.
Print Assumptions C40_hashembed_empty_refuted.
(** Finding: Embed looks a negative id up from the end of the table, but with float32 and int32 arrays its gradient
    is dropped. *)
Theorem C40_embed_negative_refuted :
  forall a b d : R, embed_forward (mkM 1 [[a]; [b]]) [-1]%Z true None = Ok (mkM 1 [[b]]) /\
    embed_backward true 2 1 [-1]%Z None (mkM 1 [[d]]) = Ok (mkM 1 [[0]; [0]]%R, [0%Z], mkM 1 [[d]]) /\
    exists d1, embed_backward false 2 1 [-1]%Z None (mkM 1 [[d]]) = Ok (mkM 1 [[0%R]; [d1]], [0%Z], mkM 1 [[d]]) /\ d1 = d.
Proof. exact embed_negative. Qed.
Print Assumptions C40_embed_negative_refuted.
(** Finding: the backward function masks the caller's gradient in place, so that a second call with the same array
    applies the mask twice. *)
Theorem C40_gradient_masked_in_place_refuted :
  forall m d : R, exists d' d'', embed_backward true 1 1 [0]%Z (Some [m]) (mkM 1 [[d]]) = Ok (mkM 1 [[0 + 1 * (d * m)]]%R, [0%Z], d') /\
    embed_backward true 1 1 [0]%Z (Some [m]) d' = Ok (mkM 1 [[0 + 1 * (d * m * m)]]%R, [0%Z], d'').
Proof. exact embed_twice. Qed.
Print Assumptions C40_gradient_masked_in_place_refuted.
