(** C45: softmax rows are probability distributions, and the backprops multiply by the Jacobian. *)
From Coq Require Import QArith.
From Coq Require Import Reals Lra.
From Verif Require Import NumQ CombModel CombSpec DenseModel DenseSpec ActModel ActSpec SoftModel SoftSpec SoftProofs SoftSeqProofs.
Local Open Scope R_scope.

(** A toy exponential on the rationals, to run the model: powers of two of whole numbers *)
Local Instance trans_toy : Trans Q := {| nexp := fun x => Qpower 2 (Qround.Qfloor x); nln := fun x => x; ntanh := fun x => x; ncosh := fun x => x; npi := 3%Q |}.

(** The values. Subtracting the maximum of the row changes nothing. *)
Theorem C45_softmax : forall nI X t, input_of nI X -> nI <> 0%nat -> t <> 0 -> softmax t X = Ok (by_row nI (softmax_at t) X).
Proof. exact softmax_ok. Qed.
Print Assumptions C45_softmax.
Example C45_softmax_ex : (let* y := softmax 1%Q (mkM 3 [[5; 6; 5]; [1; 1; 2]]%Q) in Ok (map (map Qred) (m_rows y))) = Ok [[1#4; 1#2; 1#4]; [1#4; 1#4; 1#2]]%Q.
Proof. vm_compute. reflexivity. Qed.
(** Whenever softmax returns, each row is a distribution *)
Theorem C45_rows : forall t (X Y : mat R), softmax t X = Ok Y -> m_cols Y = m_cols X /\ length (m_rows Y) = length (m_rows X) /\ Forall distribution (m_rows Y).
Proof. exact softmax_rows. Qed.
Print Assumptions C45_rows.
(** and the only 2d arrays on which it raises are those with rows of width 0 *)
Theorem C45_empty_width : forall t (X : mat R), In [] (m_rows X) -> softmax t X = Err ValueError.
Proof. exact softmax_empty_row. Qed.
Print Assumptions C45_empty_width.
Theorem C45_shift : forall t k x j, x <> [] -> (j < length x)%nat -> t <> 0 -> softmax_at t (map (fun a => a + k) x) j = softmax_at t x j.
Proof. exact softmax_shift. Qed.
Print Assumptions C45_shift.
Theorem C45_order : forall t x i j, 0 < t -> (i < length x)%nat -> (nth i x 0 < nth j x 0 <-> softmax_at t x i < softmax_at t x j).
Proof. exact softmax_order. Qed.
Print Assumptions C45_order.

(** The backprop multiplies each row by the Jacobian [y_k (delta_kj - y_j) / t]. *)
Theorem C45_jacobian :
  forall t c (X dY : mat R), input_of c X -> input_of c dY -> length (m_rows dY) = length (m_rows X) -> t <> 0 -> c <> 0%nat ->
  exists Y dX, softmax t X = Ok Y /\ backprop_softmax Y dY t = Ok dX /\ wf_mat dX /\ m_cols dX = c /\ length (m_rows dX) = length (m_rows X) /\
  forall i j, (i < length (m_rows X))%nat -> (j < c)%nat ->
    nth j (nth i (m_rows dX) []) 0 =
    msum (map (fun k => nth k (nth i (m_rows dY) []) 0 * (softmax_at t (nth i (m_rows X) []) k * ((if Nat.eqb k j then 1 else 0) - softmax_at t (nth i (m_rows X) []) j) / t)) (seq 0 c)).
Proof. exact back_jacobian. Qed.
Print Assumptions C45_jacobian.
Example C45_jacobian_ex :
  (let* y := softmax 1%Q (mkM 2 [[5; 5]]%Q) in let* d := backprop_softmax y (mkM 2 [[3; 1]]%Q) 1%Q in Ok (map (map Qred) (m_rows d))) = Ok [[1#2; -1#2]]%Q.
Proof. vm_compute. reflexivity. Qed.
(** which is the derivative of softmax along every curve. *)
Theorem C45_differentiates :
  forall nI X t tr theta, input_of nI X -> nI <> 0%nat -> t <> 0 -> differentiates (softmax_op t) tr theta (Arr2 X) (Arr2 (by_row nI (softmax_at t) X)).
Proof. exact softmax_diff. Qed.
Print Assumptions C45_differentiates.
Theorem C45_softmax_activation :
  forall nI X tr theta, input_of nI X -> nI <> 0%nat -> differentiates softmax_activation tr theta (Arr2 X) (Arr2 (by_row nI (softmax_at 1) X)).
Proof. exact softmax_activation_diff. Qed.
Print Assumptions C45_softmax_activation.

(** ** softmax_sequences *)

(** Each column is normalised over the rows of each sequence, after clipping to [-20, 20]. *)
Theorem C45_sequences :
  forall numpy c lengths X, input_of c X -> ReduceSpec.nonneg lengths -> zsum lengths = Z.of_nat (length (m_rows X)) -> (numpy = true -> m_rows X <> []) ->
    softmax_sequences numpy X lengths = Ok (mkM c (concat (map (sequence_softmax c) (seqs_of lengths (m_rows X))))).
Proof. exact sequences_ok. Qed.
Print Assumptions C45_sequences.
Theorem C45_sequence_distribution : forall c s, s <> [] -> forall j, (j < c)%nat -> distribution (col 0 j (sequence_softmax c s)).
Proof. exact sequence_distribution. Qed.
Print Assumptions C45_sequence_distribution.
Example C45_sequences_ex :
  map (fun numpy => let* y := softmax_sequences numpy (mkM 2 [[1; 2]; [1; 3]; [7; 7]; [1; 3]]%Q) [3; 0; 1]%Z in Ok (map (map Qred) (m_rows y))) [true; false]
  = let y := [[1#66; 1#35]; [1#66; 2#35]; [32#33; 32#35]; [1; 1]]%Q in [Ok y; Ok y].
Proof. vm_compute. reflexivity. Qed.
(** If the lengths do not cover the rows the operation raises, except that lengths summing to 1 broadcast. *)
Theorem C45_sequences_mismatch :
  forall (numpy : bool) c lengths X, input_of c X -> ReduceSpec.nonneg lengths -> (zsum lengths < Z.of_nat (length (m_rows X)))%Z -> zsum lengths <> 1%Z ->
    softmax_sequences numpy X lengths = Err ValueError.
Proof. exact sequences_mismatch. Qed.
Print Assumptions C45_sequences_mismatch.
Example C45_sequences_broadcast :
  (let* y := softmax_sequences true (mkM 1 [[1]; [3]]%Q) [1]%Z in Ok (map (map Qred) (m_rows y))) = Ok [[1]; [4]]%Q /\
  softmax_sequences true (mkM 1 [[1]; [3]; [4]]%Q) [2]%Z = Err ValueError.
Proof. split; vm_compute; reflexivity. Qed.
(** Within the clip, the backprop is the derivative along every curve *)
Theorem C45_sequences_differentiates_partial :
  forall numpy c lengths tr theta X, input_of c X -> ReduceSpec.nonneg lengths -> zsum lengths = Z.of_nat (length (m_rows X)) -> (numpy = true -> m_rows X <> []) ->
    Forall (Forall (fun a => -20 < a < 20)) (m_rows X) ->
    differentiates (sequences_op numpy lengths) tr theta (Arr2 X) (Arr2 (mkM c (concat (map (sequence_softmax c) (seqs_of lengths (m_rows X)))))).
Proof. exact sequences_diff. Qed.
Print Assumptions C45_sequences_differentiates_partial.
Example C45_sequences_hyp : Forall (Forall (fun a => -20 < a < 20)) [[1; -19]; [0; 19]].
Proof. repeat constructor; lra. Qed.
(** and beyond it is not: the forward pass is flat there, the backprop is not zero. *)
Theorem C45_sequences_refuted :
  forall numpy theta tr, exists Y, softmax_sequences numpy (mkM 1 [[30]; [0]]) [2%Z] = Ok Y /\
    ~ differentiates (sequences_op numpy [2%Z]) tr theta (Arr2 (mkM 1 [[30]; [0]])) (Arr2 Y).
Proof. exact sequences_clipped. Qed.
Print Assumptions C45_sequences_refuted.

(** ** The Softmax layer *)

(** Its callback takes the gradient of the loss with respect to the output before the softmax: with [dY = Y - T], the
    callback returns the gradient of the cross-entropy of the output to [T], for every T whose rows sum to 1, with respect
    to the input and to all parameters. *)
Theorem C45_Softmax :
  forall n t nO nI wo bo tr theta X T, 0 < t -> nO <> 0%nat -> (n || tr)%bool = true -> input_of nI X -> room wo (nO * nI) theta -> room bo nO theta ->
    input_of nO T -> length (m_rows T) = length (m_rows X) -> Forall (fun p => msum p = 1) (m_rows T) ->
    let Y := by_row nO (fun x => softmax_at t (map (affine_at theta wo bo nI x) (seq 0 nO))) X in
    exists b dY, Softmax n t nO nI wo bo tr theta (Arr2 X) = Ok (Arr2 Y, b) /\ mbin nsub Y T = Ok dY /\
    forall g, length g = length theta ->
    exists dX g', b (Arr2 dY) g = Ok (dX, g') /\ CombSpec.like dX (Arr2 X) /\ length g' = length theta /\
    forall (P : list jet) (K : value jet) (Ys : R -> mat R),
      map (at_time 0) P = theta -> vmap (at_time 0) K = Arr2 X -> Forall smooth P -> Forall smooth (leaves K) ->
      (forall s, exists b', Softmax n t nO nI wo bo tr (map (at_time s) P) (vmap (at_time s) K) = Ok (Arr2 (Ys s), b')) ->
      derivable_pt_lim (fun s => cross_entropy T (Ys s)) 0
        (inner dX (vmap velocity K) + (dot g' (map velocity P) - dot g (map velocity P))).
Proof. exact softmax_cross. Qed.
Print Assumptions C45_Softmax.
Theorem C45_Softmax_errors :
  forall n t nO nI wo bo tr (theta : list R) X, (t <= 0 -> Softmax n t nO nI wo bo tr theta X = Err ValueError) /\
    forall Y b, Softmax n t nO nI wo bo tr theta X = Ok (Y, b) -> (n || tr)%bool = false -> forall dY g, b dY g = Err ValueError.
Proof. exact softmax_layer_errors. Qed.
Print Assumptions C45_Softmax_errors.
Example C45_Softmax_ex :
  (let* p := Softmax true 1%Q 2 1 0 2 false [1; 2; 0; 0]%Q (Arr2 (mkM 1 [[1]; [0]]%Q)) in
   let* r := snd p (Arr2 (mkM 2 [[3; 6]; [0; 1]]%Q)) [0; 0; 0; 0]%Q in
   match fst p, r with Arr2 y, (Arr2 m, g) => Ok (map (map Qred) (m_rows y), map (map Qred) (m_rows m), map Qred g) | _, _ => Err TypeError end)
  = Ok ([[1#3; 2#3]; [1#2; 1#2]], [[15]; [2]], [3; 6; 3; 7])%Q.
Proof. vm_compute. reflexivity. Qed.

(** ** MultiSoftmax *)

(** Finding: [ops.softmax(..., inplace=True)] does not work in place and the layer drops its result, so the outputs are not
    normalised at all: the layer is linear. *)
Theorem C45_MultiSoftmax_refuted :
  forall nOs nI wo bo tr theta X, input_of nI X -> room wo (list_sum nOs * nI) theta -> room bo (list_sum nOs) theta -> Forall (fun n => n <> 0%nat) nOs ->
    exists b, MultiSoftmax nOs nI wo bo tr theta (Arr2 X) = Ok (Arr2 (by_row (list_sum nOs) (affine_at theta wo bo nI) X), b).
Proof. exact multisoftmax_linear. Qed.
Print Assumptions C45_MultiSoftmax_refuted.
(** Its callback is right for the linear layer. *)
Theorem C45_MultiSoftmax_gradient :
  forall nOs nI wo bo tr theta X, input_of nI X -> room wo (list_sum nOs * nI) theta -> room bo (list_sum nOs) theta -> Forall (fun n => n <> 0%nat) nOs ->
    differentiates (MultiSoftmax nOs nI wo bo) tr theta (Arr2 X) (Arr2 (by_row (list_sum nOs) (affine_at theta wo bo nI) X)).
Proof. exact multisoftmax_diff. Qed.
Print Assumptions C45_MultiSoftmax_gradient.
Example C45_MultiSoftmax_ex :
  (let* p := MultiSoftmax [2; 1]%nat 1 0 3 false [1; 2; 3; 0; 0; 5]%Q (Arr2 (mkM 1 [[1]]%Q)) in
   match fst p with Arr2 y => Ok (map (map Qred) (m_rows y)) | _ => Err TypeError end) = Ok [[1; 2; 8]]%Q.
Proof. vm_compute. reflexivity. Qed.
