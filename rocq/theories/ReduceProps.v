(** C34: reductions of the sequences of a ragged array, in the compiled numpy backend ([np_]) and in the
    base class ([op_]). *)
From Coq Require Import QArith.
From Verif Require Import NumQ ReduceSpec ReduceProofs ReduceMaxProofs ReduceFirstProofs.
Local Open Scope R_scope.

(** Sum and mean of each sequence; the compiled kernels need at least one row. *)
Theorem C34_sum :
  forall (X : mat R) lengths, wf_mat X -> nonneg lengths -> (zsum lengths <= Z.of_nat (m_len X))%Z ->
    op_reduce_sum X lengths = Ok (mkM (m_cols X) (map (colsum (m_cols X)) (seqs_of lengths (m_rows X)))) /\
    (m_rows X <> [] -> np_reduce_sum X lengths = Ok (mkM (m_cols X) (map (colsum (m_cols X)) (seqs_of lengths (m_rows X))))).
Proof. exact sum_ok. Qed.
Print Assumptions C34_sum.
Theorem C34_mean :
  forall (X : mat R) lengths, wf_mat X -> nonneg lengths -> (zsum lengths <= Z.of_nat (m_len X))%Z ->
    op_reduce_mean X lengths = Ok (mkM (m_cols X) (map (colmean (m_cols X)) (seqs_of lengths (m_rows X)))) /\
    (m_rows X <> [] -> np_reduce_mean X lengths = Ok (mkM (m_cols X) (map (colmean (m_cols X)) (seqs_of lengths (m_rows X))))).
Proof. exact mean_ok. Qed.
Print Assumptions C34_mean.
Definition exX : mat Q := mkM 2 [[1; 2]; [3; 4]; [5; 0]; [5; 7]]%Q.
Example C34_sum_ex : np_reduce_sum exX [1; 0; 3]%Z = Ok (mkM 2 [[1; 2]; [0; 0]; [13; 11]]%Q). Proof. vm_compute. reflexivity. Qed.
Example C34_mean_ex : np_reduce_mean exX [2; 0; 2]%Z = Ok (mkM 2 [[2; 3]; [0; 0]; [5; 7 # 2]]%Q) /\ op_reduce_mean exX [2; 0; 2]%Z = np_reduce_mean exX [2; 0; 2]%Z.
Proof. vm_compute. split; reflexivity. Qed.

(** Maximum of each sequence and column, with the first position that attains it. *)
Theorem C34_max :
  forall (X : mat R) lengths, wf_mat X -> m_cols X <> 0%nat -> m_rows X <> [] -> positive lengths -> (zsum lengths <= Z.of_nat (m_len X))%Z ->
    exists Y which, np_reduce_max X lengths = Ok (Y, which) /\ op_reduce_max X lengths = Ok (Y, which) /\
      m_cols Y = m_cols X /\ length (m_rows Y) = length lengths /\ length which = length lengths /\ wf_mat Y /\ Forall (fun w => length w = m_cols X) which /\
      forall i s j, nth_error (seqs_of lengths (m_rows X)) i = Some s -> (j < m_cols X)%nat ->
        first_max (col 0 j s) (nth j (nth i which []) 0%Z) (nth j (nth i (m_rows Y) []) 0).
Proof. exact reduce_max_ok. Qed.
Print Assumptions C34_max.
Example C34_max_ex : np_reduce_max exX [1; 3]%Z = Ok (mkM 2 [[1; 2]; [5; 7]]%Q, [[0; 0]; [1; 2]]%Z). Proof. vm_compute. reflexivity. Qed.

(** First and last row of each sequence. *)
Theorem C34_first :
  forall (X : mat R) lengths, lengths <> [] -> positive lengths -> Z.of_nat (m_len X) = zsum lengths ->
    op_reduce_first X lengths = Ok (mkM (m_cols X) (map (fun s => nth 0 s []) (seqs_of lengths (m_rows X))), 0%Z :: zcumsum lengths).
Proof. exact op_first_ok. Qed.
Print Assumptions C34_first.
Theorem C34_last :
  forall (X : mat R) lengths, lengths <> [] -> positive lengths -> Z.of_nat (m_len X) = zsum lengths ->
    op_reduce_last X lengths = Ok (mkM (m_cols X) (map (fun s => last s []) (seqs_of lengths (m_rows X))), map (fun e => (e - 1)%Z) (zcumsum lengths)).
Proof. exact op_last_ok. Qed.
Print Assumptions C34_last.
Example C34_first_last_ex :
  op_reduce_first exX [1; 3]%Z = Ok (mkM 2 [[1; 2]; [3; 4]]%Q, [0; 1; 4]%Z) /\ op_reduce_last exX [1; 3]%Z = Ok (mkM 2 [[1; 2]; [5; 7]]%Q, [0; 3]%Z).
Proof. vm_compute. split; reflexivity. Qed.

(** Lengths that are negative (for max, first and last: not positive) or run past the rows raise. *)
Theorem C34_sum_mean_errors :
  forall (X : mat R) pre n post, wf_mat X -> m_cols X <> 0%nat -> m_rows X <> [] -> nonneg pre -> (zsum pre <= Z.of_nat (m_len X))%Z ->
    let raises e := np_reduce_sum X (pre ++ n :: post) = Err e /\ op_reduce_sum X (pre ++ n :: post) = Err e /\
                    np_reduce_mean X (pre ++ n :: post) = Err e /\ op_reduce_mean X (pre ++ n :: post) = Err e in
    ((n < 0)%Z -> raises ValueError) /\ ((0 <= n)%Z -> (Z.of_nat (m_len X) < zsum pre + n)%Z -> raises IndexError).
Proof. exact sum_mean_errors. Qed.
Print Assumptions C34_sum_mean_errors.
Theorem C34_max_errors :
  forall (X : mat R) pre n post, wf_mat X -> m_cols X <> 0%nat -> m_rows X <> [] -> positive pre -> (zsum pre <= Z.of_nat (m_len X))%Z ->
    let raises e := np_reduce_max X (pre ++ n :: post) = Err e /\ op_reduce_max X (pre ++ n :: post) = Err e in
    ((n <= 0)%Z -> raises ValueError) /\ ((0 < n)%Z -> (Z.of_nat (m_len X) < zsum pre + n)%Z -> raises IndexError).
Proof. exact max_errors. Qed.
Print Assumptions C34_max_errors.
Theorem C34_first_last_errors :
  forall (X : mat R) lengths, lengths <> [] ->
    (~ positive lengths -> op_reduce_first X lengths = Err ValueError /\ op_reduce_last X lengths = Err ValueError) /\
    (positive lengths -> zsum lengths <> Z.of_nat (m_len X) -> op_reduce_first X lengths = Err IndexError /\ op_reduce_last X lengths = Err IndexError).
Proof. exact op_first_last_errors. Qed.
Print Assumptions C34_first_last_errors.
Example C34_errors_ex :
  np_reduce_sum exX [2; -1; 3]%Z = Err ValueError /\ np_reduce_mean exX [2; 3]%Z = Err IndexError /\ np_reduce_max exX [2; 0; 2]%Z = Err ValueError /\
  op_reduce_first exX [2; 1]%Z = Err IndexError /\ op_reduce_last exX [4; 0]%Z = Err ValueError.
Proof. vm_compute. repeat split. Qed.

(** Whatever the lengths, the compiled reductions stay within their arrays. *)
Theorem C34_no_fault :
  forall (X : mat R) lengths, wf_mat X ->
    np_reduce_sum X lengths <> Err MemFault /\ np_reduce_mean X lengths <> Err MemFault /\ np_reduce_max X lengths <> Err MemFault.
Proof. exact no_fault. Qed.
Print Assumptions C34_no_fault.

(** Each backward function is the adjoint of its forward function. *)
Theorem C34_sum_adjoint : adjoint_of np_backprop_reduce_sum colsum /\ adjoint_of op_backprop_reduce_sum colsum.
Proof. exact (conj adjoint_np_sum adjoint_op_sum). Qed.
Print Assumptions C34_sum_adjoint.
Theorem C34_mean_adjoint : adjoint_of np_backprop_reduce_mean colmean /\ adjoint_of op_backprop_reduce_mean colmean.
Proof. exact (conj adjoint_np_mean adjoint_op_mean). Qed.
Print Assumptions C34_mean_adjoint.
Example C34_sum_adjoint_ex :
  np_backprop_reduce_sum (mkM 2 [[1; 2]; [8; 9]; [3; 4]]%Q) [1; 0; 2]%Z = Ok (mkM 2 [[1; 2]; [3; 4]; [3; 4]]%Q) /\
  op_backprop_reduce_mean (mkM 1 [[1]; [4]]%Q) [1; 2]%Z = Ok (mkM 1 [[1]; [2]; [2]]%Q).
Proof. vm_compute. split; reflexivity. Qed.
Theorem C34_max_adjoint :
  forall (dY : mat R) which lengths, positive lengths -> wf_mat dY -> m_len dY = length lengths -> in_seqs (m_cols dY) which lengths ->
    exists dX, np_backprop_reduce_max dY which lengths = Ok dX /\ op_backprop_reduce_max dY which lengths = Ok dX /\
      m_cols dX = m_cols dY /\ wf_mat dX /\ Z.of_nat (m_len dX) = zsum lengths /\
      forall X, wf_mat X -> m_cols X = m_cols dY -> Z.of_nat (m_len X) = zsum lengths ->
        mdot (m_rows dX) (m_rows X) = mdot (m_rows dY) (select which (seqs_of lengths (m_rows X))).
Proof. exact back_max_adjoint. Qed.
Print Assumptions C34_max_adjoint.
Theorem C34_max_positions :
  forall (X : mat R) lengths Y which, wf_mat X -> m_cols X <> 0%nat -> m_rows X <> [] -> positive lengths -> (zsum lengths <= Z.of_nat (m_len X))%Z ->
    np_reduce_max X lengths = Ok (Y, which) -> in_seqs (m_cols X) which lengths /\ m_rows Y = select which (seqs_of lengths (m_rows X)).
Proof. exact max_roundtrip. Qed.
Print Assumptions C34_max_positions.
Example C34_max_adjoint_ex :
  np_backprop_reduce_max (mkM 2 [[1; 2]; [3; 4]]%Q) [[0; 0]; [1; 2]]%Z [1; 3]%Z = Ok (mkM 2 [[1; 2]; [0; 0]; [3; 0]; [0; 4]]%Q) /\
  in_seqs 2 [[0; 0]; [1; 2]]%Z [1; 3]%Z.
Proof. split; [vm_compute; reflexivity|]. repeat constructor; lia. Qed.
Theorem C34_first_adjoint :
  forall (dY : mat R) lengths, lengths <> [] -> positive lengths -> wf_mat dY -> m_len dY = length lengths ->
    exists dX, op_backprop_reduce_first dY (0%Z :: zcumsum lengths) = Ok dX /\ m_cols dX = m_cols dY /\ wf_mat dX /\ Z.of_nat (m_len dX) = zsum lengths /\
      forall X, wf_mat X -> m_cols X = m_cols dY -> Z.of_nat (m_len X) = zsum lengths ->
        mdot (m_rows dX) (m_rows X) = mdot (m_rows dY) (map (fun s => nth 0 s []) (seqs_of lengths (m_rows X))).
Proof. exact first_adjoint. Qed.
Print Assumptions C34_first_adjoint.
Theorem C34_last_adjoint :
  forall (dY : mat R) lengths, lengths <> [] -> positive lengths -> wf_mat dY -> m_len dY = length lengths ->
    exists dX, op_backprop_reduce_last dY (map (fun e => (e - 1)%Z) (zcumsum lengths)) = Ok dX /\ m_cols dX = m_cols dY /\ wf_mat dX /\ Z.of_nat (m_len dX) = zsum lengths /\
      forall X, wf_mat X -> m_cols X = m_cols dY -> Z.of_nat (m_len X) = zsum lengths ->
        mdot (m_rows dX) (m_rows X) = mdot (m_rows dY) (map (fun s => last s []) (seqs_of lengths (m_rows X))).
Proof. exact last_adjoint. Qed.
Print Assumptions C34_last_adjoint.
Example C34_first_last_adjoint_ex :
  op_backprop_reduce_first (mkM 1 [[7]; [8]]%Q) [0; 1; 4]%Z = Ok (mkM 1 [[7]; [8]; [0]; [0]]%Q) /\
  op_backprop_reduce_last (mkM 1 [[7]; [8]]%Q) [0; 3]%Z = Ok (mkM 1 [[7]; [0]; [0]; [8]]%Q).
Proof. vm_compute. split; reflexivity. Qed.

(** A non-negative position past its sequence is refused. *)
Theorem C34_max_position_checked :
  forall (dY : mat R) which lengths, positive lengths -> wf_mat dY -> m_cols dY <> 0%nat -> m_len dY = length lengths ->
    Forall2 (fun w len => length w = m_cols dY /\ Forall (fun i => (0 <= i)%Z) w) which lengths ->
    ~ Forall2 (fun w len => Forall (fun i => (i < len)%Z) w) which lengths ->
    np_backprop_reduce_max dY which lengths = Err IndexError /\ op_backprop_reduce_max dY which lengths = Err IndexError.
Proof. exact back_max_refuses. Qed.
Print Assumptions C34_max_position_checked.
Example C34_max_position_ex : np_backprop_reduce_max (mkM 1 [[1]; [2]]%Q) [[0]; [3]]%Z [1; 3]%Z = Err IndexError. Proof. vm_compute. reflexivity. Qed.

(** Findings. A batch of only empty sequences makes the compiled sum and mean raise; lengths are not looked at
    when the width is 0; negative positions write into the previous sequence or before the array; a gradient
    with too few rows is read past its end. *)
Theorem C34_only_empty_refuted :
  exists (X : mat R) lengths, wf_mat X /\ nonneg lengths /\ zsum lengths = Z.of_nat (m_len X) /\
    np_reduce_sum X lengths = Err IndexError /\ np_reduce_mean X lengths = Err IndexError /\
    op_reduce_sum X lengths = Ok (mkM 1 [[0]]) /\ op_reduce_mean X lengths = Ok (mkM 1 [[0]]).
Proof. exact only_empty_raises. Qed.
Print Assumptions C34_only_empty_refuted.
Theorem C34_zero_width_refuted :
  exists (X : mat R) lengths, wf_mat X /\ ~ nonneg lengths /\
    np_reduce_sum X lengths = Ok (mkM 0 [[]]) /\ op_reduce_sum X lengths = Err ValueError.
Proof. exact zero_width_unchecked. Qed.
Print Assumptions C34_zero_width_refuted.
Theorem C34_negative_position_refuted :
  exists (dY : mat R) which lengths, wf_mat dY /\ positive lengths /\ m_len dY = length lengths /\ length which = length lengths /\
    np_backprop_reduce_max dY which lengths = Ok (mkM 1 [[2]; [0]; [0]]) /\ op_backprop_reduce_max dY which lengths = Ok (mkM 1 [[1]; [0]; [2]]).
Proof. exact negative_position. Qed.
Print Assumptions C34_negative_position_refuted.
Theorem C34_negative_position_fault_refuted :
  exists (dY : mat R) which lengths, wf_mat dY /\ positive lengths /\ m_len dY = length lengths /\ length which = length lengths /\
    np_backprop_reduce_max dY which lengths = Err MemFault.
Proof. exact negative_position_fault. Qed.
Print Assumptions C34_negative_position_fault_refuted.
Theorem C34_few_gradient_rows_refuted :
  exists (dY : mat R) lengths, wf_mat dY /\ nonneg lengths /\ m_len dY <> length lengths /\
    np_backprop_reduce_sum dY lengths = Err MemFault /\ op_backprop_reduce_sum dY lengths = Err IndexError.
Proof. exact few_rows_fault. Qed.
Print Assumptions C34_few_gradient_rows_refuted.
