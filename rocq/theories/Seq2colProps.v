(** C35: window features. [windows nW I s] are the windows of the sequence [s] placed between rows of zeros;
    [seqs_of lengths rows] are the sequences of a ragged array. *)
From Coq Require Import QArith.
From Verif Require Import NumQ Seq2colSpec Seq2colProofs Seq2colBackProofs.
Local Open Scope nat_scope.

(** Each sequence gets its own windows, for every window size. *)
Theorem C35_windows :
  forall (T : Type) (N : Num T) (X : mat T) nW lengths, wf_mat X -> nonneg lengths -> zsum lengths = Z.of_nat (m_len X) ->
    np_seq2col X (Z.of_nat nW) (Some lengths) =
      Ok (mkM ((2 * nW + 1) * m_cols X) (concat (map (windows nW (m_cols X)) (seqs_of lengths (m_rows X))))).
Proof. exact @seq2col_ok. Qed.
Print Assumptions C35_windows.
Theorem C35_one_sequence :
  forall (T : Type) (N : Num T) (X : mat T) nW, wf_mat X ->
    np_seq2col X (Z.of_nat nW) None = Ok (mkM ((2 * nW + 1) * m_cols X) (windows nW (m_cols X) (m_rows X))).
Proof. exact @seq2col_none_ok. Qed.
Print Assumptions C35_one_sequence.
Definition exX : mat Q := mkM 2 [[1; 2]; [3; 4]; [5; 6]]%Q.
Example C35_windows_ex :
  np_seq2col exX 1 (Some [1; 0; 2]%Z) = Ok (mkM 6 [[0; 0; 1; 2; 0; 0]; [0; 0; 3; 4; 5; 6]; [3; 4; 5; 6; 0; 0]]%Q) /\
  np_seq2col exX 4 None = Ok (mkM 18 [[0; 0; 0; 0; 0; 0; 0; 0; 1; 2; 3; 4; 5; 6; 0; 0; 0; 0]; [0; 0; 0; 0; 0; 0; 1; 2; 3; 4; 5; 6; 0; 0; 0; 0; 0; 0];
                                      [0; 0; 0; 0; 1; 2; 3; 4; 5; 6; 0; 0; 0; 0; 0; 0; 0; 0]]%Q).
Proof. vm_compute. split; reflexivity. Qed.

(** Lengths that are negative or do not sum to the number of rows raise, forward and backward; so does a
    negative window. *)
Theorem C35_lengths_checked :
  forall (T : Type) (N : Num T) (X : mat T) nW lengths, ~ (nonneg lengths /\ zsum lengths = Z.of_nat (m_len X)) ->
    np_seq2col X nW (Some lengths) = Err AssertionError /\ np_backprop_seq2col X nW (Some lengths) = Err AssertionError.
Proof. exact @seq2col_bad. Qed.
Print Assumptions C35_lengths_checked.
Theorem C35_negative_window :
  forall (T : Type) (N : Num T) (X : mat T) nW, (nW < 0)%Z -> m_cols X <> 0 -> np_seq2col X nW None = Err ValueError.
Proof. exact @seq2col_negative. Qed.
Print Assumptions C35_negative_window.
Example C35_lengths_ex : np_seq2col exX 1 (Some [1; 1]%Z) = Err AssertionError /\ np_seq2col exX 1 (Some [4; -1]%Z) = Err AssertionError /\ np_seq2col exX (-1) None = Err ValueError.
Proof. vm_compute. repeat split. Qed.

(** The backward function is the adjoint. *)
Theorem C35_adjoint :
  forall (dY : mat R) nW I lengths, wf_mat dY -> m_cols dY = (2 * nW + 1) * I -> nonneg lengths -> zsum lengths = Z.of_nat (m_len dY) ->
    exists dX, np_backprop_seq2col dY (Z.of_nat nW) (Some lengths) = Ok dX /\ m_cols dX = I /\ wf_mat dX /\ m_len dX = m_len dY /\
      forall X, wf_mat X -> m_cols X = I -> m_len X = m_len dY ->
        mdot (m_rows dX) (m_rows X) = mdot (m_rows dY) (concat (map (windows nW I) (seqs_of lengths (m_rows X)))).
Proof. exact seq2col_adjoint. Qed.
Print Assumptions C35_adjoint.
Example C35_adjoint_ex :
  np_backprop_seq2col (mkM 3 [[1; 2; 4]; [8; 16; 32]; [64; 128; 256]]%Q) 1 (Some [1; 0; 2]%Z) = Ok (mkM 1 [[2]; [80]; [160]]%Q).
Proof. vm_compute. reflexivity. Qed.

(** The portable version covers windows of one row and a single sequence, and agrees. *)
Theorem C35_portable :
  forall (T : Type) (N : Num T) (X : mat T), wf_mat X -> m_cols X <> 0 -> op_seq2col X 1 = np_seq2col X 1 None.
Proof. exact @op_seq2col_ok. Qed.
Print Assumptions C35_portable.
Theorem C35_portable_adjoint :
  forall (dY : mat R) I, wf_mat dY -> m_cols dY = 3 * I -> I <> 0 ->
    exists dX, op_backprop_seq2col dY 1 = Ok dX /\ m_cols dX = I /\
      forall X, wf_mat X -> m_cols X = I -> m_len X = m_len dY -> mdot (m_rows dX) (m_rows X) = mdot (m_rows dY) (windows 1 I (m_rows X)).
Proof. exact op_seq2col_adjoint. Qed.
Print Assumptions C35_portable_adjoint.
Theorem C35_portable_other_windows :
  forall (T : Type) (N : Num T) (X : mat T) nW, nW <> 1%Z -> op_seq2col X nW = Err AssertionError /\ op_backprop_seq2col X nW = Err AssertionError.
Proof. exact @op_seq2col_other. Qed.
Print Assumptions C35_portable_other_windows.
Example C35_portable_ex : op_seq2col exX 1 = Ok (mkM 6 [[0; 0; 1; 2; 3; 4]; [1; 2; 3; 4; 5; 6]; [3; 4; 5; 6; 0; 0]]%Q) /\
  op_backprop_seq2col (mkM 3 [[1; 2; 4]; [8; 16; 32]; [64; 128; 256]]%Q) 1 = np_backprop_seq2col (mkM 3 [[1; 2; 4]; [8; 16; 32]; [64; 128; 256]]%Q) 1 None.
Proof. vm_compute. split; reflexivity. Qed.

(** The expand_window layer on arrays and on Ragged batches. *)
Theorem C35_layer_array :
  forall (X : mat R) nW, wf_mat X ->
    exists Y back, expand_window_floats (Z.of_nat nW) X = Ok (Y, back) /\ m_cols Y = (2 * nW + 1) * m_cols X /\ m_rows Y = windows nW (m_cols X) (m_rows X) /\
      forall dY, wf_mat dY -> m_cols dY = (2 * nW + 1) * m_cols X -> m_len dY = m_len X ->
        exists dX, back dY = Ok dX /\ m_cols dX = m_cols X /\ wf_mat dX /\ m_len dX = m_len X /\ mdot (m_rows dX) (m_rows X) = mdot (m_rows dY) (m_rows Y).
Proof. exact expand_window_array. Qed.
Print Assumptions C35_layer_array.
Theorem C35_layer_ragged :
  forall (X : mat R) nW lengths, wf_mat X -> nonneg lengths -> zsum lengths = Z.of_nat (m_len X) ->
    exists Y back, expand_window_ragged (Z.of_nat nW) X lengths = Ok (Y, back) /\ m_cols Y = (2 * nW + 1) * m_cols X /\
      m_rows Y = concat (map (windows nW (m_cols X)) (seqs_of lengths (m_rows X))) /\
      forall dY, wf_mat dY -> m_cols dY = (2 * nW + 1) * m_cols X -> m_len dY = m_len X ->
        exists dX, back dY = Ok dX /\ m_cols dX = m_cols X /\ wf_mat dX /\ m_len dX = m_len X /\ mdot (m_rows dX) (m_rows X) = mdot (m_rows dY) (m_rows Y).
Proof. exact expand_window_rag. Qed.
Print Assumptions C35_layer_ragged.

(** Finding: a gradient whose width is no multiple of the window is accepted and read with the wrong stride;
    the portable version raises. *)
Theorem C35_gradient_width_refuted :
  exists dY : mat Q, wf_mat dY /\ m_cols dY mod 3 <> 0 /\
    np_backprop_seq2col dY 1 None = Ok (mkM 1 [[6]; [8]]%Q) /\ op_backprop_seq2col dY 1 = Err ValueError.
Proof. exact wrong_width. Qed.
Print Assumptions C35_gradient_width_refuted.
