(** C56: the LSTM kernels. *)
From Coq Require Import QArith.
From Coq Require Import Reals Lia.
From Verif Require Import NumQ NumR LstmModel LstmSpec LstmKernelModel LstmKernelSpec LstmFwdProofs LstmBwdProofs.
Local Open Scope nat_scope.

(** The forward pass of NumpyOps. For every number of layers and directions and every batch, the rows of each sequence in the
    output are what the equations of the LSTM give for the rows of that sequence in the input, whatever the other sequences are.
    The weights are those that C48 describes. The initial hidden and cell states are exchanged: H0 is used for the cells. *)
Theorem C56_forward : forall depth dirs nO nI (params : list R) H0 C0 X batch lengths, depth <> 0 -> dirs <> 0 -> nO <> 0 -> nI <> 0 -> length params = lstm_size depth dirs nO nI ->
  m_cols X = nI -> fold_right Nat.add 0 (batch :: lengths) = length (m_rows X) -> batch <> 0 -> Forall (fun n => n <= batch) lengths ->
  exists ws Y states, all_layer_params params depth dirs nO nI = Ok ws /\ np_lstm depth dirs nO params H0 C0 X (batch :: lengths) = Ok (Y, states) /\ length (m_rows Y) = length (m_rows X) /\ m_cols Y = dirs * nO /\ states_ok (length (m_rows X)) depth dirs states /\
    forall b, b < batch -> take (m_rows Y) (rows_of b 0 (batch :: lengths)) = network nO 0 ws C0 H0 (take (m_rows X) (rows_of b 0 (batch :: lengths))).
Proof. exact np_forward_ok. Qed.
Print Assumptions C56_forward.
(** Two sequences of lengths 3 and 1 have their rows at 0, 2, 3 and at 1. A batch without rows raises. *)
Local Instance trans_id : Trans Q := {| nexp := fun _ => 1%Q; nln := fun x => x; ntanh := fun x => x; ncosh := fun x => x; npi := 3%Q |}.
Example C56_forward_ex :
  rows_of 0 0 [2; 1; 1] = [0; 2; 3] /\ rows_of 1 0 [2; 1; 1] = [1] /\ fold_right Nat.add 0 [2; 1; 1] = 4 /\
  match np_lstm 1 1 1 (map inject_Z (map Z.of_nat (seq 0 16))) [[[1%Q]]] [[[2%Q]]] (mkM 1 [[1]; [2]; [3]; [4]]%Q) [2; 1; 1] with
  | Ok (Y, _) => map (map Qred) (m_rows Y) | Err _ => [] end = [[12]; [51 # 4]; [187 # 4]; [2567 # 16]]%Q /\
  np_lstm 1 1 1 (map inject_Z (map Z.of_nat (seq 0 16))) [[[1%Q]]] [[[2%Q]]] (mkM 1 []) [0] = Err ValueError /\
  np_lstm 1 1 1 (map inject_Z (map Z.of_nat (seq 0 16))) [[[1%Q]]] [[[2%Q]]] (mkM 1 []) [] = Err IndexError.
Proof. vm_compute. repeat split. Qed.

(** Finding: in the base implementation (also used on GPU) the hidden states start with one row instead of one for each sequence.
    All rows of the output but the first of each time step are zero. *)
Theorem C56_base_forward_refuted : forall depth dirs nO (params : list R) c h X lengths Y states r, base_lstm_forward depth dirs nO params c h X lengths = Ok (Y, states) -> not_first r 0 lengths -> r < length (m_rows X) ->
  Forall (fun x => x = 0%R) (nth r (m_rows Y) []).
Proof. exact base_forward_rows. Qed.
Print Assumptions C56_base_forward_refuted.
Example C56_base_forward_ex : not_first 1 0 [2; 1; 1] /\
  match base_lstm_forward 1 1 1 (map inject_Z (map Z.of_nat (seq 0 16))) [[[1%Q]]] [[[2%Q]]] (mkM 1 [[1]; [2]; [3]; [4]]%Q) [2; 1; 1] with
  | Ok (Y, _) => map (map Qred) (m_rows Y) | Err _ => [] end = [[12]; [0]; [187 # 4]; [2567 # 16]]%Q.
Proof. split; [cbn; lia|]. vm_compute. reflexivity. Qed.

(** Finding: the base implementation never stores the gradients of the gates. For all layers, weights, inputs and gradients, the
    gradients it returns are zero. *)
Theorem C56_base_backward : forall depth dirs nO nI (params : list R) dY n lengths states X, depth <> 0 -> dirs <> 0 -> nO <> 0 -> nI <> 0 -> length params = lstm_size depth dirs nO nI -> m_cols X = nI -> length (m_rows X) <> 0 -> states_ok (length (m_rows X)) depth dirs states ->
  length (m_rows dY) * m_cols dY = length (m_rows X) * (dirs * nO) -> fold_right Nat.add 0 (n :: lengths) = length (m_rows X) ->
  base_backprop_lstm depth dirs nO dY (n :: lengths) params states X = Ok (mkM nI (zero_rows (length (m_rows X)) nI), zeros (length params)).
Proof. exact base_zero. Qed.
Print Assumptions C56_base_backward.
Theorem C56_base_refuted : exists (params : R -> list R) (out : R -> R) (X : mat R),
  (forall s, exists states, base_lstm_forward 1 1 1 (params s) [[[0%R]]] [[[0%R]]] X [1] = Ok (mkM 1 [[out s]], states)) /\ nth_error (params 0%R) 7 = Some 0%R /\ (forall s, params s = repeat 0%R 7 ++ [s] ++ repeat 0%R 8) /\
  derivable_pt_lim out 0 (/ 4)%R /\
  exists Y states, base_lstm_forward 1 1 1 (params 0%R) [[[0%R]]] [[[0%R]]] X [1] = Ok (Y, states) /\ forall d, base_backprop_lstm 1 1 1 (mkM 1 [[d]]) [1] (params 0%R) states X = Ok (mkM 1 [[0%R]], zeros 16).
Proof. exact base_refuted. Qed.
Print Assumptions C56_base_refuted.

(** A gradient of the wrong size raises in both. *)
Theorem C56_wrong_size : forall depth dirs nO nI (params : list R) dY n lengths states X, depth <> 0 -> dirs <> 0 -> nO <> 0 -> nI <> 0 -> length params = lstm_size depth dirs nO nI -> m_cols X = nI -> length (m_rows X) <> 0 -> states_ok (length (m_rows X)) depth dirs states ->
  length (m_rows dY) * m_cols dY <> length (m_rows X) * (dirs * nO) ->
  np_backprop_lstm depth dirs nO dY (n :: lengths) params states X = Err ValueError /\ base_backprop_lstm depth dirs nO dY (n :: lengths) params states X = Err ValueError.
Proof. exact wrong_size. Qed.
Print Assumptions C56_wrong_size.

(** Finding: in NumpyOps the parameter gradients start from the parameters, and the first time step is never differentiated. For
    batches of a single time step the gradient of the input is therefore zero, and the gradient of the parameters is the parameters
    themselves, with the two biases added, whatever the gradient of the output is. *)
Theorem C56_one_step : forall depth dirs nO nI (params : list R) dY n states X, depth <> 0 -> dirs <> 0 -> nO <> 0 -> nI <> 0 -> length params = lstm_size depth dirs nO nI -> m_cols X = nI -> length (m_rows X) <> 0 -> states_ok (length (m_rows X)) depth dirs states ->
  length (m_rows dY) * m_cols dY = length (m_rows X) * (dirs * nO) ->
  exists ps v, split_layers params depth dirs nO nI 0 = Ok (ps, length params) /\ np_backprop_lstm depth dirs nO dY [n] params states X = Ok (mkM nI (zero_rows (length (m_rows X)) nI), v) /\
    length v = length params /\ split_layers v depth dirs nO nI 0 = Ok (map (map one_bias) ps, length params).
Proof. exact np_one_step. Qed.
Print Assumptions C56_one_step.
(** For batches of any number of time steps and one direction, the gradient of the first input of every sequence is zero. *)
Theorem C56_first_step : forall depth nO nI (params : list R) dY batch lengths states X dX d_params r, depth <> 0 -> nO <> 0 -> nI <> 0 -> length params = lstm_size depth 1 nO nI -> m_cols X = nI -> states_ok (length (m_rows X)) depth 1 states ->
  np_backprop_lstm depth 1 nO dY (batch :: lengths) params states X = Ok (dX, d_params) -> r < batch -> r < length (m_rows X) -> nth r (m_rows dX) [] = zeros nI.
Proof. exact np_first_step. Qed.
Print Assumptions C56_first_step.
Theorem C56_numpy_refuted : exists (params : R -> list R) (out : R -> R) (X : mat R),
  (forall s, exists states, np_lstm 1 1 1 (params s) [[[0%R]]] [[[0%R]]] X [1] = Ok (mkM 1 [[out s]], states)) /\ nth_error (params 0%R) 7 = Some 0%R /\ (forall s, params s = repeat 0%R 7 ++ [s] ++ repeat 0%R 8) /\
  derivable_pt_lim out 0 (/ 4)%R /\
  exists Y states, np_lstm 1 1 1 (params 0%R) [[[0%R]]] [[[0%R]]] X [1] = Ok (Y, states) /\ forall d, np_backprop_lstm 1 1 1 (mkM 1 [[d]]) [1] (params 0%R) states X = Ok (mkM 1 [[0%R]], zeros 16).
Proof. exact np_refuted. Qed.
Print Assumptions C56_numpy_refuted.
Example C56_numpy_ex :
  let params := map inject_Z (map Z.of_nat (seq 0 16)) in let X := mkM 1 [[1]; [2]; [3]]%Q in let dY := mkM 1 [[5]; [6]; [7]]%Q in
  match np_lstm 1 1 1 params [[[1%Q]]] [[[2%Q]]] X [2; 1] with
  | Ok (_, s) => match np_backprop_lstm 1 1 1 dY [2; 1] params s X with Ok (dX, dp) => (map (map Qred) (m_rows dX), map Qred (firstn 4 dp)) | Err _ => ([], []) end
  | Err _ => ([], [])
  end = ([[0]; [0]; [38976020447 # 32]], [-2202795 # 4; -119685163 # 32; 3943 # 8; 2438494071 # 2])%Q.
Proof. vm_compute. reflexivity. Qed.

(** The gradients of the gates of one time step are right: for any curves of the pre-activations and of the previous cells, they
    give the derivative of the hiddens and cells. *)
Theorem C56_gates_partial : forall nO (a c : nat -> R -> R) (da dc : nat -> R) (dy dc3 : list R), length dy = nO -> length dc3 = nO ->
  (forall k, (k < 4 * nO)%nat -> derivable_pt_lim (a k) 0 (da k)) -> (forall o, (o < nO)%nat -> derivable_pt_lim (c o) 0 (dc o)) ->
  let g s := lstm_activate_fwd nO (map (fun k => a k s) (seq 0 (4 * nO))) in
  let r s := lstm_gates_fwd nO (g s) (map (fun o => c o s) (seq 0 nO)) in
  let b := lstm_gates_bwd nO dy dc3 (g 0%R) (snd (r 0%R)) (map (fun o => c o 0%R) (seq 0 nO)) in
  derivable_pt_lim (fun s => dot dy (fst (r s)) + dot dc3 (snd (r s)))%R 0 (dot (fst b) (map da (seq 0 (4 * nO))) + dot (snd b) (map dc (seq 0 nO)))%R.
Proof. exact gates_right. Qed.
Print Assumptions C56_gates_partial.
Example C56_gates_ex : let b := lstm_gates_bwd 1 [1%Q] [0%Q] [1 # 2; 1 # 2; 1 # 2; 2]%Q [3%Q] [1%Q] in (map Qred (fst b), map Qred (snd b)) = ([-1; -2; 3 # 4; 6], [-2])%Q.
Proof. vm_compute. reflexivity. Qed.
