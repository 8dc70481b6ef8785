(** C48: the layout of the LSTM parameters. *)
From Coq Require Import QArith.
From Coq Require Import Reals Lia Permutation.
From Verif Require Import NumQ NumR LstmModel LstmSpec LstmProofs.
Local Open Scope nat_scope.

(** The loops over layers and directions cut the vector into consecutive parts of the right shapes that cover it exactly: with
    [lstm_size] parameters, the last part ends at the last one. Further elements are ignored; with fewer, reading raises. *)
Theorem C48_split : forall T (params : list T) depth dirs nO nI extra, length params = lstm_size depth dirs nO nI ->
  exists ps, split_layers (params ++ extra) depth dirs nO nI 0 = Ok (ps, length params) /\ layers_shape parts_shape depth dirs nO nI ps /\ concat (map elements (concat ps)) = params.
Proof. exact @split_ok. Qed.
Print Assumptions C48_split.
Theorem C48_too_short : forall T (params : list T) depth dirs nO nI, nO <> 0 -> length params < lstm_size depth dirs nO nI -> split_layers params depth dirs nO nI 0 = Err ValueError.
Proof. exact @split_short. Qed.
Print Assumptions C48_too_short.
(** Transposing moves every element to exactly one place, for elements of any type; gate [g] of output [o] goes from row
    [g * nO + o] to row [4 * o + g]. *)
Theorem C48_transpose : forall T nO nI (p : parts T), parts_shape nO nI p -> nO <> 0 -> nI <> 0 ->
  exists q, transpose_parts p = Ok q /\ parts_shape nO nI q /\ Permutation (elements q) (elements p) /\
    forall o g, o < nO -> g < 4 ->
      nth_error (m_rows (p_Wx q)) (4 * o + g) = nth_error (m_rows (p_Wx p)) (g * nO + o) /\ nth_error (p_bx q) (4 * o + g) = nth_error (p_bx p) (g * nO + o) /\
      nth_error (m_rows (p_Wh q)) (4 * o + g) = nth_error (m_rows (p_Wh p)) (g * nO + o) /\ nth_error (p_bh q) (4 * o + g) = nth_error (p_bh p) (g * nO + o).
Proof. exact @transposed. Qed.
Print Assumptions C48_transpose.
(** Where in the vector each weight the kernels use comes from. *)
Theorem C48_positions : forall T (params : list T) depth dirs nO nI i d, length params = lstm_size depth dirs nO nI -> nO <> 0 -> nI <> 0 -> dirs <> 0 -> i < depth -> d < dirs ->
  let w := layer_inputs nI dirs nO i in let start := dir_start dirs nO nI i d in
  exists ps ds p q, split_layers params depth dirs nO nI 0 = Ok (ps, length params) /\ nth_error ps i = Some ds /\ nth_error ds d = Some p /\ transpose_parts p = Ok q /\
    forall o g, o < nO -> g < 4 ->
      (exists row, nth_error (m_rows (p_Wx q)) (4 * o + g) = Some row /\ length row = w /\ forall j, j < w -> nth_error row j = nth_error params (start + ((g * nO + o) * w + j))) /\
      nth_error (p_bx q) (4 * o + g) = nth_error params (start + 4 * nO * w + (g * nO + o)) /\
      (exists row, nth_error (m_rows (p_Wh q)) (4 * o + g) = Some row /\ length row = nO /\ forall j, j < nO -> nth_error row j = nth_error params (start + 4 * nO * w + 4 * nO + ((g * nO + o) * nO + j))) /\
      nth_error (p_bh q) (4 * o + g) = nth_error params (start + 4 * nO * w + 4 * nO + 4 * nO * nO + (g * nO + o)).
Proof. exact @positions_ok. Qed.
Print Assumptions C48_positions.
Definition ex_params : list nat := seq 0 (lstm_size 2 2 1 2).
Example C48_ex :
  length ex_params = 80 /\
  match split_layers ex_params 2 2 1 2 0 with
  | Ok (ps, n) => Some (n, map (map (fun p => match transpose_parts p with Ok q => elements q | Err _ => [] end)) ps)
  | Err _ => None
  end = Some (80, [[seq 0 20; seq 20 20]; [seq 40 20; seq 60 20]]) /\
  match split_layers (seq 0 (lstm_size 1 1 2 1)) 1 1 2 1 0 with
  | Ok (ps, n) => map (map (fun p => match transpose_parts p with Ok q => (concat (m_rows (p_Wx q)), p_bx q) | Err _ => ([], []) end)) ps
  | Err _ => []
  end = [[([0; 2; 4; 6; 1; 3; 5; 7], [8; 10; 12; 14; 9; 11; 13; 15])]] /\
  split_layers (seq 0 79) 2 2 1 2 0 = Err ValueError.
Proof. repeat split. Qed.

(** Re-assembling gradients of the right shapes gives a vector of the size of the parameters, from which splitting and transposing
    recover them: re-assembling is inverse to splitting and transposing. *)
Theorem C48_join : forall depth dirs nO nI (ws : list (list (triple R))), nO <> 0 -> nI <> 0 -> dirs <> 0 -> layers_shape triple_shape depth dirs nO nI ws ->
  exists v, join_layers ws = Ok v /\ length v = lstm_size depth dirs nO nI /\ all_layer_params v depth dirs nO nI = Ok ws.
Proof. exact join_ok. Qed.
Print Assumptions C48_join.
(** In the other direction the two biases are added: re-assembling the weights gives all parts back in their places, the sum of the
    biases in the place of the first one and zeros in the place of the second. *)
Theorem C48_split_join : forall depth dirs nO nI (params : list R), nO <> 0 -> nI <> 0 -> dirs <> 0 -> length params = lstm_size depth dirs nO nI ->
  exists ps ws v, split_layers params depth dirs nO nI 0 = Ok (ps, length params) /\ all_layer_params params depth dirs nO nI = Ok ws /\ layers_shape triple_shape depth dirs nO nI ws /\
    join_layers ws = Ok v /\ length v = length params /\ split_layers v depth dirs nO nI 0 = Ok (map (map one_bias) ps, length params).
Proof. exact join_back. Qed.
Print Assumptions C48_split_join.
Example C48_join_ex :
  let params := map inject_Z (map Z.of_nat (seq 0 (lstm_size 1 1 2 1))) in
  match all_layer_params params 1 1 2 1 with Ok ws => match join_layers ws with Ok v => map Qnum v | Err _ => [] end | Err _ => [] end =
    (List.map Z.of_nat (seq 0 8) ++ [40; 42; 44; 46; 48; 50; 52; 54] ++ List.map Z.of_nat (seq 16 16) ++ [0; 0; 0; 0; 0; 0; 0; 0])%Z.
Proof. vm_compute. reflexivity. Qed.

(** The initializer allocates exactly the parameters the kernels read, its assertion holds, and the kernels read each initialized
    array as the gate weights it was made for. If the initializers return arrays of other sizes the assertion fails (unless the
    total is right). *)
Theorem C48_init : forall T (init_W : nat -> nat -> nat -> mat T) (init_b : nat -> nat -> list T) nO nI depth dirs,
  (forall k r c, rows_by r c (init_W k r c)) -> (forall k n, length (init_b k n) = n) -> depth <> 0 -> dirs <> 0 ->
  exists v, init_lstm init_W init_b nO nI depth dirs = Ok v /\ length v = lstm_size depth dirs (hidden_width nO dirs) nI /\
    split_layers v depth dirs (hidden_width nO dirs) nI 0 = Ok (init_all init_W init_b 0 depth dirs (hidden_width nO dirs) nI, length v).
Proof. exact @init_ok. Qed.
Print Assumptions C48_init.
Theorem C48_init_wrong : forall T (init_W : nat -> nat -> nat -> mat T) (init_b : nat -> nat -> list T) nO nI depth dirs, depth <> 0 -> dirs <> 0 ->
  length (concat (init_layers init_W init_b 0 depth dirs (hidden_width nO dirs) nI)) <> lstm_size depth dirs (hidden_width nO dirs) nI -> init_lstm init_W init_b nO nI depth dirs = Err AssertionError.
Proof. exact @init_wrong. Qed.
Print Assumptions C48_init_wrong.
Theorem C48_init_no_layers : forall T (init_W : nat -> nat -> nat -> mat T) (init_b : nat -> nat -> list T) nO nI dirs, init_lstm init_W init_b nO nI 0 dirs = Err ValueError.
Proof. exact @init_no_layers. Qed.
Print Assumptions C48_init_no_layers.
Example C48_init_ex :
  init_lstm (fun k r c => mkM c (repeat (repeat k c) r)) (fun k n => repeat k n) 2 1 1 1 = Ok (flat_map (fun k => repeat k (if Nat.leb 8 k && Nat.ltb k 12 then 4 else 2)) (seq 0 16)) /\
  init_lstm (fun k r c => mkM c (repeat (repeat k c) r)) (fun k n => []) 2 1 1 1 = Err AssertionError.
Proof. repeat split. Qed.

(** Findings: a bidirectional LSTM with an odd number of outputs gets an output that is narrower than nO; a layer without inputs can
    be initialized, but reading its parameters raises. *)
Theorem C48_odd_width_refuted : forall nO, Nat.odd nO = true -> hidden_width nO 2 * 2 <> nO.
Proof. exact odd_width. Qed.
Print Assumptions C48_odd_width_refuted.
Theorem C48_no_inputs : forall T (p : parts T) nO, parts_shape nO 0 p -> transpose_parts p = Err ValueError.
Proof. exact @no_inputs. Qed.
Print Assumptions C48_no_inputs.
Example C48_no_inputs_ex : parts_shape 1 0 (mkParts (mkM 0 [[]; []; []; []]) [1; 2; 3; 4] (mkM 1 [[1]; [2]; [3]; [4]]) [1; 2; 3; 4]).
Proof. repeat split; repeat constructor. Qed.
