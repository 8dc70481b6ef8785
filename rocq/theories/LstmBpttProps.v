(** C56: back-propagation through time. *)
From Coq Require Import Reals QArith Lia.
From Verif Require Import NumR NumQ LstmBpttSpec LstmBpttProofs LstmBpttCodeProofs LstmBpttMainProofs LstmBpttDeepProofs.
From Verif Require Import LstmKernelModel LstmKernelSpec.
Local Open Scope nat_scope.
Local Instance trans_id : Trans Q := {| nexp := fun _ => 1%Q; nln := fun x => x; ntanh := fun x => x; ncosh := fun x => x; npi := 3%Q |}.

(** The backward recursion is the derivative of the forward recursion: for any curves of the weights, the bias, the inputs, and the
    initial hidden and cell, it gives the derivative of any weighting of all hiddens. The gradient of the hidden weights pairs the
    gradients of the gates with the hiddens before each step. *)
Theorem C56_bptt : forall nO nI (Wx Wh xs : R -> list (list R)) (bs y c : R -> list R) dWx dWh dxs db dy0 dc0 dys,
  moves2 (4 * nO) nI Wx dWx -> moves2 (4 * nO) nO Wh dWh -> moves (4 * nO) bs db -> moves2 (length dys) nI xs dxs -> moves nO y dy0 -> moves nO c dc0 -> Forall (fun d => length d = nO) dys ->
  let w s := (mkM nI (Wx s), mkM nO (Wh s), bs s) in let hs s := lstm_run nO (w s) (y s) (c s) (xs s) in
  let e := back_run nO (w 0%R) (y 0%R) (c 0%R) (combine (xs 0%R) dys) (zeros nO) (zeros nO) in let gs := snd e in
  derivable_pt_lim (fun s => mdot dys (hs s)) 0
    (dot (fst (fst e)) dy0 + dot (snd (fst e)) dc0 + mdot (map (times_t nI (Wx 0)) gs) dxs + mdot (outer (4 * nO) nI gs (xs 0)) dWx + mdot (outer (4 * nO) nO gs (before (y 0) (hs 0))) dWh + dot (colsum (4 * nO) gs) db)%R.
Proof. exact bptt_right. Qed.
Print Assumptions C56_bptt.
(** Two steps of one number, the second input and the hidden weight of the candidate moving *)
Example C56_bptt_ex : moves2 2 1 (fun s => [[3]; [s]])%R [[0]; [1]]%R /\ moves2 4 1 (fun s => [[1]; [2]; [3]; [s]])%R [[0]; [0]; [0]; [1]]%R /\ moves2 4 1 (fun _ => [[1]; [2]; [3]; [4]])%R (zero_rows 4 1) /\ moves 4 (fun _ => [1; 2; 3; 4])%R (zeros 4) /\ moves 1 (fun s => [s])%R [1%R].
Proof.
  split; [|split; [|split; [|split]]]; (split; [reflexivity|split; [reflexivity|]]); intros i Hi.
  1,2,3: (split; [do 4 (destruct i as [|i]; [reflexivity || lia|]); lia|split; [intros; do 4 (destruct i as [|i]; [reflexivity || lia|]); lia|]]); intros j Hj; assert (j = 0) as -> by lia; do 4 (destruct i as [|i]; [apply derivable_pt_lim_const || apply derivable_pt_lim_id || lia|]); lia.
  all: do 4 (destruct i as [|i]; [apply derivable_pt_lim_const || apply derivable_pt_lim_id || lia|]); lia.
Qed.

(** For either direction, any batch of sequences sorted by length, and what the forward pass stored, the backward kernel never
    leaves its arrays and computes the recursion's gradients of the gates for every sequence, except that those of the first
    step are zero. *)
Theorem C56_back_direction : forall d nO nI (X dX dY : list (list R)) w dw batch lengths h0 c0 s, triple_shape nO nI w -> batch <> 0 -> fold_right Nat.add 0 (batch :: lengths) = length X -> falling (batch :: lengths) ->
  length dY = length X -> Forall (fun x => length x = nO) dY -> np_dir_fwd d nO X w (batch :: lengths) batch h0 c0 = Ok s ->
  exists dG, np_dir_bwd d nO nI X dX dY w dw s (batch :: lengths)
             = Ok (add_rows dX (map (times_t nI (in_weights w)) dG), (mkM nI (add_rows (in_weights dw) (outer (4 * nO) nI dG X)), mkM nO (add_rows (hid_weights dw) (outer (4 * nO) nO dG (d_Y s))), row_add (snd dw) (colsum (4 * nO) dG))) /\
    length dG = length X /\ Forall (fun g => length g = 4 * nO) dG /\
    forall b, b < batch -> take dG (rows_of b 0 (batch :: lengths)) = dir_grads d nO w h0 c0 (take X (rows_of b 0 (batch :: lengths))) (take dY (rows_of b 0 (batch :: lengths))).
Proof. exact dir_bwd_ok. Qed.
Print Assumptions C56_back_direction.
(** Two sequences, of two steps and one *)
Example C56_back_direction_ex : let w := (mkM 1 [[1]; [2]; [3]; [4]], mkM 1 [[1]; [0]; [2]; [1]], [0; 1; 0; 1])%Q in
  falling [2; 1] /\ triple_shape 1 1 w /\ forall d, d < 2 ->
  match np_dir_fwd d 1 [[1]; [2]; [3]]%Q w [2; 1] 2 [0%Q] [0%Q] with
  | Ok s => match np_dir_bwd d 1 1 [[1]; [2]; [3]]%Q [[0]; [0]; [0]]%Q [[1]; [1]; [1]]%Q w w s [2; 1] with Ok (dX, _) => map (map (fun x => Qeq_bool x 0)) dX = [[match d with 0 => true | _ => false end]; [true]; [match d with 0 => false | _ => true end]] | Err _ => False end
  | Err _ => False
  end.
Proof. split; [cbn; lia|]. split; [repeat split; repeat constructor|]. intros [|[|d]] H; [vm_compute; reflexivity..|lia]. Qed.

(** One layer and one direction, from the vector of parameters to the vector of gradients: the gradients are the parameters, with
    the two biases added, plus the products of the gates' gradients. *)
Theorem C56_one_layer : forall nO nI (params : list R) H0 C0 X dY batch lengths, nO <> 0 -> nI <> 0 -> length params = lstm_size 1 1 nO nI -> m_cols X = nI -> fold_right Nat.add 0 (batch :: lengths) = length (m_rows X) -> batch <> 0 -> falling (batch :: lengths) ->
  m_cols dY = nO -> wf_mat dY -> length (m_rows dY) = length (m_rows X) ->
  exists w s dG v, all_layer_params params 1 1 nO nI = Ok [[w]] /\ triple_shape nO nI w /\ np_lstm 1 1 nO params H0 C0 X (batch :: lengths) = Ok (mkM nO (d_Y s), [[s]]) /\
    np_backprop_lstm 1 1 nO dY (batch :: lengths) params [[s]] X = Ok (mkM nI (map (times_t nI (in_weights w)) dG), v) /\ length v = length params /\
    all_layer_params v 1 1 nO nI = Ok [[(mkM nI (add_rows (in_weights w) (outer (4 * nO) nI dG (m_rows X))), mkM nO (add_rows (hid_weights w) (outer (4 * nO) nO dG (d_Y s))), row_add (snd w) (colsum (4 * nO) dG))]] /\
    length dG = length (m_rows X) /\ Forall (fun g => length g = 4 * nO) dG /\ length (d_Y s) = length (m_rows X) /\
    forall b, b < batch -> let rows := rows_of b 0 (batch :: lengths) in
      take (d_Y s) rows = lstm_run nO w (init_row C0 0 0) (init_row H0 0 0) (take (m_rows X) rows) /\ take dG rows = kept_grads nO w (init_row C0 0 0) (init_row H0 0 0) (take (m_rows X) rows) (take (m_rows dY) rows).
Proof. exact one_layer. Qed.
Print Assumptions C56_one_layer.

(** For any number of layers and one direction, the gradient of the input is right as long as the first inputs of the sequences do not
    move: for every curve of inputs of that kind and every gradient of the output, it gives the derivative of the output. *)
Theorem C56_input_gradient_partial : forall depth nO nI (params : list R) H0 C0 (X : R -> mat R) (V : list (list R)) dY batch lengths, depth <> 0 -> nO <> 0 -> nI <> 0 -> length params = lstm_size depth 1 nO nI -> (forall s, m_cols (X s) = nI) -> batch <> 0 -> falling (batch :: lengths) ->
  let N := fold_right Nat.add 0 (batch :: lengths) in moves2 N nI (fun s => m_rows (X s)) V -> (forall r, r < batch -> nth r V [] = zeros nI) ->
  (forall i, i < depth -> length (init_row H0 i 0) = nO /\ length (init_row C0 i 0) = nO) -> m_cols dY = nO -> wf_mat dY -> length (m_rows dY) = N ->
  exists (Y : R -> list (list R)) (states : R -> list (list (dir_state R))) dX d_params, (forall s, np_lstm depth 1 nO params H0 C0 (X s) (batch :: lengths) = Ok (mkM nO (Y s), states s)) /\
    np_backprop_lstm depth 1 nO dY (batch :: lengths) params (states 0%R) (X 0%R) = Ok (mkM nI dX, d_params) /\ length d_params = length params /\
    derivable_pt_lim (fun s => mdot (m_rows dY) (Y s)) 0 (mdot dX V).
Proof. exact deep_input. Qed.
Print Assumptions C56_input_gradient_partial.
(** Two layers and two sequences, of two steps and one; the numbers stand for the real ones, with rational stand-ins for the functions *)
Example C56_input_gradient_ex :
  let params := map (fun k => Qmake (Z.of_nat (k mod 3) - 1) 2) (seq 0 32) in let X := mkM 1 [[1]; [2]; [3]]%Q in let dY := mkM 1 [[5]; [6]; [7]]%Q in
  length params = lstm_size 2 1 1 1 /\
  match np_lstm 2 1 1 params [[[1%Q]]; [[1%Q]]] [[[2%Q]]; [[0%Q]]] X [2; 1] with
  | Ok (Y, s) => match np_backprop_lstm 2 1 1 dY [2; 1] params s X with Ok (dX, dp) => length (m_rows Y) = 3 /\ map (map (fun x => Qeq_bool x 0)) (m_rows dX) = [[true]; [true]; [false]] /\ length dp = 32 | Err _ => False end
  | Err _ => False
  end.
Proof. vm_compute. repeat split. Qed.

(** Finding: the hidden weights. With the hidden 0 after the first step, the output of two steps does not depend on the hidden weight
    of the candidate gate, number 11 of the parameters; NumpyOps adds a positive gradient to it all the same, because it pairs the
    gradients of the gates with the hiddens after each step. *)
Theorem C56_hidden_weights_refuted : exists (params : R -> list R) (X Y dY : mat R), (forall s, params s = map (fun k => if Nat.eqb k 11 then s else nth k (params 0%R) 0%R) (seq 0 16)) /\
  (forall s, exists states, np_lstm 1 1 1 (params s) [[[0%R]]] [[[0%R]]] X [1; 1] = Ok (Y, states)) /\
  exists states, np_lstm 1 1 1 (params 0%R) [[[0%R]]] [[[0%R]]] X [1; 1] = Ok (Y, states) /\
  exists dX v, np_backprop_lstm 1 1 1 dY [1; 1] (params 0%R) states X = Ok (dX, v) /\ (nth 11 v 0 - nth 11 (params 0) 0 > 0)%R.
Proof. exact hidden_refuted. Qed.
Print Assumptions C56_hidden_weights_refuted.
