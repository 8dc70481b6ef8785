(** C82: the LSTM layer. *)
From Coq Require Import String.
From Coq Require Import QArith.
From Coq Require Import Reals Lia.
From Verif Require Import NumQ NumR LstmLayerSpec LstmLayerProofs LstmLayerGradProofs LstmKernelModel LstmKernelSpec LstmBpttSpec.
Local Open Scope nat_scope.

(** The layer with the kernels of NumpyOps. For every batch that represents a list of sequences (C30), of which one has rows, the output
    represents the outputs of the LSTM network for each sequence on its own, in the original order; padding and the other sequences have
    no influence. Training uses the weights that the dropout mask leaves. *)
Theorem C82_forward : forall depth dirs nO nI, depth <> 0 -> dirs <> 0 -> nO <> 0 -> nI <> 0 -> forall (params : list R) H0 C0 rest rate is_train flips pos p seqs,
  length params = lstm_size depth dirs nO nI ->
  represents 0%R nI p seqs -> like [nI] seqs -> (exists s, In s seqs /\ 0 < a_len s) ->
  exists ws Yp cb, all_layer_params (weights_used is_train rate flips pos params) depth dirs nO nI = Ok ws /\
    np_lstm_layer depth dirs nO (Some params) (Some (H0 :: C0 :: rest)) rate is_train flips pos p = Ok (Yp, cb, pos + draws_used is_train rate (length params)) /\
    represents 0%R (dirs * nO) Yp (each_sequence ws dirs nO C0 H0 seqs) /\ padded2list Yp = Ok (each_sequence ws dirs nO C0 H0 seqs) /\
    p_indices Yp = p_indices p /\ p_lengths Yp = p_lengths p /\ p_size_at_t Yp = p_size_at_t p.
Proof. exact @forward_ok. Qed.
Print Assumptions C82_forward.
(** Three sequences of lengths 1, 2 and 0, with rational stand-ins for the functions *)
Local Instance trans_id : Trans Q := {| nexp := fun _ => 1%Q; nln := fun x => x; ntanh := fun x => x; ncosh := fun x => x; npi := 3%Q |}.
Example C82_forward_ex : length ex_params = lstm_size 1 1 1 1 /\
  ex_out false None = [[[51 # 4]]; [[12]; [187 # 4]]; []]%Q /\ ex_out true None = ex_out false None /\ ex_out true (Some (1 # 2)%Q) = [[[101 # 4]]; [[95 # 4]; [158]]; []]%Q.
Proof. vm_compute. repeat split. Qed.

(** Each weight that training uses is the parameter times its element of the dropout mask. *)
Theorem C82_masked_weights : forall rate flips pos params k x,
  nth_error params k = Some x -> nth_error (weights_used true rate flips pos params) k = Some (x * keep rate (flips (pos + k)%nat))%R.
Proof. exact @used_nth. Qed.
Print Assumptions C82_masked_weights.
Example C82_masked_weights_ex : nth_error [1%R; 2%R] 1 = Some 2%R. Proof. reflexivity. Qed.

(** Without a positive rate training uses the parameters. *)
Theorem C82_no_dropout : forall rate flips pos params,
  (forall d, rate = Some d -> (d <= 0)%R) -> weights_used true rate flips pos params = params.
Proof. exact @no_dropout. Qed.
Print Assumptions C82_no_dropout.
Example C82_no_dropout_ex : forall d, @None R = Some d -> (d <= 0)%R. Proof. discriminate. Qed.

(** Whatever the kernels are, training gives the output of a prediction with the masked weights, or the same error. *)
Theorem C82_training : forall {T} `{Num T} {S} (fwd : list T -> @init3 T -> @init3 T -> mat T -> list nat -> result (mat T * S)) (bwd : mat T -> list nat -> list T -> S -> mat T -> result (mat T * list T)) L hc rate flips pos Xp,
  let mp := get_dropout_mask flips pos (length L) rate in
  output_of (lstm_forward fwd bwd (Some L) hc rate true flips pos Xp) = output_of (lstm_forward fwd bwd (Some (vmap2 nmul L (fst mp))) hc rate false flips pos Xp).
Proof. exact @training_output. Qed.
Print Assumptions C82_training.

(** After a prediction no draws are used, and the callback raises for every gradient. *)
Theorem C82_prediction : forall {T} `{Num T} {S} (fwd : list T -> @init3 T -> @init3 T -> mat T -> list nat -> result (mat T * S)) (bwd : mat T -> list nat -> list T -> S -> mat T -> result (mat T * list T)) L hc rate flips pos Xp Yp cb pos',
  lstm_forward fwd bwd L hc rate false flips pos Xp = Ok (Yp, cb, pos') -> pos' = pos /\ forall dYp, cb dYp = Err AssertionError.
Proof. exact @prediction_callback. Qed.
Print Assumptions C82_prediction.
Example C82_prediction_ex : match ex_run false (Some (1 # 2)%Q) with Ok (Yp, cb, pos) => pos = 0 /\ cb Yp = Err AssertionError | Err _ => False end.
Proof. vm_compute. split; reflexivity. Qed.

(** The callback calls the backward kernel with the masked weights, and increments the gradient of one parameter by what the kernel
    returns, masked again. *)
Theorem C82_gradients : forall {T} `{Num T} {S} (fwd : list T -> @init3 T -> @init3 T -> mat T -> list nat -> result (mat T * S)) (bwd : mat T -> list nat -> list T -> S -> mat T -> result (mat T * list T)) L hc rate flips pos Xp Yp cb pos' dYp dXp g,
  lstm_forward fwd bwd (Some L) hc rate true flips pos Xp = Ok (Yp, cb, pos') -> cb dYp = Ok (dXp, g) ->
  exists dYr Xr st dX dL, padded_to_packed (nZ 0) dYp = Ok dYr /\ padded_to_packed (nZ 0) Xp = Ok Xr /\
    let mask := fst (get_dropout_mask flips pos (length L) rate) in
    bwd (ragged_mat dYr) (r_lengths dYr) (vmap2 nmul L mask) st (ragged_mat Xr) = Ok (dX, dL) /\ length dL = length L /\ g = [("LSTM"%string, vmap2 nmul dL mask)].
Proof. exact @callback_grads. Qed.
Print Assumptions C82_gradients.
Example C82_gradients_ex : match ex_run true (Some (1 # 2)%Q) with Ok (Yp, cb, pos) => pos = 16 /\ match cb Yp with Ok (_, [(n, v)]) => n = "LSTM"%string /\ map (fun x => Qeq_bool x 0) (firstn 4 v) = [true; false; true; false] | _ => False end | Err _ => False end.
Proof. vm_compute. repeat split. Qed.

(** One layer with one direction. For every batch, the gradient of the input represents, for each sequence on its own, the gradients that
    the kernel computes (C56: those of back-propagation through time, without the first step). The gradient of dropped weights is zero. *)
Theorem C82_input_gradient : forall nO nI (params : list R) H0 C0 rest rate flips pos p seqs dYp dYs,
  nO <> 0 -> nI <> 0 -> length params = lstm_size 1 1 nO nI ->
  represents 0%R nI p seqs -> like [nI] seqs -> (exists s, In s seqs /\ 0 < a_len s) ->
  represents 0%R nO dYp dYs -> like [nO] dYs -> map a_len dYs = map a_len seqs -> p_indices dYp = p_indices p ->
  exists w Yp cb dXp v, all_layer_params (weights_used true rate flips pos params) 1 1 nO nI = Ok [[w]] /\
  np_lstm_layer 1 1 nO (Some params) (Some (H0 :: C0 :: rest)) rate true flips pos p = Ok (Yp, cb, pos + draws rate (length params)) /\
  cb dYp = Ok (dXp, [("LSTM"%string, v)]) /\ length v = length params /\ (forall k, k < length params -> keep rate (flips (pos + k)%nat) = 0%R -> nth k v 0%R = 0%R) /\
  let outs := each_gradient w nO nI (init_row C0 0 0) (init_row H0 0 0) seqs dYs in represents 0%R nI dXp outs /\ padded2list dXp = Ok outs.
Proof. exact @one_layer_gradient. Qed.
Print Assumptions C82_input_gradient.
Example C82_input_gradient_ex : match ex_run true None with
  | Ok (Yp, cb, _) => match cb Yp with Ok (dXp, _) => match padded2list dXp with Ok l => map (fun a => map (map (fun x => Qeq_bool x 0)) (a_rows a)) l = [[[true]]; [[true]; [false]]; []] | Err _ => False end | Err _ => False end
  | Err _ => False end.
Proof. vm_compute. reflexivity. Qed.

(** A layer that is not initialized raises. *)
Theorem C82_not_set : forall {T} `{Num T} {S} (fwd : list T -> @init3 T -> @init3 T -> mat T -> list nat -> result (mat T * S)) (bwd : mat T -> list nat -> list T -> S -> mat T -> result (mat T * list T)) hc L rate is_train flips pos Xp Xr,
  padded_to_packed (nZ 0) Xp = Ok Xr ->
  lstm_forward fwd bwd None hc rate is_train flips pos Xp = Err KeyError /\ lstm_forward fwd bwd (Some L) None rate is_train flips pos Xp = Err KeyError.
Proof. exact @not_set. Qed.
Print Assumptions C82_not_set.
Example C82_not_set_ex : np_lstm_layer 1 1 1 None None None false (fun _ => 0%Q) 0 (mkPad (mkA3 1 [1] [[[0%Q]]]) [1] [1] [0]) = Err KeyError. Proof. reflexivity. Qed.

(** Finding: the initial state is a parameter of the layer, and the output depends on it, but the callback never gives it a gradient. *)
Theorem C82_initial_state_refuted : (forall c, exists cb, np_lstm_layer 1 1 1 (Some (repeat 0%R 16)) (Some [[[[c]]]; [[[0%R]]]]) None true (fun _ => 0%R) 0 one_row = Ok (mkPad (mkA3 1 [1] [[[cell_out c]]]) [1] [1] [0], cb, 0)) /\ derivable_pt_lim cell_out 0 (/ 4)%R /\
  forall depth dirs nO L hc (rate : option R) flips pos Xp Yp cb pos' dYp dXp g, np_lstm_layer depth dirs nO (Some L) hc rate true flips pos Xp = Ok (Yp, cb, pos') -> cb dYp = Ok (dXp, g) -> ~ In "HC0"%string (map fst g).
Proof. exact @initial_state. Qed.
Print Assumptions C82_initial_state_refuted.
