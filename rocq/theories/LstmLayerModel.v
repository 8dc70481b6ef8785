(** The LSTM layer: thinc/layers/lstm.py 118-156. No proofs here.
    The layer packs the batch, drops weights out when training, calls the kernels of its ops and unpacks their result. The kernels are
    the arguments [fwd] and [bwd]; LstmKernelModel.v has those of NumpyOps and of the base class. What the forward kernel keeps for the
    backward kernel is an [S]; lstm_forward_inference is lstm_forward_training without it (numpy_ops.pyx 172-181, ops.py 870-880).
    A parameter that is not set is None. *)
From Coq Require Import String.
From Verif Require Export SeqModel DropModel LstmKernelModel.

Section LstmLayer.
  Context {T : Type} `{Num T} `{Trans T} {S : Type}.
  Local Open Scope num_scope.
  Local Open Scope nat_scope.
  Variable fwd : list T -> @init3 T -> @init3 T -> mat T -> list nat -> result (mat T * S).
  Variable bwd : mat T -> list nat -> list T -> S -> mat T -> result (mat T * list T).

  (** The data of a Ragged, which always has two axes *)
  Definition ragged_mat (r : ragged T) : mat T := mkM (shape_size (a_tail (r_data r))) (a_rows (r_data r)).
  (** [a * b] for arrays with one axis; broadcasting an array with one element is not modelled *)
  Definition mul1 (a b : list T) : result (list T) := if Nat.eqb (length a) (length b) then Ok (vmap2 nmul a b) else Err ValueError.
  (** model.py 230-238 [get_param] *)
  Definition get_set {A} (p : option A) : result A := match p with Some a => Ok a | None => Err KeyError end.

  (** What a callback returns: the gradient of the input and the calls of [inc_grad], in order *)
  Definition grads : Type := list (string * list T).
  Definition lstm_callback : Type := padded T -> result (padded T * grads).

  (** 145-156 [backprop]: [state] is None after a prediction, when [fwd_state] is the empty tuple *)
  Definition lstm_backprop (lstm mask : list T) (state : option (S * mat T)) : lstm_callback := fun dYp =>
    match state with
    | None => Err AssertionError
    | Some (st, X) =>
      let* dYr := padded_to_packed (nZ 0) dYp in
      let* r := bwd (ragged_mat dYr) (r_lengths dYr) lstm st X in
      let* dL := mul1 (snd r) mask in
      let* dXp := packed_to_padded (nZ 0) (mk_ragged (mkA [m_cols (fst r)] (m_rows (fst r))) (r_lengths dYr)) dYp in
      Ok (dXp, [("LSTM"%string, dL)])
    end.

  (** 118-156 [forward]: the output, the callback and the number of the next unused draw of the random generator *)
  Definition lstm_forward (lstm : option (list T)) (hc0 : option (list (@init3 T))) (rate : option T) (is_train : bool) (flips : nat -> T) (pos : nat)
      (Xp : padded T) : result (padded T * lstm_callback * nat) :=
    let* Xr := padded_to_packed (nZ 0) Xp in
    let* L := get_set lstm in
    let* HC0 := get_set hc0 in
    let* H0 := py_get HC0 0 in
    let* C0 := py_get HC0 1 in
    let X := ragged_mat Xr in
    let* run :=
      (if is_train : bool then
         let mp := get_dropout_mask flips pos (length L) rate in
         let* Lm := mul1 L (fst mp) in
         let* r := fwd Lm H0 C0 X (r_lengths Xr) in
         Ok (fst r, lstm_backprop Lm (fst mp) (Some (snd r, X)), snd mp)
       else
         let* r := fwd L H0 C0 X (r_lengths Xr) in
         Ok (fst r, lstm_backprop L [] None, pos)) in
    let Y := fst (fst run) in
    if negb (Nat.eqb (length (m_rows Y)) (a_len (r_data Xr))) then Err AssertionError
    else
      let* Yp := packed_to_padded (nZ 0) (mk_ragged (mkA [m_cols Y] (m_rows Y)) (r_lengths Xr)) Xp in
      Ok (Yp, snd (fst run), snd run).
End LstmLayer.

(** The layer with the kernels of NumpyOps *)
Definition np_lstm_layer {T} `{Num T} `{Trans T} (depth dirs nO : nat) :=
  lstm_forward (np_lstm depth dirs nO) (np_backprop_lstm depth dirs nO).
(** The layer with the kernels of the base class, which CupyOps uses *)
Definition base_lstm_layer {T} `{Num T} `{Trans T} (depth dirs nO : nat) :=
  lstm_forward (base_lstm_forward depth dirs nO) (base_backprop_lstm depth dirs nO).
