(** Vocabulary of the theorems about the LSTM layer. *)
From Coq Require Import QArith.
From Coq Require Import Reals.
From Verif Require Import NumQ.
From Verif Require Export SeqSpec DropSpec LstmSpec LstmLayerModel LstmKernelModel LstmKernelSpec LstmBpttSpec.
Local Open Scope nat_scope.

(** The outputs of the LSTM network for a list of sequences, each on its own *)
Definition each_sequence (depth_weights : list (list (triple R))) (dirs nO : nat) (h c : list (list (list R))) (seqs : list (nda R)) : list (nda R) :=
  map (fun s => mkA [dirs * nO] (network nO 0 depth_weights h c (a_rows s))) seqs.

(** The weights that a training step uses: each is multiplied by its element of the dropout mask *)
Definition weights_used (is_train : bool) (rate : option R) (flips : nat -> R) (pos : nat) (params : list R) : list R :=
  if is_train then map (fun q => (snd q * keep rate (flips (pos + fst q)%nat))%R) (combine (seq 0 (length params)) params) else params.
Definition draws_used (is_train : bool) (rate : option R) (n : nat) : nat := if is_train then draws rate n else 0.
(** The output of a layer, without its callback *)
Definition output_of {A B C} (r : result (A * B * C)) : result A := match r with Ok (y, _, _) => Ok y | Err e => Err e end.
(** What one layer with one direction returns as the gradients of the inputs, for each sequence on its own *)
Definition each_gradient (w : triple R) (nO nI : nat) (h c : list R) (seqs grads : list (nda R)) : list (nda R) :=
  map (fun q => mkA [nI] (map (times_t nI (in_weights w)) (kept_grads nO w h c (a_rows (fst q)) (a_rows (snd q))))) (combine seqs grads).
(** One sequence of one input 0, and the output of a layer of one number for it when all weights are 0 and the initial cell is [c] *)
Definition one_row : padded R := mkPad (mkA3 1 [1] [[[0%R]]]) [1] [1] [0].
Definition cell_out (c : R) : R := (tanh (/ 2 * c) * / 2)%R.
(** A batch of three sequences of lengths 1, 2 and 0, for the examples *)
Definition ex_seqs : list (nda Q) := [mkA [1] [[2%Q]]; mkA [1] [[1%Q]; [3%Q]]; mkA [1] []].
Definition ex_params : list Q := map inject_Z (map Z.of_nat (seq 0 16)).
Definition ex_run `{Trans Q} (is_train : bool) (rate : option Q) := match list2padded 0%Q ex_seqs with Ok p => np_lstm_layer 1 1 1 (Some ex_params) (Some [[[[1%Q]]]; [[[2%Q]]]]) rate is_train (fun k => inject_Z (Z.of_nat k mod 2)) 0 p | Err e => Err e end.
Definition ex_out `{Trans Q} (is_train : bool) (rate : option Q) : list (list (list Q)) := match ex_run is_train rate with Ok (Yp, _, _) => match padded2list Yp with Ok l => map (fun a => map (map Qred) (a_rows a)) l | Err _ => [] end | Err _ => [] end.
