(** Vocabulary of the theorems about the LSTM kernels. *)
From Coq Require Import Reals.
From Verif Require Export ActSpec LstmSpec LstmKernelModel.
Local Open Scope R_scope.

(** ** The equations of the LSTM, for one sequence

    The weights are the input weights, the hidden weights and the bias, with row [4 * o + k] for gate [k] of output [o]:
    forget, input, output and candidate. *)
Definition preact (w : triple R) (x y : list R) (k : nat) : R :=
  dot x (nth k (m_rows (fst (fst w))) []) + dot y (nth k (m_rows (snd (fst w))) []) + nth k (snd w) 0.
Definition next_cell (w : triple R) (x y c : list R) (o : nat) : R :=
  logistic (preact w x y (4 * o)) * nth o c 0 + logistic (preact w x y (4 * o + 1)) * tanh (preact w x y (4 * o + 3)).
(** The next hidden and cell *)
Definition lstm_step (nO : nat) (w : triple R) (x y c : list R) : list R * list R :=
  (map (fun o => tanh (next_cell w x y c o) * logistic (preact w x y (4 * o + 2))) (seq 0 nO), map (next_cell w x y c) (seq 0 nO)).
(** The hiddens for a sequence of inputs *)
Fixpoint lstm_run (nO : nat) (w : triple R) (y c : list R) (xs : list (list R)) : list (list R) :=
  match xs with [] => [] | x :: xs => let r := lstm_step nO w x y c in fst r :: lstm_run nO w (fst r) (snd r) xs end.
(** The first direction goes from left to right, the second from right to left. *)
Definition dir_run (d nO : nat) (w : triple R) (y c : list R) (xs : list (list R)) : list (list R) :=
  match d with 0%nat => lstm_run nO w y c xs | S _ => rev (lstm_run nO w y c (rev xs)) end.
(** The outputs of the directions of a layer, side by side *)
Definition layer_run (nO : nat) (ws : list (triple R)) (h c : list (list R)) (xs : list (list R)) : list (list R) :=
  let outs := map (fun d => dir_run d nO (nth d ws (mkM 0 [], mkM 0 [], [])) (nth d h []) (nth d c []) xs) (seq 0 (length ws)) in
  map (fun t => concat (map (fun ys => nth t ys []) outs)) (seq 0 (length xs)).
(** The layers one after the other, each with the initial hiddens and cells of its directions *)
Fixpoint network (nO : nat) (i : nat) (ws : list (list (triple R))) (h c : list (list (list R))) (xs : list (list R)) : list (list R) :=
  match ws with [] => xs | w :: ws => network nO (S i) ws h c (layer_run nO w (nth i h []) (nth i c []) xs) end.

(** ** Batches

    The rows of sequence [b] in an array that has, for each time step, one row for each sequence that is longer. *)
Fixpoint rows_of (b start : nat) (lengths : list nat) : list nat :=
  match lengths with [] => [] | n :: l => (if Nat.ltb b n then [start + b]%nat else []) ++ rows_of b (start + n) l end.
Definition take {A} (rows : list (list A)) (idx : list nat) : list (list A) := map (fun r => nth r rows []) idx.
Definition all_zero (rows : list (list R)) : Prop := Forall (Forall (fun x => x = 0)) rows.
(** No row is the first of a time step *)
Fixpoint not_first (r start : nat) (lengths : list nat) : Prop :=
  match lengths with [] => True | n :: l => r <> start /\ not_first r (start + n) l end.
(** The arrays that the forward pass hands to the backward pass: all layers and directions, with one row for each row of the batch *)
Definition states_ok (N depth dirs : nat) (states : list (list (dir_state R))) : Prop := length states = depth /\ Forall (fun ss => length ss = dirs /\ Forall (fun s => length (d_G s) = N /\ length (d_C s) = N) ss) states.
(** One layer with one input and one output, whose parameters are zero except for the last input bias; and its output for the input 0 *)
Definition wit_params (s : R) : list R := repeat 0 7 ++ [s] ++ repeat 0 8.
Definition wit_X : mat R := mkM 1 [[0]].
Definition wit_out (s : R) : R := tanh (/ 2 * tanh s) * / 2.
