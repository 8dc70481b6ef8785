(** Vocabulary of the theorems about the LSTM parameters. *)
From Verif Require Export LstmModel.

(** The number of parameters of one direction with [nI] inputs and [nO] outputs: four gates with input weights, hidden weights
    and two biases. *)
Definition dir_size (nO nI : nat) : nat := 4 * nO * nI + 4 * nO + 4 * nO * nO + 4 * nO.
(** The number of inputs of a layer. *)
Definition layer_inputs (nI dirs nO i : nat) : nat := match i with 0 => nI | S _ => nO * dirs end.
Fixpoint lstm_size (depth dirs nO nI : nat) : nat :=
  match depth with 0 => 0 | S depth' => dirs * dir_size nO nI + lstm_size depth' dirs nO (nO * dirs) end.
(** The position in the flat vector at which direction [d] of layer [i] starts. *)
Fixpoint dir_start (dirs nO nI i d : nat) : nat :=
  match i with 0 => d * dir_size nO nI | S i' => dirs * dir_size nO nI + dir_start dirs nO (nO * dirs) i' d end.
(** All elements of the parts. *)
Definition elements {T} (p : parts T) : list T := concat (m_rows (p_Wx p)) ++ p_bx p ++ concat (m_rows (p_Wh p)) ++ p_bh p.
Definition rows_by {T} (r c : nat) (m : mat T) : Prop := m_cols m = c /\ length (m_rows m) = r /\ Forall (fun x => length x = c) (m_rows m).
Definition parts_shape {T} (nO nI : nat) (p : parts T) : Prop :=
  rows_by (4 * nO) nI (p_Wx p) /\ length (p_bx p) = 4 * nO /\ rows_by (4 * nO) nO (p_Wh p) /\ length (p_bh p) = 4 * nO.
Definition triple_shape {T} (nO nI : nat) (w : triple T) : Prop :=
  rows_by (4 * nO) nI (fst (fst w)) /\ rows_by (4 * nO) nO (snd (fst w)) /\ length (snd w) = 4 * nO.
(** The shapes of all directions of all layers. *)
Fixpoint layers_shape {A} (shape : nat -> nat -> A -> Prop) (depth dirs nO nI : nat) (ws : list (list A)) : Prop :=
  match depth, ws with
  | 0, [] => True
  | S depth', ds :: ws' => length ds = dirs /\ Forall (shape nO nI) ds /\ layers_shape shape depth' dirs nO (nO * dirs) ws'
  | _, _ => False
  end.
(** What the initializer's calls [k] to [k + 15] returned, as the parts of one direction. *)
Definition init_parts {T} (init_W : nat -> nat -> nat -> mat T) (init_b : nat -> nat -> list T) (k nO nI : nat) : parts T :=
  let Wk k n := m_rows (init_W k nO n) in
  mkParts (mkM nI (Wk k nI ++ Wk (k + 1) nI ++ Wk (k + 2) nI ++ Wk (k + 3) nI)) (init_b (k + 4) nO ++ init_b (k + 5) nO ++ init_b (k + 6) nO ++ init_b (k + 7) nO)
          (mkM nO (Wk (k + 8) nO ++ Wk (k + 9) nO ++ Wk (k + 10) nO ++ Wk (k + 11) nO)) (init_b (k + 12) nO ++ init_b (k + 13) nO ++ init_b (k + 14) nO ++ init_b (k + 15) nO).
(** The parts of all directions and layers: 16 calls each. *)
Fixpoint init_all {T} (init_W : nat -> nat -> nat -> mat T) (init_b : nat -> nat -> list T) (k depth dirs nO nI : nat) : list (list (parts T)) :=
  match depth with
  | 0 => []
  | S depth' => map (fun d => init_parts init_W init_b (k + 16 * d) nO nI) (seq 0 dirs) :: init_all init_W init_b (k + 16 * dirs) depth' dirs nO (nO * dirs)
  end.
(** The parts whose input bias is the sum of the two biases, and whose hidden bias is zero. *)
Definition one_bias {T} `{Num T} (p : parts T) : parts T := mkParts (p_Wx p) (vmap2 nadd (p_bx p) (p_bh p)) (p_Wh p) (zeros (length (p_bh p))).
