(** Vocabulary of the theorems about dense layers. A layer's parameters are read from the flat list [theta]: a
    weight matrix of [nI] columns from position [wo] on in row-major order, a vector from position [bo] on. *)
From Verif Require Export CombSpec MatSpec DenseModel.
Local Open Scope R_scope.

Definition weight_row (theta : list R) (wo nI j : nat) : list R := firstn nI (skipn (wo + j * nI) theta).
(** Element [j] of W x + b. *)
Definition affine_at (theta : list R) (wo bo nI : nat) (x : list R) (j : nat) : R :=
  dot x (weight_row theta wo nI j) + nth (bo + j) theta 0.
(** The matrix with [nO] columns whose element [j] for an input row [x] is [f x j]. *)
Definition by_row (nO : nat) (f : list R -> nat -> R) (X : mat R) : mat R :=
  mkM nO (map (fun x => map (f x) (seq 0 nO)) (m_rows X)).
(** [Q] holds of every input row and output column. *)
Definition everywhere (nO : nat) (Q : list R -> nat -> Prop) (X : mat R) : Prop :=
  forall x, In x (m_rows X) -> forall j, (j < nO)%nat -> Q x j.
(** Inside the parameters. *)
Definition room (off n : nat) (theta : list R) : Prop := (off + n <= length theta)%nat.
(** Inputs of width [nI]. *)
Definition input_of (nI : nat) (X : mat R) : Prop := wf_mat X /\ m_cols X = nI.

Definition maximum (l : list R) : R := fold_right Rmax (hd 0 l) l.
(** One element is greater than every other one. *)
Definition unique_max (l : list R) : Prop :=
  exists w m, nth_error l w = Some m /\ forall p x, nth_error l p = Some x -> p <> w -> x < m.
(** The candidates of output [o]. *)
Definition pieces (theta : list R) (wo bo nI nP : nat) (x : list R) (o : nat) : list R :=
  map (fun p => affine_at theta wo bo nI x (o * nP + p)) (seq 0 nP).

Definition mean (x : list R) : R := msum x / INR (length x).
Definition variance (x : list R) : R := mean (map (fun a => Rsqr (a - mean x)) x).
(** Normalized, then scaled and shifted by the parameters. *)
Definition layer_norm_at (theta : list R) (go bo : nat) (x : list R) (j : nat) : R :=
  (nth j x 0 - mean x) / sqrt (variance x + 1 / 100000000) * nth (go + j) theta 0 + nth (bo + j) theta 0.
