(** Vocabulary of the theorems about reductions. *)
From Verif Require Export MatSpec ReduceModel.

Local Open Scope R_scope.

(** The mean of the rows; zeros if there are none. *)
Definition colmean (O : nat) (rows : list (list R)) : list R := map (fun s => s / INR (length rows)) (colsum O rows).
(** Position [w] holds the maximum [m], and no earlier position does. *)
Definition first_max (l : list R) (w : Z) (m : R) : Prop :=
  (0 <= w)%Z /\ nth_error l (Z.to_nat w) = Some m /\
  forall k x, nth_error l k = Some x -> x <= m /\ ((k < Z.to_nat w)%nat -> x < m).
Definition nonneg (lengths : list Z) : Prop := Forall (fun n => (0 <= n)%Z) lengths.
Definition positive (lengths : list Z) : Prop := Forall (fun n => (0 < n)%Z) lengths.
(** The sequences of a ragged array. *)
Definition seqs_of {A} (lengths : list Z) (rows : list (list A)) : list (list (list A)) := chop (map Z.to_nat lengths) rows.
(** For each sequence and column, the element at the given position. *)
Definition select (which : list (list Z)) (seqs : list (list (list R))) : list (list R) :=
  map (fun p => map (fun q => nth (fst q) (nth (Z.to_nat (snd q)) (snd p) []) 0) (combine (seq 0 (length (fst p))) (fst p))) (combine which seqs).
(** Positions within their sequence. *)
Definition in_seqs (O : nat) (which : list (list Z)) (lengths : list Z) : Prop :=
  Forall2 (fun w len => length w = O /\ Forall (fun i => (0 <= i < len)%Z) w) which lengths.
(** A backward function is adjoint to the reduction [red] of each sequence. *)
Definition adjoint_of (back : mat R -> list Z -> result (mat R)) (red : nat -> list (list R) -> list R) : Prop :=
  forall dY lengths, nonneg lengths -> wf_mat dY -> m_len dY = length lengths ->
    exists dX, back dY lengths = Ok dX /\ m_cols dX = m_cols dY /\ wf_mat dX /\ Z.of_nat (m_len dX) = zsum lengths /\
      forall X, wf_mat X -> m_cols X = m_cols dY -> Z.of_nat (m_len X) = zsum lengths ->
        mdot (m_rows dX) (m_rows X) = mdot (m_rows dY) (map (red (m_cols X)) (seqs_of lengths (m_rows X))).
