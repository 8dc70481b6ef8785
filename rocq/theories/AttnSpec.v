(** Vocabulary of the theorems about attention, similarity and the reduction layers. *)
From Verif Require Export AttnModel DenseSpec SoftSpec ReduceSpec CombSpec.
Local Open Scope R_scope.

(** The similarity of each row to the learned vector [q], and the weights: the softmax of each sequence. *)
Definition scores (q : list R) (K : mat R) : list R := map (fun k => dot k q) (m_rows K).
Definition attention_weights (lengths : list Z) (s : list R) : list R :=
  concat (map (fun t => map (fun x => exp x / msum (map exp t)) t) (chop (map Z.to_nat lengths) s)).
(** Each row times its weight. *)
Definition weighted (a : list R) (X : mat R) : mat R := mkM (m_cols X) (map (fun p => map (fun x => x * fst p) (snd p)) (combine a (m_rows X))).

(** The weighted squared distance of two rows and the similarity. *)
Definition distance (w a b : list R) : R := msum (map (fun p => fst p * (fst (snd p) - snd (snd p)) ^ 2) (combine w (combine a b))).
Definition cauchy (w a b : list R) : R := 1 / (1 + distance w a b).

(** The sequences of [X] have one greatest element in every column. *)
Definition clear_maxima (lengths : list Z) (X : mat R) : Prop :=
  Forall (fun s => forall j, (j < m_cols X)%nat -> unique_max (col 0 j s)) (seqs_of lengths (m_rows X)).
