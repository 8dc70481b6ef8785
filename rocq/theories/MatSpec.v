(** Vocabulary of theorems about real matrices. *)
From Verif Require Export NumR MatModel SeqSpec.

Local Open Scope R_scope.

Definition wf_mat {T} (m : mat T) : Prop := Forall (fun r => length r = m_cols m) (m_rows m).
Definition msum (l : list R) : R := fold_right Rplus 0 l.
(** Inner products of vectors and of matrices. *)
Definition dot (a b : list R) : R := msum (map (fun p => fst p * snd p) (combine a b)).
Definition mdot (A B : list (list R)) : R := msum (map (fun p => dot (fst p) (snd p)) (combine A B)).
(** Sum of each column. *)
Definition colsum (O : nat) (rows : list (list R)) : list R := map (fun j => msum (col 0 j rows)) (seq 0 O).
