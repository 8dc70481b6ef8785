(** Vocabulary for C68. *)
From Coq Require Import Reals ZArith List.
From Verif Require Export PosModel NumR.
Local Open Scope R_scope.

(** The angle per position of the k-th pair of columns: here, and in the paper on which it is based *)
Definition speed (period : R) (D k : nat) : R := / Rpower period (4 * INR k / INR D).
Definition paper_speed (period : R) (D k : nat) : R := / Rpower period (2 * INR k / INR D).
(** The encodings over the real numbers *)
Definition row_R (period : R) (D i : nat) : list R := encode_row sin cos Rpower (INR i) period D.
Definition dot_R (a b : list R) : R := fold_right Rplus 0 (map (fun p => fst p * snd p) (combine a b)).
