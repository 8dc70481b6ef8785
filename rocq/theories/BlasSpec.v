(** Vocabulary for the properties of matrix products through BLAS (BlasModel.v). *)
From Verif Require Import DenseModel BlasModel.
Local Open Scope nat_scope.

Section Spec.
  Context {T : Type} `{Num T}.
  (** As many items as the shape says. *)
  Definition full (a : arr2 T) : Prop := length (f_data a) = f_rows a * f_cols a.
  (** An array as a matrix. *)
  Definition as_mat (a : arr2 T) : mat T := mkM (f_cols a) (cells_of (f_cols a) (f_rows a) (f_data a)).
  (** The item of an array, or of its transpose. *)
  Definition item (a : arr2 T) (i j : nat) : T := nth (i * f_cols a + j) (f_data a) (nZ 0).
  Definition op_item (trans : bool) (a : arr2 T) (i j : nat) : T := if trans then item a j i else item a i j.
  Definition op_rows (trans : bool) (a : arr2 T) : nat := if trans then f_cols a else f_rows a.
  Definition op_cols (trans : bool) (a : arr2 T) : nat := if trans then f_rows a else f_cols a.
  (** The sum that matrix multiplication is. *)
  Definition product (t1 t2 : bool) (a b : arr2 T) (i j : nat) : T :=
    nsum (map (fun l => nmul (op_item t1 a i l) (op_item t2 b l j)) (seq 0 (op_cols t1 a))).
  (** The array has these items. *)
  Definition holds (c : arr2 T) (r n : nat) (f : nat -> nat -> T) : Prop :=
    full c /\ f_rows c = r /\ f_cols c = n /\ forall i j, i < r -> j < n -> item c i j = f i j.
End Spec.
