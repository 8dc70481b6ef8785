(** Two-dimensional arrays of scalars, as lists of rows. No proofs here. *)
From Verif Require Export NumModel SeqModel.

Record mat (T : Type) := mkM { m_cols : nat; m_rows : list (list T) }.
Arguments mkM {T}. Arguments m_cols {T}. Arguments m_rows {T}.

Section Mat.
  Context {T : Type} `{Num T}.
  Definition zeros (n : nat) : list T := repeat (nZ 0) n.
  Definition mzeros (r c : nat) : mat T := mkM c (repeat (zeros c) r).
  Definition m_len (m : mat T) : nat := length (m_rows m).
  (** One column of a list of rows. *)
  Definition col {A} (d : A) (j : nat) (rows : list (list A)) : list A := map (fun r => nth j r d) rows.
  (** Write one element of one row. *)
  Definition set_cell {A} (i j : nat) (x : A) (rows : list (list A)) : list (list A) :=
    match nth_error rows i with Some r => set_nth i (set_nth j x r) rows | None => rows end.
End Mat.
