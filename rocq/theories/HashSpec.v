(** Vocabulary of the theorems about hashing. *)
From Verif Require Export HashModel.

Definition word (bits : Z) (x : Z) : Prop := (0 <= x < 2 ^ bits)%Z.
