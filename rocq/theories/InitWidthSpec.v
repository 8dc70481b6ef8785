(** Vocabulary of the theorems about the width of data. *)
From Verif Require Import Base CombModel.

(** The data that decide: the first of a list, of its first, and so on; nothing for an empty list *)
Fixpoint first_leaf {T} (X : value T) : option (value T) :=
  match X with
  | PyList l | PyTup l => match l with [] => None | x :: _ => first_leaf x end
  | _ => Some X
  end.
