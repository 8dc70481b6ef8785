(** Vocabulary of the theorems about dropout. *)
From Verif Require Export CombSpec DropModel.
Local Open Scope R_scope.

(** The factor for one element with the given draw. *)
Definition keep (rate : option R) (flip : R) : R :=
  match rate with
  | None => 1
  | Some d => if Rle_dec d 0 then 1 else if Rle_dec 1 d then 0 else if Rle_dec d flip then 1 / (1 - d) else 0
  end.
(** Whether a mask takes draws from the generator. *)
Definition draws (rate : option R) (n : nat) : nat :=
  match rate with None => 0 | Some d => if Rle_dec d 0 then 0 else if Rle_dec 1 d then 0 else n end.
(** Values dropout can handle: arrays, lists and tuples of arrays, Padded, and Ragged with elements. *)
Definition droppable {A} (v : value A) : Prop :=
  match v with
  | Arr1 _ | Arr2 _ | Pad _ _ _ _ _ => True
  | Rag m _ _ => (length (m_rows m) * m_cols m)%nat <> 0%nat
  | PyList l | PyTup l => Forall is_array l
  | Sc _ => False
  end.
(** A list in place of a tuple. *)
Definition listed {A} (v : value A) : value A := match v with PyTup l => PyList l | _ => v end.
(** Element [k] times the factor of draw number [pos + k]. *)
Definition masked (rate : option R) (flips : nat -> R) (pos : nat) (xs ys : list R) : Prop :=
  length ys = length xs /\ forall k x, nth_error xs k = Some x -> nth_error ys k = Some (x * keep rate (flips (pos + k)%nat)).
