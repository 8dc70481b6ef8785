(** Vocabulary of the theorems about softmax. *)
From Coq Require Import Reals.
From Verif Require Export ReduceSpec ActSpec SoftModel.
Local Open Scope R_scope.

(** Element [j] of the softmax of the row [x] at temperature [t]. *)
Definition softmax_at (t : R) (x : list R) (j : nat) : R := exp (nth j x 0 / t) / msum (map (fun a => exp (a / t)) x).
(** A probability distribution. *)
Definition distribution (y : list R) : Prop := Forall (fun p => 0 < p) y /\ msum y = 1.
(** The operation with its backprop, as a layer. *)
Definition softmax_op (t : R) : layer R := fun _ _ X =>
  let* X := as_mat X in
  let* Y := softmax t X in
  Ok (Arr2 Y, fun dY g => let* dY := as_mat dY in let* dX := backprop_softmax Y dY t in Ok (Arr2 dX, g)).
Definition sequences_op (numpy : bool) (lengths : list Z) : layer R := fun _ _ X =>
  let* X := as_mat X in
  let* Y := softmax_sequences numpy X lengths in
  Ok (Arr2 Y, fun dY g => let* dY := as_mat dY in let* dX := backprop_softmax_sequences numpy dY Y lengths in Ok (Arr2 dX, g)).
(** The softmax of each column over the rows of one sequence, with elements clipped to [-20, 20]. *)
Definition sequence_softmax (width : nat) (s : list (list R)) : list (list R) :=
  map (fun x => map (fun j => exp (clamp (-20) 20 (nth j x 0)) / msum (map (fun r => exp (clamp (-20) 20 (nth j r 0))) s)) (seq 0 width)) s.
(** The cross-entropy of the rows of [Y] to the rows of [t]. *)
Definition cross_entropy (t Y : mat R) : R :=
  - msum (map (fun p => msum (map (fun q => fst q * ln (snd q)) (combine (fst p) (snd p)))) (combine (m_rows t) (m_rows Y))).
(** The same with a weight for each row. *)
Definition weighted_cross_entropy (w : list R) (t Y : mat R) : R :=
  - msum (map (fun p => fst p * msum (map (fun q => fst q * ln (snd q)) (combine (fst (snd p)) (snd (snd p))))) (combine w (combine (m_rows t) (m_rows Y)))).
