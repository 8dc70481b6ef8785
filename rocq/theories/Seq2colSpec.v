(** Vocabulary of the theorems about window features. *)
From Verif Require Export ReduceSpec Seq2colModel.

(** The windows of [nW] rows to each side of every row of a sequence placed between rows of zeros. *)
Definition windows {T} `{Num T} (nW I : nat) (s : list (list T)) : list (list T) :=
  let pad := repeat (zeros I) nW in
  map (fun i => concat (firstn (2 * nW + 1) (skipn i (pad ++ s ++ pad)))) (seq 0 (length s)).
