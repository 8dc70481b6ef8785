(** Vocabulary for concurrent construction. *)
From Verif Require Import ConcModel.

(** g+1, ..., g+n *)
Definition zseq (g : Z) (n : nat) : list Z := map (fun k => (g + 1 + Z.of_nat k)%Z) (seq 0 n).

(** Increasing lists. *)
Definition rising (l : list Z) : Prop := forall j k x y, j < k -> nth_error l j = Some x -> nth_error l k = Some y -> (x < y)%Z.

(** Steps still to be made, and the end state. *)
Definition size_pc (p : pc) : nat := match p with Outside => 0 | Locked => 4 | Loaded _ => 3 | Stored => 2 | Assigned => 1 end.
Definition remaining (s : gstate) : nat := list_sum (map (fun t => 5 * t_todo t + size_pc (t_pc t)) (g_threads s)).
Definition finished (s : gstate) : Prop := forall i t, nth_error (g_threads s) i = Some t -> t_pc t = Outside /\ t_todo t = 0.

