(** Concurrent construction of models and shims: C14. *)
From Verif Require Import ConcModel ConcSpec ConcProofs.

(** C14. For any number of threads constructing any number of objects, and any schedule: two ids are
    equal only if they are the same construction of the same thread; each thread's ids increase and
    are fresh; and in the order in which the lock was held the ids are g0+1, g0+2, ... without gaps. *)
Theorem C14_ids_unique :
  forall g0 todos sched,
    let s := run (start g0 todos) sched in
    (forall i j ti tj a b x y, nth_error (g_threads s) i = Some ti -> nth_error (g_threads s) j = Some tj ->
       nth_error (t_ids ti) a = Some x -> nth_error (t_ids tj) b = Some y -> x = y -> i = j /\ a = b) /\
    (forall i ti, nth_error (g_threads s) i = Some ti -> rising (t_ids ti) /\ forall x, In x (t_ids ti) -> (g0 < x <= g_id s)%Z) /\
    map snd (g_log s) = zseq g0 (length (g_log s)).
Proof. exact ids_unique. Qed.
Print Assumptions C14_ids_unique.

(** C14. No deadlock: unless every thread has finished, some thread's step brings the end closer. *)
Theorem C14_progress :
  forall g0 todos sched,
    let s := run (start g0 todos) sched in
    finished s \/ exists i, remaining (step s i) < remaining s.
Proof. exact progress. Qed.
Print Assumptions C14_progress.

(** C14. When all have finished, every construction got its id. *)
Theorem C14_all_served :
  forall g0 todos sched,
    let s := run (start g0 todos) sched in
    finished s -> forall i k, nth_error todos i = Some k ->
    exists t, nth_error (g_threads s) i = Some t /\ length (t_ids t) = k.
Proof. exact all_served. Qed.
Print Assumptions C14_all_served.

(** Two threads, three constructions, interleaved with failed attempts to take the lock. *)
Example C14_ex :
  let s := run (start 10 [2; 1]) [0; 0; 1; 0; 1; 0; 1; 0; 1; 1; 0; 1; 1; 1; 0; 0; 0; 0; 0] in
  map t_ids (g_threads s) = [[11; 13]; [12]]%Z /\ g_log s = [(0, 11%Z); (1, 12%Z); (0, 13%Z)] /\
  g_lock s = None /\ map t_pc (g_threads s) = [Outside; Outside] /\ map t_todo (g_threads s) = [0; 0].
Proof. vm_compute. repeat split. Qed.
