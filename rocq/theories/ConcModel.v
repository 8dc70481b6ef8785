(** Concurrent construction of models and shims: the id counter and its lock
    (thinc/model.py 113-115, thinc/shims/shim.py 26-28). No proofs here. *)
From Verif Require Export Base.

(** Where a thread is in
<<
        with Model.global_id_lock:
            Model.global_id += 1
            self.id = Model.global_id
>>
    The increment is a load followed by a store; other threads may run in between. *)
Inductive pc :=
| Outside                    (* before [acquire], or done *)
| Locked                     (* lock held, nothing read *)
| Loaded (z : Z)             (* [Model.global_id] read for the increment *)
| Stored                     (* [Model.global_id = z + 1] done *)
| Assigned.                  (* [self.id = Model.global_id] done, lock still held *)

Record thread := mkThread {
  t_pc : pc;
  t_todo : nat;              (* constructor calls still to make *)
  t_ids : list Z             (* ids received, in order *)
}.

(** [g_log] is not in the program: it lists (thread, id) in the order in which the lock was acquired. *)
Record gstate := mkGS {
  g_id : Z;                  (* Model.global_id *)
  g_lock : option nat;       (* holder *)
  g_threads : list thread;
  g_log : list (nat * Z)
}.

Definition put (s : gstate) (i : nat) (t : thread) : gstate :=
  mkGS (g_id s) (g_lock s) (set_nth i t (g_threads s)) (g_log s).

(** One step of thread [i]; a blocked or finished thread does nothing. *)
Definition step (s : gstate) (i : nat) : gstate :=
  match nth_error (g_threads s) i with
  | None => s
  | Some t =>
    match t_pc t with
    | Outside =>
      match t_todo t, g_lock s with
      | S k, None => mkGS (g_id s) (Some i) (set_nth i (mkThread Locked k (t_ids t)) (g_threads s)) (g_log s)
      | _, _ => s
      end
    | Locked => put s i (mkThread (Loaded (g_id s)) (t_todo t) (t_ids t))
    | Loaded z =>
      mkGS (z + 1) (g_lock s) (set_nth i (mkThread Stored (t_todo t) (t_ids t)) (g_threads s)) (g_log s)
    | Stored =>
      mkGS (g_id s) (g_lock s) (set_nth i (mkThread Assigned (t_todo t) (t_ids t ++ [g_id s])) (g_threads s))
        (g_log s ++ [(i, g_id s)])
    | Assigned => mkGS (g_id s) None (set_nth i (mkThread Outside (t_todo t) (t_ids t)) (g_threads s)) (g_log s)
    end
  end.

(** A schedule names the thread that moves at each step. *)
Definition run (s : gstate) (sched : list nat) : gstate := fold_left step sched s.

(** [todos] lists how many objects each thread will construct. *)
Definition start (g0 : Z) (todos : list nat) : gstate :=
  mkGS g0 None (map (fun k => mkThread Outside k []) todos) [].
