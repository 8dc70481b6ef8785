(** Context-dependent settings: the current backend, operator bindings and data validation
    (thinc/backends/__init__.py, thinc/model.py, thinc/util.py). No proofs here. *)
From Coq Require Import String.
From Verif Require Export NodeModel.
Open Scope string_scope.

(** What one thread (context) sees: the context variables [context_ops], [context_operators] and
    [DATA_VALIDATION], and the thread-local copy of the backend. Backends and operator functions are
    represented by numbers. *)
Record ctx := mkCtx {
  x_ops : option nat;                 (* context_ops.get() *)
  x_thread : option nat;              (* _get_thread_state().ops *)
  x_operators : dict string nat;      (* Model._context_operators.get() *)
  x_valid : bool                      (* DATA_VALIDATION.get() *)
}.

(** A fresh thread: the defaults of the context variables. *)
Definition ctx0 : ctx := mkCtx None None [] false.

Definition with_ops (s : ctx) (o : nat) : ctx := mkCtx (Some o) (Some o) (x_operators s) (x_valid s).
Definition with_operators (s : ctx) (d : dict string nat) : ctx := mkCtx (x_ops s) (x_thread s) d (x_valid s).
Definition with_valid (s : ctx) (b : bool) : ctx := mkCtx (x_ops s) (x_thread s) (x_operators s) b.

(** What a program can see. *)
Inductive obs :=
| SeeOps (o : nat)                    (* get_current_ops() *)
| SeeValid (b : bool)                 (* DATA_VALIDATION.get() *)
| Applied (f : nat).                  (* a model operator called this function *)

Inductive prog :=
| PSkip
| PSeq (p q : prog)
| PRaise (e : err)
| PTry (p q : prog)                   (* try: p except: q *)
| PUseOps (name : string) (p : prog)  (* with use_ops(name): p *)
| PSetOps (name : string)             (* set_current_ops(get_ops(name)) *)
| PGetOps                             (* get_current_ops() *)
| PDefine (d : dict string nat) (p : prog)   (* with Model.define_operators(d): p *)
| PDunder (method : string)           (* model.__method__(other) *)
| PValidate (b : bool) (p : prog)     (* with data_validation(b): p *)
| PGetValid.

(** thinc/model.py 749-831: the operator each method looks up. *)
Definition dunder_op (m : string) : option string :=
  dget m [("__add__", "+"); ("__sub__", "-"); ("__mul__", "*"); ("__matmul__", "@"); ("__div__", "/"); ("__truediv__", "/");
          ("__floordiv__", "//"); ("__mod__", "%"); ("__pow__", "**"); ("__lshift__", "<<"); ("__rshift__", ">>");
          ("__and__", "&"); ("__xor__", "^"); ("__or__", "|")].

Section Ctx.
  (** The registered backends by name. *)
  Variable reg : dict string nat.

  (** thinc/backends/__init__.py 97-116 [get_ops] *)
  Definition get_ops (name : string) : result nat :=
    let cls :=
      if String.eqb name "cpu" then
        let cls := dget "numpy" reg in
        let cls := match dget "apple" reg with Some c => Some c | None => cls end in
        match dget "bigendian" reg with Some c => Some c | None => cls end
      else dget name reg in
    match cls with Some c => Ok c | None => Err ValueError end.

  (** thinc/backends/__init__.py 145-148 [set_current_ops] *)
  Definition set_current_ops (s : ctx) (o : nat) : ctx := with_ops s o.

  (** thinc/backends/__init__.py 138-142 [get_current_ops], with [require_cpu] (thinc/util.py 205-212) *)
  Definition get_current_ops (s : ctx) : ctx * result nat :=
    match x_ops s with
    | Some o => (s, Ok o)
    | None => match get_ops "cpu" with
              | Err e => (s, Err e)
              | Ok o => (set_current_ops s o, Ok o)
              end
    end.

  (** Run a program: final state, what was observed in order, and how it ended. *)
  Fixpoint eval (p : prog) (s : ctx) : ctx * list obs * result unit :=
    match p with
    | PSkip => (s, [], Ok tt)
    | PSeq p q =>
      match eval p s with
      | (s1, t1, Err e) => (s1, t1, Err e)
      | (s1, t1, Ok _) => match eval q s1 with (s2, t2, r) => (s2, (t1 ++ t2)%list, r) end
      end
    | PRaise e => (s, [], Err e)
    | PTry p q =>
      match eval p s with
      | (s1, t1, Ok _) => (s1, t1, Ok tt)
      | (s1, t1, Err _) => match eval q s1 with (s2, t2, r) => (s2, (t1 ++ t2)%list, r) end
      end
    | PSetOps name =>
      match get_ops name with Err e => (s, [], Err e) | Ok o => (set_current_ops s o, [], Ok tt) end
    | PGetOps =>
      match get_current_ops s with (s1, Err e) => (s1, [], Err e) | (s1, Ok o) => (s1, [SeeOps o], Ok tt) end
    | PUseOps name p =>
      (* thinc/backends/__init__.py 127-135 [use_ops]: try ... finally *)
      match get_current_ops s with
      | (s1, Err e) => (s1, [], Err e)
      | (s1, Ok current) =>
        match get_ops name with
        | Err e => (s1, [], Err e)
        | Ok o =>
          match eval p (set_current_ops s1 o) with (s2, t, r) => (set_current_ops s2 current, t, r) end
        end
      end
    | PDefine d p =>
      (* thinc/model.py 162-174 [define_operators]: an exception in the body skips the reset; the
         token remembers the value the variable had *)
      match eval p (with_operators s d) with
      | (s1, t, Ok _) => (with_operators s1 (x_operators s), t, Ok tt)
      | (s1, t, Err e) => (s1, t, Err e)
      end
    | PDunder m =>
      (* thinc/model.py 749-831 *)
      match dunder_op m with
      | None => (s, [], Err TypeError)
      | Some op => match dget op (x_operators s) with
                   | None => (s, [], Err TypeError)
                   | Some f => (s, [Applied f], Ok tt)
                   end
      end
    | PValidate b p =>
      (* thinc/util.py 602-609 [data_validation] (its lock is private to the call and excludes nobody) *)
      match eval p (with_valid s b) with
      | (s1, t, Ok _) => (with_valid s1 (x_valid s), t, Ok tt)
      | (s1, t, Err e) => (s1, t, Err e)
      end
    | PGetValid => (s, [SeeValid (x_valid s)], Ok tt)
    end.

  (** Several threads; each runs its programs, one after the other, in its own context. *)
  Definition run_threads (ss : list ctx) (sched : list (nat * prog)) : list ctx :=
    fold_left (fun ss ip => match nth_error ss (fst ip) with
                            | None => ss
                            | Some s => set_nth (fst ip) (fst (fst (eval (snd ip) s))) ss
                            end) sched ss.
End Ctx.
