(** Contexts: C15. *)
From Coq Require Import String.
From Verif Require Import CtxModel CtxSpec CtxProofs.
Open Scope string_scope.

(** C15. [with use_ops(name)]: the body runs with the named backend, and however it ends and whatever
    it does, the previous backend (or the default, if none was set) is current again. *)
Theorem C15_use_ops_restores :
  forall reg name p s s' t r cur o, eval reg (PUseOps name p) s = (s', t, r) ->
    effective_ops reg s = Ok cur -> get_ops reg name = Ok o ->
    x_ops s' = Some cur /\ x_thread s' = Some cur /\
    exists s1 s2, x_ops s1 = Some o /\ x_operators s1 = x_operators s /\ x_valid s1 = x_valid s /\ eval reg p s1 = (s2, t, r) /\
      x_operators s' = x_operators s2 /\ x_valid s' = x_valid s2.
Proof. exact use_ops_restores. Qed.
Print Assumptions C15_use_ops_restores.

(** C15. An unknown backend raises before the body runs, and changes nothing. *)
Theorem C15_use_ops_unknown :
  forall reg name p s e cur, effective_ops reg s = Ok cur -> get_ops reg name = Err e ->
    exists s', eval reg (PUseOps name p) s = (s', [], Err e) /\ effective_ops reg s' = Ok cur /\ x_operators s' = x_operators s /\ x_valid s' = x_valid s.
Proof. exact use_ops_unknown. Qed.
Print Assumptions C15_use_ops_unknown.

(** C15. Any program that changes backends only by [use_ops] blocks leaves the current backend as it
    was, whatever nesting, exceptions and handlers it contains. *)
Theorem C15_use_ops_nests :
  forall reg p s s' t r, scoped_ops p -> eval reg p s = (s', t, r) -> effective_ops reg s' = effective_ops reg s.
Proof. exact scoped_ops_balanced. Qed.
Print Assumptions C15_use_ops_nests.

(** C15. After a normal exit of its block, operator bindings and data validation are what they were
    before the block, whatever happened inside. *)
Theorem C15_define_restores :
  forall reg d p s s' t, eval reg (PDefine d p) s = (s', t, Ok tt) -> x_operators s' = x_operators s.
Proof. exact define_restores. Qed.
Print Assumptions C15_define_restores.
Theorem C15_validation_restores :
  forall reg b p s s' t, eval reg (PValidate b p) s = (s', t, Ok tt) -> x_valid s' = x_valid s.
Proof. exact validate_restores. Qed.
Print Assumptions C15_validation_restores.

(** C15. A program in which no exception occurs leaves operator bindings and validation unchanged. *)
Theorem C15_define_nests :
  forall reg p s s' t, no_try p -> eval reg p s = (s', t, Ok tt) -> x_operators s' = x_operators s /\ x_valid s' = x_valid s.
Proof. exact no_exception_balanced. Qed.
Print Assumptions C15_define_nests.

(** C15. Inside a block exactly the block's bindings are visible: each operator calls, through the
    method Python maps it to, the function bound to it, and raises TypeError if the block does not bind
    it (bindings of enclosing blocks are hidden). *)
Theorem C15_define_visible :
  forall reg d m op s, python_method op = Some m ->
    eval reg (PDefine d (PDunder m)) s =
    match dget op d with
    | Some f => (s, [Applied f], Ok tt)
    | None => (with_operators s d, [], Err TypeError)
    end.
Proof. exact define_operator. Qed.
Print Assumptions C15_define_visible.

Theorem C15_operator_errors : forall reg m s, snd (eval reg (PDunder m) s) =
  match dunder_op m with Some op => match dget op (x_operators s) with Some _ => Ok tt | None => Err TypeError end | None => Err TypeError end.
Proof. exact dunder_ok. Qed.
Print Assumptions C15_operator_errors.

(** C15. The backend a name stands for: "cpu" prefers the big-endian backend, then Apple's, then numpy;
    any other name is looked up as it is. *)
Theorem C15_get_ops :
  forall reg name o, get_ops reg name = Ok o <->
    if String.eqb name "cpu"
    then dget "bigendian" reg = Some o \/
         dget "bigendian" reg = None /\ (dget "apple" reg = Some o \/ dget "apple" reg = None /\ dget "numpy" reg = Some o)
    else dget name reg = Some o.
Proof. exact get_ops_spec. Qed.
Print Assumptions C15_get_ops.
Theorem C15_get_ops_error : forall reg name e, get_ops reg name = Err e -> e = ValueError.
Proof. exact get_ops_error. Qed.
Print Assumptions C15_get_ops_error.

(** C15. What a thread sees depends only on its own programs. *)
Theorem C15_threads_isolated :
  forall reg sched ss ss' i, length ss = length ss' -> nth_error ss i = nth_error ss' i ->
    nth_error (run_threads reg ss sched) i = nth_error (run_threads reg ss' (filter (fun ip => Nat.eqb (fst ip) i) sched)) i.
Proof. exact threads_isolated. Qed.
Print Assumptions C15_threads_isolated.

Definition ex_reg : dict string nat := [("numpy", 1); ("cupy", 2); ("mps", 3)].
Definition ex_prog : prog :=
  PSeq (PDefine [(">>", 7); ("+", 8)]
         (PSeq (PDunder "__rshift__")
         (PSeq (PTry (PUseOps "cupy" (PSeq PGetOps (PUseOps "mps" (PSeq PGetOps (PRaise KeyError))))) PGetOps)
         (PSeq (PDefine [("+", 9)] (PDunder "__add__"))
               (PDunder "__add__")))))
       (PValidate true PGetValid).
Example C15_ex :
  scoped_ops ex_prog /\
  eval ex_reg ex_prog ctx0 =
    (mkCtx (Some 1) (Some 1) [] false, [Applied 7; SeeOps 2; SeeOps 3; SeeOps 1; Applied 9; Applied 8; SeeValid true], Ok tt) /\
  effective_ops ex_reg ctx0 = Ok 1 /\ get_ops ex_reg "jax" = Err ValueError /\
  no_try (PDefine [(">>", 7)] (PSeq (PDunder "__rshift__") (PUseOps "mps" PGetOps))) /\
  eval ex_reg (PDefine [(">>", 7)] (PSeq (PDunder "__rshift__") (PUseOps "mps" PGetOps))) ctx0 =
    (mkCtx (Some 1) (Some 1) [] false, [Applied 7; SeeOps 3], Ok tt).
Proof. vm_compute. repeat split. Qed.

(** C15, finding: if the body of [define_operators] (or [data_validation]) raises, the bindings stay
    changed after the block, even when the exception is handled. *)
Theorem C15_define_exception_refuted :
  exists p s' t, eval [("numpy", 1)] p ctx0 = (s', t, Ok tt) /\ x_operators s' <> x_operators ctx0.
Proof. exact define_witness. Qed.
Print Assumptions C15_define_exception_refuted.
Theorem C15_validation_exception_refuted :
  exists p s' t, eval [("numpy", 1)] p ctx0 = (s', t, Ok tt) /\ x_valid s' <> x_valid ctx0.
Proof. exact validate_witness. Qed.
Print Assumptions C15_validation_exception_refuted.
