(** Vocabulary for contexts. *)
From Coq Require Import String.
From Verif Require Import CtxModel.

(** No direct call of [set_current_ops]: backends are only changed by [with use_ops(...)]. *)
Fixpoint scoped_ops (p : prog) : Prop :=
  match p with
  | PSeq p q | PTry p q => scoped_ops p /\ scoped_ops q
  | PUseOps _ p | PDefine _ p | PValidate _ p => scoped_ops p
  | PSetOps _ => False
  | _ => True
  end.

(** No exception is caught inside the program. *)
Fixpoint no_try (p : prog) : Prop :=
  match p with
  | PSeq p q => no_try p /\ no_try q
  | PTry _ _ => False
  | PUseOps _ p | PDefine _ p | PValidate _ p => no_try p
  | _ => True
  end.

(** The backend a context uses: the default is chosen on first use. *)
Definition effective_ops (reg : dict string nat) (s : ctx) : result nat :=
  match x_ops s with Some o => Ok o | None => get_ops reg "cpu" end.

(** Python's operator protocol: the method a binary operator calls. *)
Definition python_method (op : string) : option string :=
  if String.eqb op "+" then Some "__add__" else if String.eqb op "-" then Some "__sub__"
  else if String.eqb op "*" then Some "__mul__" else if String.eqb op "@" then Some "__matmul__"
  else if String.eqb op "/" then Some "__truediv__" else if String.eqb op "//" then Some "__floordiv__"
  else if String.eqb op "%" then Some "__mod__" else if String.eqb op "**" then Some "__pow__"
  else if String.eqb op "<<" then Some "__lshift__" else if String.eqb op ">>" then Some "__rshift__"
  else if String.eqb op "&" then Some "__and__" else if String.eqb op "^" then Some "__xor__"
  else if String.eqb op "|" then Some "__or__" else None.
