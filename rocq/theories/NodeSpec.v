(** Specification vocabulary for node histories and references. *)
From Coq Require Import String.
From Verif Require Import GraphModel GraphSpec NodeModel.

Section NodeSpec.
  Context {V A : Type}.

  (** The value of the last accepted [set_dim] on [name] in a trace of calls and results. *)
  Fixpoint last_dim (name : string) (tr : list (@node_op V * result unit)) : option Z :=
    match tr with
    | [] => None
    | (OSetDim nm v _, Ok tt) :: tr' =>
      match last_dim name tr' with
      | Some w => Some w
      | None => if eqd nm name then Some v else None
      end
    | _ :: tr' => last_dim name tr'
    end.

  (** The last value other than None given to [set_param] for [name] in a list of calls. *)
  Fixpoint last_param (name : string) (ops : list (@node_op V)) : option V :=
    match ops with
    | [] => None
    | OSetParam nm (Some v) :: ops' =>
      match last_param name ops' with
      | Some w => Some w
      | None => if eqd nm name then Some v else None
      end
    | _ :: ops' => last_param name ops'
    end.

  (** The last argument, None included, given to [set_param] for [name]. *)
  Fixpoint last_param_write (name : string) (ops : list (@node_op V)) : option (option V) :=
    match ops with
    | [] => None
    | OSetParam nm v :: ops' =>
      match last_param_write name ops' with
      | Some w => Some w
      | None => if eqd nm name then Some v else None
      end
    | _ :: ops' => last_param_write name ops'
    end.

  (** Every reference of every node points to the node itself or somewhere below it. *)
  Definition refs_in_tree (h : heap V A) : Prop :=
    forall a n name b, nth_error h a = Some n -> get_ref n name = Ok b -> reach (graph_of h) a b.

  (** The argument of the last accepted [set_ref] on node [a] and name [name]. *)
  Fixpoint last_ref (a : addr) (name : string) (tr : list (tree_op * result unit))
    : option (option addr) :=
    match tr with
    | [] => None
    | (TSetRef b nm v, Ok tt) :: tr' =>
      match last_ref a name tr' with
      | Some w => Some w
      | None => if Nat.eqb b a then if eqd nm name then Some v else None else None
      end
    | _ :: tr' => last_ref a name tr'
    end.
End NodeSpec.
