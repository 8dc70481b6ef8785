(** Definitions for the statements about the small pieces. *)
From Coq Require Import String Reals.
From Verif Require Export GlueModel ActSpec GraphSpec.
Local Open Scope string_scope.
Local Open Scope list_scope.

(** The gradients that should be in the dictionary: those of the reachable nodes, under the id of the node and the name of a
    parameter the node has declared, with the value of the parameter. *)
Definition gradient_of {V A} (h : heap V A) (root : addr) (id : Z) (name : string) (param grad : V) : Prop :=
  exists a n, reach (graph_of h) root a /\ nth_error h a = Some n /\ n_id n = id /\ In name (dkeys (n_has n))
              /\ dget name (n_params n) = Some param /\ dget name (n_grads n) = Some grad.
(** The ids of the reachable nodes differ. *)
Definition ids_differ {V A} (h : heap V A) (root : addr) : Prop :=
  forall a b n m, reach (graph_of h) root a -> reach (graph_of h) root b -> nth_error h a = Some n -> nth_error h b = Some m ->
    n_id n = n_id m -> a = b.
(** A gradient without a parameter. *)
Definition orphan {V A} (h : heap V A) (root : addr) : Prop :=
  exists a n name, reach (graph_of h) root a /\ nth_error h a = Some n /\ In name (dkeys (n_has n))
                   /\ dget name (n_grads n) <> None /\ dget name (n_params n) = None.

(** The first try of a compilation that gives a kernel. *)
Definition first_kernel {K} (compile : nat -> result (option K)) (i : nat) (k : K) : Prop :=
  compile i = Ok (Some k) /\ forall j k', j < i -> compile j <> Ok (Some k').

(** Examples *)
Definition ex_node (id : Z) (ls : list addr) (params grads : dict string Z) : node Z unit :=
  mkNode id "m" 0 ls [] [] [("W", true); ("b", true)] params grads [] [].
Definition ex_heap : heap Z unit :=
  [ex_node 7 [1; 2] [] []; ex_node 8 [2] [("W", 10%Z); ("b", 11%Z)] [("W", 0%Z)];
   ex_node 9 [] [("W", 20%Z); ("b", 21%Z)] [("W", 1%Z); ("b", 2%Z)]].
Definition ex_orphan : heap Z unit := [ex_node 7 [] [("W", 1%Z)] [("b", 2%Z)]].
Definition ex_compile (n : nat) : result (option string) :=
  match n with 0 => Err RuntimeError | 1 => Ok None | _ => Ok (Some "kernel") end.
