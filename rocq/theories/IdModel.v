(** The keys under which the optimizer keeps its state: ids of nodes and shims. No proofs here.
    thinc/model.py 114-117 (the id of a node), 478-533 (copies), thinc/shims/shim.py 20-30 and 52-53,
    and the keys that are passed to the optimizer: model.py 336-348, shims/pytorch.py 164-180, shims/tensorflow.py 133-155, shims/mxnet.py 61-77. *)
From Coq Require Import String.
From Verif Require Export NodeModel.
Local Open Scope Z_scope.

(** A node or a shim: its id and the names under which it updates arrays: those of its parameters, for a PyTorch module the names of
    [named_parameters()], for TensorFlow and MXNet one fixed name *)
Inductive owner := Nd (id : Z) (names : list string) | Sh (id : Z) (names : list string).
Definition owner_id (o : owner) : Z := match o with Nd i _ | Sh i _ => i end.
Definition owner_names (o : owner) : list string := match o with Nd _ l | Sh _ l => l end.
Definition is_node (o : owner) : bool := match o with Nd _ _ => true | Sh _ _ => false end.
(** The keys (id, name) *)
Definition keys_of (o : owner) : list (Z * string) := map (fun name => (owner_id o, name)) (owner_names o).
(** tensorflow.py 153-155, mxnet.py 75-77 *)
Definition tensorflow_name : string := "tensorflow-shim".
Definition mxnet_name : string := "mxnet-shim".

(** [Model.global_id], [Shim.global_id] and everything made so far *)
Record census := mkCensus { last_node : Z; last_shim : Z; owners : list owner }.
Definition census0 : census := mkCensus 0 0 [].
Inductive id_op :=
| NewNode (names : list string)
| NewShim (names : list string)
| CopyNode (i : nat)                  (* the node at position i *)
| CopyShim (i : nat).
(** model.py 114-117 *)
Definition new_node (c : census) (names : list string) : census :=
  mkCensus (last_node c + 1) (last_shim c) (owners c ++ [Nd (last_node c + 1) names]).
(** shim.py 26-30 *)
Definition new_shim (c : census) (names : list string) : census :=
  mkCensus (last_node c) (last_shim c + 1) (owners c ++ [Sh (last_shim c + 1) names]).
(** A copy of a node is a new node with the same parameters (model.py 514-533); a copy of a shim has all its attributes, with the id
    (shim.py 52-53, tensorflow.py 216-223, mxnet.py 86-93). *)
Definition id_step (c : census) (o : id_op) : census :=
  match o with
  | NewNode names => new_node c names
  | NewShim names => new_shim c names
  | CopyNode i => match nth_error (owners c) i with Some (Nd _ names) => new_node c names | _ => c end
  | CopyShim i => match nth_error (owners c) i with
                  | Some (Sh id names) => mkCensus (last_node c) (last_shim c) (owners c ++ [Sh id names])
                  | _ => c
                  end
  end.
Definition id_run (ops : list id_op) : census := fold_left id_step ops census0.
