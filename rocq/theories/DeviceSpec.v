(** Vocabulary for devices: C69. *)
From Coq Require Import String ZArith List Bool.
From Verif Require Import DeviceModel GraphSpec.
Import ListNotations.
Open Scope string_scope.

(** CUDA device [id] is there, for CuPy and for PyTorch if it sees any. *)
Definition usable (k : machine) (id : Z) : Prop :=
  (exists n, k_cupy k = Some (Some n) /\ (0 <= id < Z.of_nat n)%Z) /\
  (forall n b a, k_torch k = Some (n, b, a) -> n <> 0 -> (id < Z.of_nat n)%Z).

(** The backend both the context and the thread have. *)
Definition backend (s : sys) (o : nat) : Prop := x_ops (y_ctx s) = Some o /\ x_thread (y_ctx s) = Some o.

(** Nothing but the current backend differs. *)
Definition same_but_backend (s s' : sys) : Prop :=
  x_operators (y_ctx s') = x_operators (y_ctx s) /\ x_valid (y_ctx s') = x_valid (y_ctx s) /\
  y_pools s' = y_pools s /\ y_made s' = y_made s /\ y_malloc s' = y_malloc s.

(** The GPU the code expects: on macOS through MPS, elsewhere through CuPy. *)
Definition ordinary (k : machine) : Prop :=
  has_gpu k = true -> (k_darwin k = true -> has_torch_mps k = true) /\ (k_darwin k = false -> has_cupy k = true).

(** Each pool is made with the allocator of its name, has its own identity, and CuPy's allocator is one of them or its own. *)
Definition pools_ok (s : sys) : Prop :=
  (forall name p, dget name (y_pools s) = Some p -> p_allocator p = name /\ p_id p < y_made s) /\
  (forall p, y_malloc s = Some p -> dget (p_allocator p) (y_pools s) = Some p).

(** How a node may differ once its arrays are moved by [f]: the parameters it has, and the gradients of the parameters it
    has or may have. *)
Definition node_moved {X A} (f : arr X -> arr X -> Prop) (n n' : node (arr X) A) : Prop :=
  n_id n' = n_id n /\ n_name n' = n_name n /\ n_func n' = n_func n /\ n_layers n' = n_layers n /\ n_shims n' = n_shims n /\
  n_dims n' = n_dims n /\ n_has n' = n_has n /\ n_refs n' = n_refs n /\ n_attrs n' = n_attrs n /\
  dkeys (n_params n') = dkeys (n_params n) /\ dkeys (n_grads n') = dkeys (n_grads n) /\
  (forall name, match dget name (n_has n), dget name (n_params n), dget name (n_params n') with
                | Some true, Some v, Some v' => f v v'
                | _, v, v' => v' = v
                end) /\
  (forall name, match dget name (n_has n), dget name (n_grads n), dget name (n_grads n') with
                | Some _, Some v, Some v' => f v v'
                | _, v, v' => v' = v
                end).

(** A model whose dictionaries have no repeated key, whose declared parameters have values, with a backend for each node,
    and the shims it names. *)
Definition coherent {X A} (w : @world X A) : Prop :=
  length (w_ops w) = length (w_nodes w) /\
  forall a n, nth_error (w_nodes w) a = Some n ->
    NoDup (dkeys (n_has n)) /\
    (forall name, dget name (n_has n) = Some true -> dget name (n_params n) <> None) /\
    (forall c, In c (n_layers n) -> c < length (w_nodes w)) /\
    (forall sh, In sh (n_shims n) -> sh < length (w_shims w)).

(** The shims of the nodes below [root]. *)
Definition shim_below {X A} (w : @world X A) (root : addr) (sh : addr) : Prop :=
  exists a n, reach (graph_of (w_nodes w)) root a /\ nth_error (w_nodes w) a = Some n /\ In sh (n_shims n).

(** Examples: a machine with two GPUs, a thread using numpy, and a model of two nodes, the second with a shim. *)
Definition wit_sys : sys := mkSys (mkCtx (Some numpy_ops) (Some numpy_ops) [] false) 0 0 [] 0 None.
Definition wit_node (shims : list addr) (layers : list addr) : node (arr nat) nat :=
  mkNode 1 "linear" 0 layers shims [] [("W", true); ("b", false)] [("W", (Host, 7))] [("W", (Host, 9))] [] [].
Definition wit_world (torch : bool) : @world nat nat := mkWorld [wit_node [] [1]; wit_node [0] []] [numpy_ops; numpy_ops] [mkShim torch Host].
Definition wit_machine : machine := mkMachine false false (Some (Some 2)) (Some (2, false, false)).
