(** A model node and the operations on its dims, params, grads, refs and attrs
    (thinc/model.py). No proofs here.
    [V] is the type of parameter values, [A] the type of attribute values.
    Mutators return the new state together with the result, so that a raised exception
    still shows what had been changed before it. *)
From Coq Require Import String.
From Verif Require Export Base DictModel GraphModel.

#[export] Instance eqd_string : EqD string := string_dec.

(** thinc/model.py 67-122: the slots of a Model.
    - [n_func] stands for the callables [_func] and [init] (opaque).
    - [n_has] is [_has_params]: [true] for True and [false] for None.
    - [n_params], [n_grads] are the dictionaries of the node's private ParamServer, whose keys
      are all [(self.id, name)]; the constant first component is dropped.
    - [ops] is not modelled; no proxy is installed in the ParamServer. *)
Record node (V A : Type) := mkNode {
  n_id : Z;
  n_name : string;
  n_func : nat;
  n_layers : list addr;
  n_shims : list addr;
  n_dims : dict string (option Z);
  n_has : dict string bool;
  n_params : dict string V;
  n_grads : dict string V;
  n_refs : dict string (option addr);
  n_attrs : dict string A
}.
Arguments mkNode {V A}.
Arguments n_id {V A}. Arguments n_name {V A}. Arguments n_func {V A}.
Arguments n_layers {V A}. Arguments n_shims {V A}. Arguments n_dims {V A}.
Arguments n_has {V A}. Arguments n_params {V A}. Arguments n_grads {V A}.
Arguments n_refs {V A}. Arguments n_attrs {V A}.

Section Node.
  Context {V A : Type}.
  Notation node := (node V A).

  Definition with_layers (n : node) l : node :=
    mkNode (n_id n) (n_name n) (n_func n) l (n_shims n) (n_dims n) (n_has n) (n_params n) (n_grads n) (n_refs n) (n_attrs n).
  Definition with_dims (n : node) d : node :=
    mkNode (n_id n) (n_name n) (n_func n) (n_layers n) (n_shims n) d (n_has n) (n_params n) (n_grads n) (n_refs n) (n_attrs n).
  Definition with_params (n : node) hp ps : node :=
    mkNode (n_id n) (n_name n) (n_func n) (n_layers n) (n_shims n) (n_dims n) hp ps (n_grads n) (n_refs n) (n_attrs n).
  Definition with_grads (n : node) gs : node :=
    mkNode (n_id n) (n_name n) (n_func n) (n_layers n) (n_shims n) (n_dims n) (n_has n) (n_params n) gs (n_refs n) (n_attrs n).
  Definition with_refs (n : node) r : node :=
    mkNode (n_id n) (n_name n) (n_func n) (n_layers n) (n_shims n) (n_dims n) (n_has n) (n_params n) (n_grads n) r (n_attrs n).
  Definition with_attrs (n : node) a : node :=
    mkNode (n_id n) (n_name n) (n_func n) (n_layers n) (n_shims n) (n_dims n) (n_has n) (n_params n) (n_grads n) (n_refs n) a.
  Definition with_name (n : node) nm : node :=
    mkNode (n_id n) nm (n_func n) (n_layers n) (n_shims n) (n_dims n) (n_has n) (n_params n) (n_grads n) (n_refs n) (n_attrs n).

  (** thinc/model.py 176-185 [has_dim]: False / True / None. *)
  Definition has_dim (n : node) (name : string) : option bool :=
    match dget name (n_dims n) with
    | None => Some false
    | Some (Some _) => Some true
    | Some None => None
    end.

  (** thinc/model.py 187-196 [get_dim]. *)
  Definition get_dim (n : node) (name : string) : result Z :=
    match dget name (n_dims n) with
    | None => Err KeyError
    | Some None => Err ValueError
    | Some (Some v) => Ok v
    end.

  (** thinc/model.py 198-212 [set_dim]. *)
  Definition set_dim (n : node) (name : string) (value : Z) (force : bool) : node * result unit :=
    match dget name (n_dims n) with
    | None => (n, Err KeyError)
    | Some old =>
      let has_params := existsb (fun p => snd p) (n_has n) in
      let invalid_change :=
        (match old with Some o => negb (o =? value)%Z | None => false end) &&
        (negb force || force && has_params) in
      if invalid_change then (n, Err ValueError)
      else (with_dims n (dset name (Some value) (n_dims n)), Ok tt)
    end.

  (** thinc/model.py 214-216 [maybe_get_dim]. *)
  Definition maybe_get_dim (n : node) (name : string) : result (option Z) :=
    match has_dim n name with
    | Some true => let* v := get_dim n name in Ok (Some v)
    | _ => Ok None
    end.

  (** thinc/model.py 218-228 [has_param]. *)
  Definition has_param (n : node) (name : string) : option bool :=
    match dget name (n_has n) with
    | None => Some false
    | Some true => Some true
    | Some false => None
    end.

  (** thinc/model.py 230-238 [get_param]; _param_server.py 38-48. *)
  Definition get_param (n : node) (name : string) : result V :=
    match dget name (n_has n) with
    | None => Err KeyError
    | Some _ => match dget name (n_params n) with None => Err KeyError | Some v => Ok v end
    end.

  (** thinc/model.py 240-242 [maybe_get_param]. *)
  Definition maybe_get_param (n : node) (name : string) : result (option V) :=
    match has_param n name with
    | Some true => let* v := get_param n name in Ok (Some v)
    | _ => Ok None
    end.

  (** thinc/model.py 244-250 [set_param]; _param_server.py 54-57. *)
  Definition set_param (n : node) (name : string) (value : option V) : node :=
    match value with
    | None => with_params n (dset name false (n_has n)) (n_params n)
    | Some v => with_params n (dset name true (n_has n)) (dset name v (n_params n))
    end.

  (** thinc/model.py 252-266 [has_grad], [get_grad], [set_grad]; _param_server.py 41-63. *)
  Definition has_grad (n : node) (name : string) : bool := dmem name (n_grads n).
  Definition get_grad (n : node) (name : string) : result V :=
    match dget name (n_grads n) with None => Err KeyError | Some v => Ok v end.
  Definition set_grad (n : node) (name : string) (v : V) : node :=
    with_grads n (dset name v (n_grads n)).

  (** thinc/model.py 268-270 [inc_grad]; _param_server.py 65-79. [add] is the array [+=]. Whether
      the stored array is shared with the caller is the subject of GradModel.v. *)
  Definition inc_grad (add : V -> V -> V) (n : node) (name : string) (v : V) : node :=
    match dget name (n_grads n) with
    | None => with_grads n (dset name v (n_grads n))
    | Some g => with_grads n (dset name (add g v) (n_grads n))
    end.

  (** thinc/model.py 142-150 [param_names], [grad_names]. *)
  Definition param_names (n : node) : list string := dkeys (n_has n).
  Definition grad_names (n : node) : list string := filter (has_grad n) (param_names n).

  (** thinc/model.py 272-296 [has_ref], [get_ref], [maybe_get_ref]. *)
  Definition has_ref (n : node) (name : string) : option bool :=
    match dget name (n_refs n) with
    | None => Some false
    | Some (Some _) => Some true
    | Some None => None
    end.
  Definition get_ref (n : node) (name : string) : result addr :=
    match dget name (n_refs n) with
    | None => Err KeyError
    | Some None => Err ValueError
    | Some (Some a) => Ok a
    end.

  (** The heap: the nodes that exist, by address. *)
  Definition heap := list node.
  Definition graph_of (h : heap) : graph := map n_layers h.

  (** Update one object in place (no effect on a missing address). *)
  Definition upd (h : heap) (a : addr) (f : node -> node) : heap :=
    match nth_error h a with Some n => set_nth a (f n) h | None => h end.

  (** thinc/model.py 298-305 [set_ref] on the object at [a]; [value in self.walk()] compares by
      identity because Model defines no [__eq__]. *)
  Definition set_ref (h : heap) (a : addr) (name : string) (value : option addr)
    : heap * result unit :=
    match value with
    | None => (upd h a (fun n => with_refs n (dset name None (n_refs n))), Ok tt)
    | Some b =>
      if memb b (walk (graph_of h) Bfs a)
      then (upd h a (fun n => with_refs n (dset name (Some b) (n_refs n))), Ok tt)
      else (h, Err ValueError)
    end.

  (** thinc/model.py 868-876 [set_dropout_rate]. *)
  Definition set_attr_if_present (v : A) (n : node) (attr : string) : node :=
    if dmem attr (n_attrs n) then with_attrs n (dset attr v (n_attrs n)) else n.
  Definition set_dropout_rate (h : heap) (root : addr) (drop : A) (attrs : list string) : heap :=
    fold_left (fun h a => upd h a (fun n => fold_left (set_attr_if_present drop) attrs n))
      (walk (graph_of h) Bfs root) h.

  (** thinc/model.py 855-865 [change_attr_values]. *)
  Definition change_node_attrs (mapping : dict string (dict string A)) (n : node) : node :=
    match dget (n_name n) mapping with
    | None => n
    | Some attrs =>
      fold_left (fun n (p : string * A) => set_attr_if_present (snd p) n (fst p)) attrs n
    end.
  Definition change_attr_values (h : heap) (root : addr) (mapping : dict string (dict string A)) : heap :=
    fold_left (fun h a => upd h a (change_node_attrs mapping)) (walk (graph_of h) Bfs root) h.
End Node.
Arguments heap : clear implicits.

(** A history of calls on one node, with the result of each call. *)
Section Histories.
  Context {V A : Type}.
  Inductive node_op :=
  | OSetDim (name : string) (value : Z) (force : bool)
  | OSetParam (name : string) (value : option V)
  | OSetGrad (name : string) (value : V)
  | OIncGrad (name : string) (value : V).

  Definition node_step (add : V -> V -> V) (n : node V A) (o : node_op) : node V A * result unit :=
    match o with
    | OSetDim nm v f => set_dim n nm v f
    | OSetParam nm v => (set_param n nm v, Ok tt)
    | OSetGrad nm v => (set_grad n nm v, Ok tt)
    | OIncGrad nm v => (inc_grad add n nm v, Ok tt)
    end.

  Fixpoint node_run (add : V -> V -> V) (n : node V A) (ops : list node_op)
    : node V A * list (node_op * result unit) :=
    match ops with
    | [] => (n, [])
    | o :: ops' =>
      let (n1, r) := node_step add n o in
      let (n2, tr) := node_run add n1 ops' in
      (n2, (o, r) :: tr)
    end.
End Histories.

(** A history of edits of the graph: [set_ref] on any node, and [model.layers.append(...)] as done by
    callers (e.g. thinc/layers/chain.py 29-34 builds on a copy, users append in place). *)
Section TreeHistories.
  Context {V A : Type}.
  Inductive tree_op :=
  | TSetRef (a : addr) (name : string) (value : option addr)
  | TAppend (a : addr) (ls : list addr).

  Definition tree_step (h : heap V A) (o : tree_op) : heap V A * result unit :=
    match o with
    | TSetRef a nm v => set_ref h a nm v
    | TAppend a ls => (upd h a (fun n => with_layers n (n_layers n ++ ls)), Ok tt)
    end.

  Fixpoint tree_run (h : heap V A) (ops : list tree_op) : heap V A * list (tree_op * result unit) :=
    match ops with
    | [] => (h, [])
    | o :: ops' =>
      let (h1, r) := tree_step h o in
      let (h2, tr) := tree_run h1 ops' in
      (h2, (o, r) :: tr)
    end.
End TreeHistories.

(** thinc/model.py 374-387 [walk]: dispatch on the [order] argument. *)
Definition walk_by_name (g : graph) (order : string) (root : addr) : result (list addr) :=
  if string_dec order "bfs" then Ok (walk g Bfs root)
  else if string_dec order "dfs_pre" then Ok (walk g DfsPre root)
  else if string_dec order "dfs_post" then Ok (walk g DfsPost root)
  else Err ValueError.
