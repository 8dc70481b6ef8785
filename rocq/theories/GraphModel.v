(** The layer graph of a model and its traversals (thinc/model.py). No proofs here.
    A node is its address: Python object identity, the thing [id(node)] is compared by.
    The graph gives the [layers] list of every address; lists may repeat a node, share it
    between parents, and the graph may contain cycles (nothing in the code forbids it). *)
From Verif Require Export Base DictModel.

Notation addr := nat (only parsing).

(** [layers] lists of nodes 0, 1, ..., as a list. An address outside the list has none. *)
Definition graph := list (list addr).

(** thinc/model.py 109, 124-129: the [layers] attribute. *)
Definition layers (g : graph) (a : addr) : list addr := nth a g [].

(** thinc/model.py 389-398 [_walk_bfs]. [queue] is the part of the Python list the [for]
    loop has not reached yet: iterating over a list that is being extended pops its front.
    [fuel] bounds the number of loop iterations; [None] means the bound was too small. *)
Fixpoint bfs_loop (g : graph) (fuel : nat) (queue seen : list addr) : option (list addr) :=
  match queue with
  | [] => Some []
  | n :: q =>
    match fuel with
    | O => None
    | S f =>
      if memb n seen then bfs_loop g f q seen
      else option_map (cons n) (bfs_loop g f (q ++ layers g n) (n :: seen))
    end
  end.

(** thinc/model.py 400-420 [_walk_dfs]. [stack] has its top first; [its] is the dictionary
    [seen], mapping a node to what its [iter(node.layers)] has not produced yet. *)
Fixpoint dfs_loop (g : graph) (post : bool) (fuel : nat)
    (stack : list addr) (its : dict addr (list addr)) : option (list addr) :=
  match stack with
  | [] => Some []
  | top :: rest =>
    match fuel with
    | O => None
    | S f =>
      match dget top its with
      | Some (c :: cs) =>
        let its' := dset top cs its in
        if dmem c its' then dfs_loop g post f stack its'
        else
          let r := dfs_loop g post f (c :: stack) (dset c (layers g c) its') in
          if post then r else option_map (cons c) r
      | _ =>
        let r := dfs_loop g post f rest its in
        if post then option_map (cons top) r else r
      end
    end
  end.

Inductive order := Bfs | DfsPre | DfsPost.

(** Number of layer references in the graph; only used to bound the loops. *)
Definition edge_count (g : graph) : nat := list_sum_nat (map (@length addr) g).
Definition walk_fuel (g : graph) : nat := 2 * edge_count g + 2.

(** thinc/model.py 374-387 [walk]. The invalid-order ValueError is the absence of a
    constructor of [order]. *)
Definition walk_opt (g : graph) (o : order) (root : addr) : option (list addr) :=
  match o with
  | Bfs => bfs_loop g (walk_fuel g) [root] []
  | DfsPre => option_map (cons root)
                (dfs_loop g false (walk_fuel g) [root] [(root, layers g root)])
  | DfsPost => dfs_loop g true (walk_fuel g) [root] [(root, layers g root)]
  end.

(** The list of nodes the traversal yields. The traversal always terminates within
    [walk_fuel] (theorem [C01_walk_terminates]), so the default is never used. *)
Definition walk (g : graph) (o : order) (root : addr) : list addr :=
  match walk_opt g o root with Some l => l | None => [] end.
