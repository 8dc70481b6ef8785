(** Editing the layer graph: [replace_node] and [remove_node] (thinc/model.py). No proofs here. *)
From Coq Require Import String.
From Verif Require Export NodeModel.

Section Edit.
  Context {V A : Type}.
  Notation node := (node V A).
  Notation heap := (heap V A).

  (** thinc/model.py 460-462: the loop over [node.ref_names] in [replace_node]. [ref_names] is a
      tuple computed before the loop. The missing-object case cannot happen in Python. *)
  Fixpoint replace_refs (h : heap) (a old new : addr) (names : list string) : heap * result unit :=
    match names with
    | [] => (h, Ok tt)
    | nm :: names' =>
      match nth_error h a with
      | None => (h, Err KeyError)
      | Some n =>
        match get_ref n nm with
        | Err e => (h, Err e)
        | Ok r =>
          if Nat.eqb r old then
            match set_ref h a nm (Some new) with
            | (h', Ok _) => replace_refs h' a old new names'
            | (h', Err e) => (h', Err e)
            end
          else replace_refs h a old new names'
        end
      end
    end.

  (** thinc/model.py 453-462: the body of the loop over nodes. *)
  Fixpoint replace_loop (h : heap) (old new : addr) (nodes : list addr) (seen : bool)
    : heap * result bool :=
    match nodes with
    | [] => (h, Ok seen)
    | a :: nodes' =>
      if Nat.eqb a old then replace_loop h old new nodes' true
      else
        let h1 := upd h a (fun n => with_layers n
                    (map (fun l => if Nat.eqb l old then new else l) (n_layers n))) in
        let names := match nth_error h1 a with Some n => dkeys (n_refs n) | None => [] end in
        match replace_refs h1 a old new names with
        | (h2, Ok _) => replace_loop h2 old new nodes' seen
        | (h2, Err e) => (h2, Err e)
        end
    end.

  (** thinc/model.py 445-464 [replace_node]. *)
  Definition replace_node (h : heap) (root old new : addr) : heap * result bool :=
    replace_loop h old new (walk (graph_of h) DfsPost root) false.

  (** thinc/model.py 429-431: [while node in child.layers: child.layers.remove(node)] deletes every
      occurrence. *)
  Definition drop_layer (x : addr) (n : node) : node :=
    with_layers n (filter (fun l => negb (Nat.eqb l x)) (n_layers n)).

  (** thinc/model.py 434-437: the loop over [node.ref_names] in [remove_node]. *)
  Fixpoint prune_refs (h : heap) (tree : list addr) (a : addr) (names : list string)
    : heap * result unit :=
    match names with
    | [] => (h, Ok tt)
    | nm :: names' =>
      match nth_error h a with
      | None => (h, Err KeyError)
      | Some n =>
        match get_ref n nm with
        | Err e => (h, Err e)
        | Ok r =>
          if memb r tree then prune_refs h tree a names'
          else match set_ref h a nm None with
               | (h', Ok _) => prune_refs h' tree a names'
               | (h', Err e) => (h', Err e)
               end
        end
      end
    end.

  Fixpoint prune_loop (h : heap) (tree nodes : list addr) : heap * result unit :=
    match nodes with
    | [] => (h, Ok tt)
    | a :: nodes' =>
      let names := match nth_error h a with Some n => dkeys (n_refs n) | None => [] end in
      match prune_refs h tree a names with
      | (h', Ok _) => prune_loop h' tree nodes'
      | (h', Err e) => (h', Err e)
      end
    end.

  (** thinc/model.py 422-437 [remove_node]. [tree] is a Python set, so the order of the second
      loop is unspecified: [shuffle] is any reordering of the nodes. *)
  Definition remove_node (shuffle : list addr -> list addr) (h : heap) (root x : addr)
    : heap * result unit :=
    let h1 := fold_left (fun h a => upd h a (drop_layer x)) (walk (graph_of h) Bfs root) h in
    let tree := walk (graph_of h1) Bfs root in
    prune_loop h1 tree (shuffle tree).

  (** thinc/model.py 879-885 [wrap_model_recursive]; [wrapper] allocates the wrapping model and
      returns its address. *)
  Fixpoint wrap_loop (wrapper : heap -> addr -> heap * addr) (h : heap) (root : addr)
      (nodes : list addr) : heap * result unit :=
    match nodes with
    | [] => (h, Ok tt)
    | a :: nodes' =>
      let (h1, w) := wrapper h a in
      match replace_node h1 root a w with
      | (h2, Ok _) => wrap_loop wrapper h2 root nodes'
      | (h2, Err e) => (h2, Err e)
      end
    end.
  Definition wrap_model_recursive (wrapper : heap -> addr -> heap * addr) (h : heap) (root : addr)
    : heap * result addr :=
    match wrap_loop wrapper h root (walk (graph_of h) Bfs root) with
    | (h1, Ok _) => let (h2, w) := wrapper h1 root in (h2, Ok w)
    | (h1, Err e) => (h1, Err e)
    end.
End Edit.
