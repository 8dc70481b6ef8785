(** Initialization and inference of dimensions: thinc/model.py 312-334 with the [init] functions of chain.py,
    add.py, concatenate.py, residual.py, tuplify.py, linear.py, relu.py, softmax.py, maxout.py and layernorm.py,
    and thinc/util.py 293-318. No proofs here.
    The nodes live in a heap. A model is written as the tree of its layers with the address of each node, so that
    a layer that occurs at several places is the same address. *)
From Coq Require Import String.
From Verif Require Export NodeModel OptModel SoftModel.

Section Init.
  Context {T : Type} `{Num T} `{Trans T}.
  Local Open Scope string_scope.

  (** Parameters are arrays of any shape; attributes play no role here *)
  Definition inode : Type := node (arr T) unit.
  (** The heap and the number of calls of initializers so far *)
  Record ist := mkIst { i_heap : list inode; i_draws : nat }.

  (** A computation that reads and changes the nodes and may raise; what was changed before an exception stays changed *)
  Definition act (A : Type) : Type := ist -> ist * result A.
  Definition pure {A} (x : A) : act A := fun s => (s, Ok x).
  Definition raise {A} (e : err) : act A := fun s => (s, Err e).
  Definition lift {A} (r : result A) : act A := fun s => (s, r).
  Definition seqa {A B} (m : act A) (k : A -> act B) : act B := fun s =>
    match m s with (s', Ok x) => k x s' | (s', Err e) => (s', Err e) end.
  Notation "'let!' x ':=' m 'in' k" := (seqa m (fun x => k)) (at level 200, x pattern, m at level 100, k at level 200).
  Notation "m ';!' k" := (seqa m (fun _ => k)) (at level 199, right associativity).
  (** [for x in l: f(x)] *)
  Fixpoint each {A} (f : A -> act unit) (l : list A) : act unit :=
    match l with [] => pure tt | x :: r => f x ;! each f r end.

  (** ** Access to a node *)
  Definition self (a : addr) : act inode := fun s =>
    (s, match nth_error (i_heap s) a with Some n => Ok n | None => Err MemFault end).
  Definition store (a : addr) (n : inode) : act unit := fun s => (mkIst (set_nth a n (i_heap s)) (i_draws s), Ok tt).
  Definition node_has_dim (a : addr) (name : string) : act (option bool) := let! n := self a in pure (has_dim n name).
  Definition node_get_dim (a : addr) (name : string) : act Z := let! n := self a in lift (get_dim n name).
  Definition node_set_dim (a : addr) (name : string) (v : Z) : act unit :=
    let! n := self a in let r := set_dim n name v false in store a (fst r) ;! lift (snd r).
  Definition node_set_param (a : addr) (name : string) (v : arr T) : act unit :=
    let! n := self a in store a (set_param n name (Some v)).
  (** [if x:] for a value of [has_dim] *)
  Definition truthy (b : option bool) : bool := match b with Some true => true | _ => false end.
  (** [b is not False] *)
  Definition not_false (b : option bool) : bool := match b with Some false => false | _ => true end.

  (** Parameters of the model of initialization: the initializers, where [draw n shape] is the result of the n-th call
      (their arithmetic is not modelled); [int] of a float; whether the backend is numpy. *)
  Variable draw : nat -> list Z -> result (arr T).
  Variable to_int : T -> Z.
  Variable numpy : bool.
  Definition initializer (shape : list Z) : act (arr T) := fun s =>
    (mkIst (i_heap s) (S (i_draws s)), draw (i_draws s) shape).

  (** util.py 293-318 [get_width] with [dim=-1]; [X.max()] of an empty array raises. The data of a Padded has three
      dimensions. *)
  Fixpoint get_width (X : value T) : result Z :=
    match X with
    | Sc _ => Ok 0%Z
    | Arr1 v => let* m := row_max v in Ok (to_int m + 1)%Z
    | Arr2 m => Ok (Z.of_nat (m_cols m))
    | Rag m _ _ => Ok (Z.of_nat (m_cols m))
    | Pad w _ _ _ _ => Ok (Z.of_nat w)
    | PyList l | PyTup l => match l with [] => Ok 0%Z | x :: _ => get_width x end
    end.
  (** [if X is not None: f(get_width(X))] *)
  Definition with_width (X : option (value T)) (f : Z -> act unit) : act unit :=
    match X with None => pure tt | Some X => let! w := lift (get_width X) in f w end.

  (** ** Layers without sublayers *)

  (** linear.py 49-60, relu.py 59-71, softmax.py 96-107 *)
  Definition dense_init (a : addr) (X Y : option (value T)) : act unit :=
    with_width X (node_set_dim a "nI") ;!
    with_width Y (node_set_dim a "nO") ;!
    let! nO := node_get_dim a "nO" in
    let! nI := node_get_dim a "nI" in
    let! W := initializer [nO; nI] in
    node_set_param a "W" W ;!
    let! nO := node_get_dim a "nO" in
    let! b := initializer [nO] in
    node_set_param a "b" b.
  (** maxout.py 69-83 *)
  Definition maxout_init (a : addr) (X Y : option (value T)) : act unit :=
    with_width X (node_set_dim a "nI") ;!
    with_width Y (node_set_dim a "nO") ;!
    let! nO := node_get_dim a "nO" in
    let! nP := node_get_dim a "nP" in
    let! nI := node_get_dim a "nI" in
    let! W := initializer [nO; nP; nI] in
    node_set_param a "W" W ;!
    let! nO := node_get_dim a "nO" in
    let! nP := node_get_dim a "nP" in
    let! b := initializer [nO; nP] in
    node_set_param a "b" b.
  (** [ops.alloc1f(n)] filled with x *)
  Definition filled (n : Z) (x : T) : result (arr T) :=
    if (n <? 0)%Z then Err ValueError else Ok (mkArr [Z.to_nat n] (repeat x (Z.to_nat n))).
  (** layernorm.py 39-55. The assertion at the end cannot fail: [get_dim] never returns None. *)
  Definition layernorm_init (a : addr) (X Y : option (value T)) : act unit :=
    match X with
    | Some X => let! w := lift (get_width X) in node_set_dim a "nI" w ;! node_set_dim a "nO" w
    | None => with_width Y (fun w => node_set_dim a "nI" w ;! node_set_dim a "nO" w)
    end ;!
    let! nI := node_get_dim a "nI" in
    let! h := node_has_dim a "nO" in
    (if truthy h then pure tt else node_set_dim a "nO" nI) ;!
    let! G := lift (filled nI (nZ 1)) in
    node_set_param a "G" G ;!
    let! b := lift (filled nI (nZ 0)) in
    node_set_param a "b" b ;!
    let! _ := node_get_dim a "nO" in pure tt.

  (** [n_func] tells what a layer is: 0 Linear, 1 Relu, 2 Softmax, 3 Maxout, 4 LayerNorm, others have no [init] and
      return their input (noop; Dropout when not training). *)
  Definition leaf_init (a : addr) (X Y : option (value T)) : act unit :=
    let! n := self a in
    match n_func n with
    | 0 | 1 | 2 => dense_init a X Y
    | 3 => maxout_init a X Y
    | 4 => layernorm_init a X Y
    | _ => pure tt
    end.

  (** The forward passes are those of DenseModel and SoftModel, on the vector made of the two parameters of the node. *)
  Definition pair_params (n : inode) (p q : string) : result (arr T * arr T) :=
    let* x := get_param n p in let* y := get_param n q in Ok (x, y).
  (** linear.py 34-39, relu.py 43-47, softmax.py 62-77: a bias that has not the length of the output (which numpy might
      broadcast) is not modelled and counts as an error. Softmax has the default temperature and normalizes. *)
  Definition dense_layer (kind : nat) (n : inode) : layer T := fun tr _ X =>
    let* Wb := pair_params n "W" "b" in
    match a_shape (fst Wb), a_shape (snd Wb) with
    | [nO; nI], [nO'] =>
      if Nat.eqb nO nO' then
        let theta := (a_data (fst Wb) ++ a_data (snd Wb))%list in
        let wo := 0%nat in let bo := (nO * nI)%nat in
        match kind with
        | 0%nat => Linear nO nI wo bo tr theta X
        | 1%nat => Relu numpy nO nI wo bo tr theta X
        | _ => Softmax true (nZ 1) nO nI wo bo tr theta X
        end
      else Err ValueError
    | _, _ => Err ValueError
    end.
  (** maxout.py 44-52 *)
  Definition maxout_layer (n : inode) : layer T := fun tr _ X =>
    let* nO := get_dim n "nO" in
    let* nP := get_dim n "nP" in
    let* nI := get_dim n "nI" in
    let* bW := pair_params n "b" "W" in
    if ((0 <=? nO) && (0 <=? nP) && (0 <=? nI))%Z then
      let nO := Z.to_nat nO in let nP := Z.to_nat nP in let nI := Z.to_nat nI in
      if Nat.eqb (length (a_data (snd bW))) (nO * nP * nI) && Nat.eqb (length (a_data (fst bW))) (nO * nP) then
        Maxout numpy nO nP nI 0 (nO * nP * nI) tr (a_data (snd bW) ++ a_data (fst bW))%list X
      else Err ValueError
    else Err ValueError.
  (** layernorm.py 22-26, 58-62 *)
  Definition layernorm_layer (n : inode) : layer T := fun tr _ X =>
    let* Gb := pair_params n "G" "b" in
    match a_shape (fst Gb), a_shape (snd Gb) with
    | [k], [k'] => if Nat.eqb k k' then LayerNorm k 0 k tr (a_data (fst Gb) ++ a_data (snd Gb))%list X else Err ValueError
    | _, _ => Err ValueError
    end.
  Definition leaf_layer (h : list inode) (a : addr) : layer T := fun tr theta X =>
    match nth_error h a with
    | None => Err MemFault
    | Some n =>
      match n_func n with
      | 0 | 1 | 2 => dense_layer (n_func n) n tr theta X
      | 3 => maxout_layer n tr theta X
      | 4 => layernorm_layer n tr theta X
      | _ => noop tr theta X
      end
    end.

  (** ** Models *)

  (** The tree of layers; each node with its address *)
  Inductive net : Type :=
  | NLeaf (a : addr)
  | NChain (a : addr) (ps : list net)
  | NAdd (a : addr) (ps : list net)
  | NConcat (a : addr) (ps : list net)
  | NResidual (a : addr) (p : net)
  | NTuplify (a : addr) (ps : list net).
  Definition addr_of (p : net) : addr :=
    match p with NLeaf a | NChain a _ | NAdd a _ | NConcat a _ | NResidual a _ | NTuplify a _ => a end.
  (** The forward pass with the parameters of the heap *)
  Fixpoint net_layer (h : list inode) (p : net) : layer T :=
    match p with
    | NLeaf a => leaf_layer h a
    | NChain _ ps => chain (map (net_layer h) ps)
    | NAdd _ ps => add (map (net_layer h) ps)
    | NConcat _ ps => concatenation (map (net_layer h) ps)
    | NResidual _ p => residual (net_layer h p)
    | NTuplify _ ps => tuplify (map (net_layer h) ps)
    end.
  (** model.py 330-334: the first item of what the layer returns *)
  Definition predict (p : net) (X : value T) : act (value T) := fun s =>
    (s, let* r := net_layer (i_heap s) p false [] X in Ok (fst r)).

  (** A sublayer as seen by an [init] function: its address, its initialization and its prediction *)
  Record sub := mkSub {
    s_addr : addr;
    s_init : option (value T) -> option (value T) -> act unit;
    s_predict : value T -> act (value T)
  }.
  (** [model.layers[0]] and [model.layers[-1]] *)
  Definition head_of (ls : list sub) : act sub := lift (match ls with [] => Err IndexError | l :: _ => Ok l end).
  Definition last_of (ls : list sub) : act sub := head_of (rev ls).
  (** [if layer.has_dim(name): model.set_dim(name, layer.get_dim(name))] *)
  Definition copy_dim (a : addr) (name : string) (l : sub) : act unit :=
    let! h := node_has_dim (s_addr l) name in
    if truthy h then (let! v := node_get_dim (s_addr l) name in node_set_dim a name v) else pure tt.
  (** [if node.has_dim(name) is not False: node.set_dim(name, w)] *)
  Definition offer_dim (a : addr) (name : string) (w : Z) : act unit :=
    let! h := node_has_dim a name in if not_false h then node_set_dim a name w else pure tt.

  (** chain.py 83-89: [curr_input] after the loop *)
  Fixpoint chain_walk (ls : list sub) (curr_input Y : option (value T)) : act (option (value T)) :=
    match ls with
    | [] => pure curr_input
    | l :: r =>
      let! h := node_has_dim (s_addr l) "nO" in
      (match h with None => s_init l curr_input Y | _ => s_init l curr_input None end) ;!
      let! next := match curr_input with None => pure None | Some x => let! y := s_predict l x in pure (Some y) end in
      chain_walk r next Y
    end.
  (** chain.py 67-102. [get_width(None)] raises ValueError. *)
  Definition chain_init (a : addr) (ls : list sub) (X Y : option (value T)) : act unit :=
    (match X, Y with
     | None, None =>
       each (fun l => s_init l None None) ls ;!
       let! first := head_of ls in copy_dim a "nI" first ;!
       let! last := last_of ls in copy_dim a "nO" last
     | _, _ => pure tt
     end) ;!
    let! out := chain_walk ls X Y in
    let! first := head_of ls in
    copy_dim a "nI" first ;!
    let! h := node_has_dim a "nO" in
    match h with
    | None =>
      fun s =>
        match (let! w := lift (match out with Some y => get_width y | None => Err ValueError end) in node_set_dim a "nO" w) s with
        | (s', Err ValueError) => (let! last := last_of ls in copy_dim a "nO" last) s'
        | r => r
        end
    | _ => pure tt
    end.
  (** add.py 51-68; util.py [get_width] is called once for every layer, always with the same result *)
  Definition add_init (a : addr) (ls : list sub) (X Y : option (value T)) : act unit :=
    with_width X (fun w => offer_dim a "nI" w ;! each (fun l => offer_dim (s_addr l) "nI" w) ls) ;!
    with_width Y (fun w => offer_dim a "nO" w ;! each (fun l => offer_dim (s_addr l) "nO" w) ls) ;!
    each (fun l => s_init l X Y) ls ;!
    let! first := head_of ls in
    let! nO := node_get_dim (s_addr first) "nO" in
    node_set_dim a "nO" nO.
  (** [all([layer.has_dim("nO") for layer in model.layers])] *)
  Fixpoint all_have (name : string) (ls : list sub) : act bool :=
    match ls with
    | [] => pure true
    | l :: r => let! h := node_has_dim (s_addr l) name in let! hs := all_have name r in pure (truthy h && hs)
    end.
  (** [sum(layer.get_dim("nO") for layer in model.layers)] *)
  Fixpoint sum_dims (name : string) (ls : list sub) : act Z :=
    match ls with
    | [] => pure 0%Z
    | l :: r => let! v := node_get_dim (s_addr l) name in let! vs := sum_dims name r in pure (v + vs)%Z
    end.
  (** concatenate.py 143-155 *)
  Definition concat_init (a : addr) (ls : list sub) (X Y : option (value T)) : act unit :=
    with_width X (fun w => offer_dim a "nI" w ;! each (fun l => offer_dim (s_addr l) "nI" w) ls) ;!
    each (fun l => s_init l X Y) ls ;!
    let! all := all_have "nO" ls in
    if all then (let! v := sum_dims "nO" ls in node_set_dim a "nO" v) else pure tt.
  (** residual.py 53-64 *)
  Definition residual_init (a : addr) (l : sub) (X Y : option (value T)) : act unit :=
    let! h := node_has_dim (s_addr l) "nO" in
    (match h with None => s_init l X Y | _ => s_init l X None end) ;!
    copy_dim a "nO" l ;!
    copy_dim a "nI" l.
  (** [Y[ii]] for lists and tuples; rows of arrays and other values of Y are not modelled and count as errors *)
  Definition item (Y : value T) (ii : nat) : result (value T) :=
    match Y with
    | PyList l | PyTup l => match nth_error l ii with Some y => Ok y | None => Err IndexError end
    | _ => Err TypeError
    end.
  (** tuplify.py 61-65 *)
  Fixpoint tuplify_walk (ls : list sub) (ii : nat) (X Y : option (value T)) : act unit :=
    match ls with
    | [] => pure tt
    | l :: r =>
      let! h := node_has_dim (s_addr l) "nO" in
      (match Y, h with
       | Some Y, None => let! y := lift (item Y ii) in s_init l X (Some y)
       | _, _ => s_init l X None
       end) ;!
      tuplify_walk r (S ii) X Y
    end.
  (** tuplify.py 50-69 *)
  Definition tuplify_init (a : addr) (ls : list sub) (X Y : option (value T)) : act unit :=
    (match X, Y with
     | None, None =>
       each (fun l => s_init l None None) ls ;!
       let! first := head_of ls in copy_dim a "nI" first
     | _, _ => pure tt
     end) ;!
    tuplify_walk ls 0 X Y ;!
    let! first := head_of ls in copy_dim a "nI" first.

  (** model.py 312-320: [initialize] calls the layer's [init]. Data validation (off by default) is not modelled. *)
  Fixpoint initialize (p : net) : option (value T) -> option (value T) -> act unit :=
    match p with
    | NLeaf a => leaf_init a
    | NChain a ps => chain_init a (map (fun q => mkSub (addr_of q) (initialize q) (predict q)) ps)
    | NAdd a ps => add_init a (map (fun q => mkSub (addr_of q) (initialize q) (predict q)) ps)
    | NConcat a ps => concat_init a (map (fun q => mkSub (addr_of q) (initialize q) (predict q)) ps)
    | NResidual a p => residual_init a (mkSub (addr_of p) (initialize p) (predict p))
    | NTuplify a ps => tuplify_init a (map (fun q => mkSub (addr_of q) (initialize q) (predict q)) ps)
    end.

  (** ** Constructors *)

  (** A new node; the given id stands for [Model.global_id] (model.py 118-120) *)
  Definition fresh_node (id : Z) (name : string) (func : nat) (layers : list addr) (dims : dict string (option Z)) (params : list string) : inode :=
    mkNode id name func layers [] dims (map (fun k => (k, false)) params) [] [] [] [].
  (** linear.py 15-32; relu.py and softmax.py declare the same dims and params *)
  Definition new_linear (id : Z) (nO nI : option Z) : inode := fresh_node id "linear" 0 [] [("nO", nO); ("nI", nI)] ["W"; "b"].
  (** maxout.py 16-41 *)
  Definition new_maxout (id : Z) (nO nI nP : option Z) : inode := fresh_node id "maxout" 3 [] [("nO", nO); ("nI", nI); ("nP", nP)] ["W"; "b"].
  (** layernorm.py 13-20 *)
  Definition new_layernorm (id : Z) (nI : option Z) : inode := fresh_node id "layernorm" 4 [] [("nI", nI); ("nO", nI)] ["G"; "b"].
  (** dropout.py 12-18 *)
  Definition new_dropout (id : Z) : inode := fresh_node id "dropout" 5 [] [] [].
  (** chain.py 26-37: the dims of a chain whose first layer is [first] and last layer is [last] *)
  Definition chain_dims (first last : inode) : dict string (option Z) :=
    let nO := match dget "nO" (n_dims last) with Some (Some v) => Some v | _ => None end in
    match dget "nI" (n_dims first) with
    | None => [("nO", nO)]
    | Some nI => [("nO", nO); ("nI", nI)]
    end.
  (** add.py 25-28, concatenate.py 42-45 *)
  Definition join_dims (layers : list inode) : dict string (option Z) :=
    if forallb (fun n => not_false (has_dim n "nI")) layers then [("nO", None); ("nI", None)] else [("nO", None)].
  (** residual.py 21-24 *)
  Definition residual_dims (n : inode) : dict string (option Z) :=
    [("nO", match dget "nO" (n_dims n) with Some v => v | None => None end);
     ("nI", match dget "nI" (n_dims n) with Some v => v | None => None end)].
End Init.
