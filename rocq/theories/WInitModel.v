(** Initialization of the layers that InitModel leaves out: sigmoid.py 53-65, multisoftmax.py 48-56, embed.py 74-83,
    hashembed.py 94-101, cauchysimilarity.py 47-55, parametricattention.py 33-41, parametricattention_v2.py 55-73,
    sparselinear.pyx 61-68, lstm.py 65-116, and the wrappers with_list, with_ragged, with_padded, with_array,
    with_array2d, with_reshape, with_getitem, with_flatten, with_flatten_v2, map_list, uniqued, resizable, with_cpu,
    siamese and bidirectional, with the combinators of InitModel around them. No proofs here.
    mish.py, dish.py, gelu.py, swish.py, hard_swish.py, hard_swish_mobilenet.py and clipped_linear.py have the [init] of
    linear.py and count as kind 1. *)
From Coq Require Import String.
From Verif Require Export InitModel BidiModel.

(** What a wrapper does to the data before it initializes its layer *)
Inductive conversion := CList | CRagged | CPadded | CArray | CArray2d | CReshape | CFlatten | CFlatten2 | CHstack.
(** The models with sublayers *)
Inductive comb :=
| KChain | KAdd | KConcat | KResidual | KTuplify
| KList | KRagged | KPadded | KArray | KArray2d | KReshape | KGetitem (idx : nat) | KFlatten | KFlatten2 | KMapList
| KUniqued | KResizable | KCpu | KSiamese | KBidirectional | KAttention.
(** The tree of layers; each node with its address *)
Inductive wnet : Type :=
| WLeaf (a : addr)
| WNode (c : comb) (a : addr) (ps : list wnet).
Definition waddr (p : wnet) : addr := match p with WLeaf a => a | WNode _ a _ => a end.

Section WInit.
  Context {T : Type} `{Num T} `{Trans T}.
  Local Open Scope string_scope.
  Notation "'let!' x ':=' m 'in' k" := (seqa m (fun x => k)) (at level 200, x pattern, m at level 100, k at level 200).
  Notation "m ';!' k" := (seqa m (fun _ => k)) (at level 199, right associativity).

  Notation act := (act (T := T)).
  Notation sub := (sub (T := T)).
  (** As in InitModel: the initializers and [int] of a float. Further: the conversions of data (C31 is about what they
      do), and the forward passes, which may read the parameters of all nodes. *)
  Variable draw : nat -> list Z -> result (arr T).
  Variable to_int : T -> Z.
  Variable conv : conversion -> value T -> result (value T).
  Variable fwd : list (inode (T := T)) -> wnet -> value T -> result (value T).

  (** [ops.alloc(shape)]; a negative width raises *)
  Definition alloc_zeros (shape : list Z) : result (arr T) :=
    if forallb (fun z => 0 <=? z)%Z shape
    then Ok (mkArr (map Z.to_nat shape) (repeat (nZ 0) (fold_right Nat.mul 1 (map Z.to_nat shape))))
    else Err ValueError.

  (** ** Layers without sublayers *)

  (** [if X is not None and model.has_dim(name) is None: model.set_dim(name, get_width(X))] *)
  Definition fill_dim (a : addr) (name : string) (X : option (value T)) : act unit :=
    match X with
    | None => pure tt
    | Some X => let! h := node_has_dim a name in
                match h with None => let! w := lift (get_width to_int X) in node_set_dim a name w | _ => pure tt end
    end.
  (** sigmoid.py 53-65 *)
  Definition sigmoid_init (a : addr) (X Y : option (value T)) : act unit :=
    fill_dim a "nI" X ;!
    fill_dim a "nO" Y ;!
    let! nO := node_get_dim a "nO" in
    let! nI := node_get_dim a "nI" in
    let! W := initializer draw [nO; nI] in
    node_set_param a "W" W ;!
    let! nO := node_get_dim a "nO" in
    let! b := initializer draw [nO] in
    node_set_param a "b" b.
  (** multisoftmax.py 48-56 *)
  Definition multisoftmax_init (a : addr) (X Y : option (value T)) : act unit :=
    with_width to_int X (node_set_dim a "nI") ;!
    let! nO := node_get_dim a "nO" in
    let! nI := node_get_dim a "nI" in
    let! W := lift (alloc_zeros [nO; nI]) in
    node_set_param a "W" W ;!
    let! b := lift (alloc_zeros [nO]) in
    node_set_param a "b" b.
  (** embed.py 74-83 *)
  Definition embed_init (a : addr) (X Y : option (value T)) : act unit :=
    with_width to_int Y (node_set_dim a "nO") ;!
    let! nV := node_get_dim a "nV" in
    let! nO := node_get_dim a "nO" in
    let! E := initializer draw [nV; nO] in
    node_set_param a "E" E.
  (** hashembed.py 94-101 *)
  Definition hashembed_init (a : addr) (X Y : option (value T)) : act unit :=
    let! nV := node_get_dim a "nV" in
    let! nO := node_get_dim a "nO" in
    let! E := initializer draw [nV; nO] in
    node_set_param a "E" E.
  (** cauchysimilarity.py 47-55; [X[0]] of lists and tuples *)
  Definition cauchy_init (a : addr) (X Y : option (value T)) : act unit :=
    match X with
    | None => pure tt
    | Some X => let! x := lift (item X 0) in let! w := lift (get_width to_int x) in node_set_dim a "nI" w
    end ;!
    let! nI := node_get_dim a "nI" in
    let! W := lift (filled nI (nZ 1)) in
    node_set_param a "W" W.
  (** parametricattention.py 38-41, parametricattention_v2.py 65-68; the random numbers count as a call of an initializer *)
  Definition query_init (a : addr) : act unit :=
    let! nO := node_get_dim a "nO" in
    let! Q := initializer draw [nO] in
    node_set_param a "Q" Q.
  (** parametricattention.py 33-41 *)
  Definition attention_init (a : addr) (X Y : option (value T)) : act unit :=
    with_width to_int X (node_set_dim a "nO") ;! query_init a.
  (** sparselinear.pyx 61-68 *)
  Definition sparselinear_init (a : addr) (X Y : option (value T)) : act unit :=
    with_width to_int Y (node_set_dim a "nO") ;!
    let! nO := node_get_dim a "nO" in
    let! len := node_get_dim a "length" in
    let! W := lift (alloc_zeros [nO * len]%Z) in
    node_set_param a "W" W ;!
    let! b := lift (alloc_zeros [nO]) in
    node_set_param a "b" b.
  (** [params.append(init((..)))] for every shape, in order *)
  Fixpoint draw_all (shapes : list (list Z)) : act (list (arr T)) :=
    match shapes with
    | [] => pure []
    | sh :: r => let! x := initializer draw sh in let! xs := draw_all r in pure (x :: xs)
    end.
  (** lstm.py 88-108: the shapes of the pieces, [layers] layers, the first with inputs of width layer_nI *)
  Definition lstm_dir (nH layer_nI : Z) : list (list Z) :=
    (repeat [nH; layer_nI] 4 ++ repeat [nH] 4 ++ repeat [nH; nH] 4 ++ repeat [nH] 4)%list.
  Fixpoint lstm_shapes (layers : nat) (dirs nH layer_nI : Z) : list (list Z) :=
    match layers with
    | 0 => []
    | S d => (concat (repeat (lstm_dir nH layer_nI) (Z.to_nat dirs)) ++ lstm_shapes d dirs nH (nH * dirs))%list
    end.
  (** lstm.py 112-114 *)
  Definition lstm_expected (depth dirs nH nI : Z) : Z :=
    (fold_left (fun e _ => e + (4 * dirs * (nH + nH * dirs) * nH + dirs * (8 * nH))) (repeat tt (Z.to_nat (depth - 1)))
       (4 * dirs * nH * (nH + nI) + dirs * (8 * nH)))%Z.
  (** lstm.py 65-116. [int(a / b)] is the quotient rounded towards zero (exact below 2^53). *)
  Definition lstm_init (a : addr) (X Y : option (value T)) : act unit :=
    with_width to_int X (node_set_dim a "nI") ;!
    with_width to_int Y (node_set_dim a "nO") ;!
    let! nO := node_get_dim a "nO" in
    let! dirs := node_get_dim a "dirs" in
    let! nH := lift (if (dirs =? 0)%Z then Err ZeroDivisionError else Ok (Z.quot nO dirs)) in
    let! nI := node_get_dim a "nI" in
    let! depth := node_get_dim a "depth" in
    let! dirs := node_get_dim a "dirs" in
    let! params := draw_all (lstm_shapes (Z.to_nat depth) dirs nH nI) in
    let! all := lift (match params with [] => Err ValueError | _ => Ok (concat (map a_data params)) end) in
    node_set_param a "LSTM" (mkArr [length all] all) ;!
    let! HC0 := lift (alloc_zeros [2; depth; dirs; nH]%Z) in
    node_set_param a "HC0" HC0 ;!
    let! n := self a in
    let! P := lift (get_param n "LSTM") in
    lift (if (Z.of_nat (length (a_data P)) =? lstm_expected depth dirs nH nI)%Z then Ok tt else Err AssertionError).

  (** [n_func]: as in InitModel, and 10 Sigmoid, 11 MultiSoftmax, 12 Embed, 13 HashEmbed, 14 CauchySimilarity,
      15 ParametricAttention, 16 SparseLinear, 17 LSTM *)
  Definition wleaf_init (a : addr) (X Y : option (value T)) : act unit :=
    let! n := self a in
    match n_func n with
    | 10 => sigmoid_init a X Y
    | 11 => multisoftmax_init a X Y
    | 12 => embed_init a X Y
    | 13 => hashembed_init a X Y
    | 14 => cauchy_init a X Y
    | 15 => attention_init a X Y
    | 16 => sparselinear_init a X Y
    | 17 => lstm_init a X Y
    | _ => leaf_init draw to_int a X Y
    end.

  (** ** Wrappers *)

  (** [f(X) if X is not None else None] *)
  Definition if_some {A B} (f : A -> result B) (X : option A) : act (option B) :=
    match X with None => pure None | Some x => let! y := lift (f x) in pure (Some y) end.
  (** [l = model.layers[i]] and what follows *)
  Definition at_layer {A} (ls : list sub) (i : nat) (k : sub -> act A) : act A :=
    match nth_error ls i with Some l => k l | None => raise IndexError end.
  Notation "'let@' x ':=' ls '.[' i ']' 'in' k" := (at_layer ls i (fun x => k)) (at level 200, x ident, ls at level 0, i at level 0, k at level 200).
  (** with_list.py 33-39, with_ragged.py 39-47, with_padded.py 46-52, with_flatten.py 47-53, with_flatten_v2.py 58-66:
      X is converted before Y, both before the layer is initialized *)
  Definition pass_init (ls : list sub) (cX cY : conversion) (X Y : option (value T)) : act unit :=
    let@ l := ls.[0] in
    let! X := if_some (conv cX) X in
    let! Y := if_some (conv cY) Y in
    s_init l X Y.
  (** [for dim_name in layer.dim_names: value = layer.maybe_get_dim(dim_name); if value is not None: model.set_dim(dim_name, value)] *)
  Definition copy_dims (a : addr) (l : sub) : act unit :=
    let! n := self (s_addr l) in
    each (fun name => let! n := self (s_addr l) in
                      match dget name (n_dims n) with Some (Some v) => node_set_dim a name v | _ => pure tt end) (dkeys (n_dims n)).
  (** with_array.py 45-56, with_array2d.py 45-56 *)
  Definition array_init (a : addr) (ls : list sub) (c : conversion) (X Y : option (value T)) : act unit :=
    pass_init ls c c X Y ;! let@ l := ls.[0] in copy_dims a l.
  (** with_reshape.py 40-56 *)
  Definition reshape_init (a : addr) (ls : list sub) (X Y : option (value T)) : act unit :=
    let@ l := ls.[0] in
    (match X, Y with None, None => s_init l None None | _, _ => pure tt end) ;!
    let! X := if_some (conv CReshape) X in
    let! Y := if_some (conv CReshape) Y in
    s_init l X Y ;! copy_dim a "nI" l ;! copy_dim a "nO" l.
  (** with_getitem.py 37-43; [X[idx]] of lists and tuples with an index that is not negative *)
  Definition getitem_init (ls : list sub) (idx : nat) (X Y : option (value T)) : act unit :=
    let! X := if_some (fun X => item X idx) X in
    let! Y := if_some (fun Y => item Y idx) Y in
    let@ l := ls.[0] in
    s_init l X Y.
  (** map_list.py 31-36: [X[0] if X else None]; the truth of an array is not modelled and counts as an error *)
  Definition first_item (X : option (value T)) : result (option (value T)) :=
    match X with
    | None => Ok None
    | Some (PyList []) | Some (PyTup []) => Ok None
    | Some (PyList (x :: _)) | Some (PyTup (x :: _)) => Ok (Some x)
    | Some _ => Err ValueError
    end.
  Definition map_list_init (ls : list sub) (X Y : option (value T)) : act unit :=
    let@ l := ls.[0] in
    let! X := lift (first_item X) in
    let! Y := lift (first_item Y) in
    s_init l X Y.
  (** uniqued.py 57-65 *)
  Definition uniqued_init (a : addr) (ls : list sub) (X Y : option (value T)) : act unit :=
    let@ l := ls.[0] in
    s_init l X Y ;! copy_dim a "nI" l ;! copy_dim a "nO" l.
  (** resizable.py 34-38, with_cpu.py 35-36 *)
  Definition same_init (ls : list sub) (X Y : option (value T)) : act unit :=
    let@ l := ls.[0] in s_init l X Y.
  (** siamese.py 44-53 *)
  Definition siamese_init (a : addr) (ls : list sub) (X Y : option (value T)) : act unit :=
    let! X :=
      match X with
      | None => pure None
      | Some X =>
        let@ l := ls.[0] in
        let! x1 := lift (item X 1) in
        let! w := lift (get_width to_int x1) in
        node_set_dim (s_addr l) "nI" w ;!
        let! x0 := lift (item X 0) in
        s_init l (Some x0) None ;!
        let! y0 := s_predict l x0 in
        let! y1 := s_predict l x1 in
        pure (Some (PyTup [y0; y1]))
      end in
    let@ sim := ls.[1] in
    s_init sim X Y ;!
    let@ l := ls.[0] in
    let! nI := node_get_dim (s_addr l) "nI" in
    node_set_dim a "nI" nI ;!
    let! nO := node_get_dim (s_addr sim) "nO" in
    node_set_dim a "nO" nO.
  (** bidirectional.py 38-43 *)
  Definition bidirectional_init (ls : list sub) (X Y : option (value T)) : act unit :=
    let! Y12 := if_some split_padded Y in
    let@ l2r := ls.[0] in
    s_init l2r X (option_map fst Y12) ;!
    let@ r2l := ls.[1] in
    s_init r2l X (option_map snd Y12).
  (** types.py 1188-1194 [dataXd], which only Ragged has *)
  Definition data_xd (X : value T) : result (value T) :=
    match X with Rag m w _ => Ok (Arr2 (mkM w (m_rows m))) | _ => Err AttributeError end.
  (** parametricattention_v2.py 55-73. The reference [key_transform] is the only layer. [if width:] is false for 0. *)
  Definition attention2_init (a : addr) (ls : list sub) (X Y : option (value T)) : act unit :=
    let@ key := ls.[0] in
    let! width := if_some (get_width to_int) X in
    (match width with
     | Some w =>
       if (w =? 0)%Z then pure tt
       else node_set_dim a "nO" w ;!
            let! h := node_has_dim (s_addr key) "nO" in
            if truthy h then node_set_dim (s_addr key) "nO" w else pure tt
     | None => pure tt
     end) ;!
    query_init a ;!
    let! X := if_some data_xd X in
    let! Y := if_some data_xd Y in
    s_init key X Y.

  Definition node_init (c : comb) (a : addr) (ls : list sub) (X Y : option (value T)) : act unit :=
    match c with
    | KChain => chain_init to_int a ls X Y
    | KAdd => add_init to_int a ls X Y
    | KConcat => concat_init to_int a ls X Y
    | KResidual => let@ l := ls.[0] in residual_init a l X Y
    | KTuplify => tuplify_init a ls X Y
    | KList => pass_init ls CList CList X Y
    | KRagged => pass_init ls CRagged CRagged X Y
    | KPadded => pass_init ls CPadded CPadded X Y
    | KArray => array_init a ls CArray X Y
    | KArray2d => array_init a ls CArray2d X Y
    | KReshape => reshape_init a ls X Y
    | KGetitem idx => getitem_init ls idx X Y
    | KFlatten => pass_init ls CFlatten CHstack X Y
    | KFlatten2 => pass_init ls CFlatten2 CHstack X Y
    | KMapList => map_list_init ls X Y
    | KUniqued => uniqued_init a ls X Y
    | KResizable | KCpu => same_init ls X Y
    | KSiamese => siamese_init a ls X Y
    | KBidirectional => bidirectional_init ls X Y
    | KAttention => attention2_init a ls X Y
    end.
  (** model.py 330-334 *)
  Definition wpredict (p : wnet) (X : value T) : act (value T) := fun s => (s, fwd (i_heap s) p X).
  (** model.py 312-320 *)
  Fixpoint winitialize (p : wnet) : option (value T) -> option (value T) -> act unit :=
    match p with
    | WLeaf a => wleaf_init a
    | WNode c a ps => node_init c a (map (fun q => mkSub (waddr q) (winitialize q) (wpredict q)) ps)
    end.

  (** ** Constructors *)

  (** sigmoid.py 29-36 *)
  Definition new_sigmoid (id : Z) (nO nI : option Z) : inode (T := T) := fresh_node id "sigmoid" 10 [] [("nO", nO); ("nI", nI)] ["W"; "b"].
  (** multisoftmax.py 19-26 *)
  Definition new_multisoftmax (id : Z) (nOs : list Z) (nI : option Z) : inode (T := T) :=
    fresh_node id "multisoftmax" 11 [] [("nO", Some (fold_right Z.add 0%Z nOs)); ("nI", nI)] ["W"; "b"].
  (** hashembed.py 39-46 *)
  Definition new_hashembed (id : Z) (nO nV : Z) : inode (T := T) := fresh_node id "hashembed" 13 [] [("nO", Some nO); ("nV", Some nV); ("nI", None)] ["E"].
  (** cauchysimilarity.py 17-23 *)
  Definition new_cauchy (id : Z) (nI : option Z) : inode (T := T) := fresh_node id "cauchy_similarity" 14 [] [("nI", nI); ("nO", Some 1%Z)] ["W"].
  (** lstm.py 24-40 *)
  Definition new_lstm (id : Z) (nO nI : option Z) (bi : bool) (depth : Z) : result (inode (T := T)) :=
    if (depth =? 0)%Z then Err ValueError
    else Ok (fresh_node id "lstm" 17 [] [("nO", nO); ("nI", nI); ("depth", Some depth); ("dirs", Some (if bi then 2 else 1)%Z)] ["LSTM"; "HC0"]).
  (** with_list.py 10-18, with_padded.py 12-20, with_cpu.py 11-22, resizable.py 10-26, with_array.py 15-27,
      with_array2d.py 15-27: [dims={name: layer.maybe_get_dim(name) for name in layer.dim_names}] *)
  Definition new_wrapper (id : Z) (name : string) (l : addr) (n : inode (T := T)) : inode (T := T) := fresh_node id name 20 [l] (n_dims n) [].
  (** siamese.py 13-25: [get_dim] raises for a dim that is not set *)
  Definition new_siamese (id : Z) (l1 l2 : addr) (n1 n2 : inode (T := T)) : result (inode (T := T)) :=
    let* nI := get_dim n1 "nI" in
    let* nO := get_dim n2 "nO" in
    Ok (fresh_node id "siamese" 20 [l1; l2] [("nI", Some nI); ("nO", Some nO)] []).
  (** parametricattention_v2.py 17-34 *)
  Definition new_attention2 (id : Z) (nO : option Z) (key : addr) : inode (T := T) := fresh_node id "para-attn" 18 [key] [("nO", nO)] ["Q"].
End WInit.
