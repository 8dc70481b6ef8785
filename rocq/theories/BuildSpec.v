(** Vocabulary of the theorems about the construction of layers. *)
From Coq Require Import String.
From Verif Require Export DenseModel WInitModel BuildModel.
Local Open Scope string_scope.

Inductive combinator := Seq | Sum | Cat | Tup | Res.
Definition combinator_of (f : func) : option combinator :=
  match f with FChain => Some Seq | FAdd => Some Sum | FConcat => Some Cat | FTuplify => Some Tup | FResidual => Some Res | _ => None end.

Section BuildSpec.
  Context {T : Type} `{Num T}.

  (** What a model computes: a layer by itself, or a combination of what others compute. *)
  Inductive fexpr := ELeaf (n : bnode T) | EComb (k : combinator) (es : list fexpr).
  Inductive computes (h : list (bnode T)) : nat -> fexpr -> Prop :=
  | computes_leaf a n : nth_error h a = Some n -> combinator_of (b_func n) = None -> computes h a (ELeaf n)
  | computes_comb a n k es : nth_error h a = Some n -> combinator_of (b_func n) = Some k -> Forall2 (computes h) (b_layers n) es -> computes h a (EComb k es).
  (** The layers in an expression. *)
  Inductive leaf_of : fexpr -> bnode T -> Prop :=
  | leaf_here n : leaf_of (ELeaf n) n
  | leaf_in k es e n : In e es -> leaf_of e n -> leaf_of (EComb k es) n.
  (** One model is part of another. *)
  Inductive reaches (h : list (bnode T)) : nat -> nat -> Prop :=
  | reaches_self a : reaches h a a
  | reaches_layer a n l b : nth_error h a = Some n -> In l (b_layers n) -> reaches h l b -> reaches h a b.
  (** Models are only added, with new ids in order. *)
  Definition grows (s s' : bst T) (news : list (bnode T)) : Prop :=
    g_heap s' = (g_heap s ++ news)%list /\ g_id s' = (g_id s + Z.of_nat (length news))%Z /\
    forall k n, nth_error news k = Some n -> b_id n = (g_id s + 1 + Z.of_nat k)%Z.
  (** A dim of a model: not declared, not set, or set. *)
  Definition dim_state (s : bst T) (a : nat) (d : string) : option (option Z) :=
    match nth_error (g_heap s) a with Some n => dget d (b_dims n) | None => None end.

  (** The dense layers: the function that builds it, its name, its forward function, the default for [W], the dims besides
      nO and nI, and its attributes. *)
  Inductive dense_layer : (options T -> bact T nat) -> string -> func -> initfn -> dict string (option Z) -> dict string (attr T) -> Prop :=
  | d_relu : dense_layer Relu "relu" FRelu GlorotUniform [] []
  | d_mish : dense_layer Mish "mish" FMish GlorotUniform [] []
  | d_dish : dense_layer Dish "dish" FDish HeNormal [] []
  | d_gelu : dense_layer Gelu "gelu" FGelu HeNormal [] []
  | d_swish : dense_layer Swish "swish" FSwish HeNormal [] []
  | d_hard_swish : dense_layer HardSwish "hardswish" FHardSwish HeNormal [] []
  | d_mobilenet : dense_layer HardSwishMobilenet "hardswishmobilenet" FHardSwishMobilenet HeNormal [] []
  | d_maxout nP : dense_layer (Maxout nP) "maxout" FMaxout GlorotUniform [("nP", nP)] []
  | d_clipped slope offset min_val max_val : dense_layer (ClippedLinear slope offset min_val max_val) "clipped_linear" FClippedLinear GlorotUniform []
      [("slope", AFloat slope); ("offset", AFloat offset); ("min_val", AFloat min_val); ("max_val", AFloat max_val)].
  (** What a dense layer with options computes, if the last id before was [i]: the activation, then a normalization if it was asked
      for, then dropout if it was asked for. *)
  Definition dense_expr (i : Z) (name : string) (f : func) (W : initfn) (extra : dict string (option Z)) (attrs : dict string (attr T)) (o : options T) : fexpr :=
    let act := ELeaf (mkB (i + 1) name f [match o_W o with Some w => w | None => W end; match o_b o with Some b => b | None => ZeroInit end]
                        (("nO", o_nO o) :: ("nI", o_nI o) :: extra) ["W"; "b"] attrs []) in
    let norm := ELeaf (mkB (i + 2) "layernorm" FLayerNorm [] [("nI", o_nO o); ("nO", o_nO o)] ["G"; "b"] [] []) in
    let drop j r := ELeaf (mkB (i + j) "dropout" FDropout [] [] [] [("dropout_rate", AFloat r); ("is_enabled", ABool true)] []) in
    match o_normalize o, o_dropout o with
    | false, None => act
    | true, None => EComb Seq [act; norm]
    | false, Some r => EComb Seq [act; drop 2%Z r]
    | true, Some r => EComb Seq [EComb Seq [act; norm]; drop 4%Z r]
    end.
  (** The same options without [init_b]. *)
  Definition without_b (o : options T) : options T := mkOptions (o_nO o) (o_nI o) (o_W o) None (o_dropout o) (o_normalize o).
  (** The activation function of a ClippedLinear node, by its attributes. *)
  Definition clip_activation (n : bnode T) (x : T) : option T :=
    match dget "slope" (b_attrs n), dget "offset" (b_attrs n), dget "min_val" (b_attrs n), dget "max_val" (b_attrs n) with
    | Some (AFloat slope), Some (AFloat offset), Some (AFloat lo), Some (AFloat hi) => Some (clipped_linear slope offset lo hi x)
    | _, _, _, _ => None
    end.
  (** The node that [HashEmbed] makes for the table, if the last id before was [i]; [column] is set again at the end if there is none. *)
  Definition hash_node (i nO nV : Z) (seed column : option Z) (init : initfn) (dropout : option T) : bnode T :=
    mkB (i + 1) "hashembed" FHashEmbed [init] [("nO", Some nO); ("nV", Some nV); ("nI", None)] ["E"]
      (("column", match column with Some c => AInt c | None => ANone end) :: ("seed", AInt match seed with Some z => z | None => (i + 1)%Z end) ::
       match dropout with Some r => [("dropout_rate", AFloat r)] | None => [] end)%list [].
  Definition column_node (i c : Z) : bnode T := mkB (i + 2) "ints-getitem" FGetitem [] [] [] [("index", AColumn c)] [].
  (** As nodes of the model of initialization. *)
  Definition kind_of (f : func) : nat :=
    match f with FLinear => 0 | FSoftmax => 2 | FMaxout => 3 | FLayerNorm => 4 | FSigmoid => 10 | FEmbed => 12 | FHashEmbed => 13
    | FChain => 20 | FDropout | FNoop | FGetitem => 5 | _ => 1 end.
  Definition as_inode (n : bnode T) : inode (T := T) := fresh_node (b_id n) (b_name n) (kind_of (b_func n)) (b_layers n) (b_dims n) (b_params n).
End BuildSpec.
Arguments fexpr : clear implicits.
