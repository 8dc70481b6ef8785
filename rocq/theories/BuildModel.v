(** Construction of layers: what the functions that users call to build models put together, in thinc/layers/relu.py, mish.py,
    dish.py, gelu.py, swish.py, hard_swish.py, hard_swish_mobilenet.py, clipped_linear.py, maxout.py, linear.py, sigmoid.py,
    softmax.py, layernorm.py, dropout.py, embed.py, hashembed.py, array_getitem.py, noop.py, chain.py, add.py, concatenate.py,
    tuplify.py and residual.py. No proofs here. *)
From Coq Require Import String.
From Verif Require Export NodeModel NumModel.
Local Open Scope string_scope.

(** Functions for initial values: those of thinc/initializers.py, or one that the user gives *)
Inductive initfn := GlorotUniform | HeNormal | ZeroInit | UniformInit | UserInit (k : nat).
(** The [forward] function of a model; [FUser] is one that the user defines *)
Inductive func :=
| FLinear | FRelu | FMish | FDish | FGelu | FSwish | FHardSwish | FHardSwishMobilenet | FClippedLinear | FMaxout | FSigmoid
| FSoftmax | FLayerNorm | FDropout | FEmbed | FHashEmbed | FGetitem | FNoop | FChain | FAdd | FConcat | FTuplify | FResidual
| FUser (k : nat).

Section Build.
  Context {T : Type} `{Num T}.

  (** Values of attributes; [AColumn c] is the index [(slice(0, None), c)] *)
  Inductive attr := ANone | ABool (b : bool) | AInt (z : Z) | AFloat (x : T) | AColumn (c : Z).
  (** A [Model]; [b_inits] are the functions bound in its [init]. Parameters are never set here. *)
  Record bnode := mkB {
    b_id : Z; b_name : string; b_func : func; b_inits : list initfn; b_dims : dict string (option Z); b_params : list string;
    b_attrs : dict string attr; b_layers : list nat }.
  (** [Model.global_id] and all models *)
  Record bst := mkSt { g_id : Z; g_heap : list bnode }.
  Definition bact (A : Type) : Type := bst -> bst * result A.
  Definition ret {A} (x : A) : bact A := fun s => (s, Ok x).
  Definition fail {A} (e : err) : bact A := fun s => (s, Err e).
  Definition andthen {A B} (m : bact A) (k : A -> bact B) : bact B := fun s =>
    match m s with (s, Ok x) => k x s | (s, Err e) => (s, Err e) end.
  Notation "'let!' x ':=' m 'in' k" := (andthen m (fun x => k)) (at level 200, x pattern, m at level 100, k at level 200).

  (** model.py 85-129 *)
  Definition new_model (name : string) (f : func) (inits : list initfn) (dims : dict string (option Z)) (params : list string)
      (attrs : dict string attr) (layers : list nat) : bact nat := fun s =>
    (mkSt (g_id s + 1)%Z (g_heap s ++ [mkB (g_id s + 1)%Z name f inits dims params attrs layers])%list, Ok (length (g_heap s))).
  (** Reading and changing a model *)
  Definition node_at (a : nat) : bact bnode := fun s => match nth_error (g_heap s) a with Some n => (s, Ok n) | None => (s, Err MemFault) end.
  Fixpoint nodes_at (l : list nat) : bact (list bnode) :=
    match l with [] => ret [] | a :: l => let! n := node_at a in let! ns := nodes_at l in ret (n :: ns) end.
  Fixpoint replace (l : list bnode) (a : nat) (n : bnode) : list bnode :=
    match l, a with [], _ => [] | _ :: l, 0 => n :: l | x :: l, S a => x :: replace l a n end.
  Definition change (a : nat) (f : bnode -> bnode) : bact unit := fun s =>
    match nth_error (g_heap s) a with Some n => (mkSt (g_id s) (replace (g_heap s) a (f n)), Ok tt) | None => (s, Err MemFault) end.
  (** [model.layers.extend(layers)] *)
  Definition extend (a : nat) (ls : list nat) : bact unit :=
    change a (fun n => mkB (b_id n) (b_name n) (b_func n) (b_inits n) (b_dims n) (b_params n) (b_attrs n) (b_layers n ++ ls)%list).
  (** [model.attrs[key] = v] *)
  Definition set_attr (a : nat) (key : string) (v : attr) : bact unit :=
    change a (fun n => mkB (b_id n) (b_name n) (b_func n) (b_inits n) (b_dims n) (b_params n) (dset key v (b_attrs n)) (b_layers n)).
  (** model.py 176-185 [has_dim] and 187-196 [get_dim]: a dim that is set, in one *)
  Definition dim_of (n : bnode) (d : string) : option Z := match dget d (b_dims n) with Some (Some v) => Some v | _ => None end.
  (** [has_dim(d) in [True, None]] *)
  Definition knows_dim (n : bnode) (d : string) : bool := match dget d (b_dims n) with Some _ => true | None => false end.

  (** ** Combinators *)

  (** chain.py 18-45: needs at least two layers *)
  Definition chain (layers : list nat) : bact nat :=
    match layers with
    | first :: _ :: _ =>
        let! ns := nodes_at layers in
        let! n1 := node_at first in
        let! n2 := node_at (last layers first) in
        let dims := ("nO", dim_of n2 "nO") :: (if knows_dim n1 "nI" then [("nI", dim_of n1 "nI")] else []) in
        new_model (String.concat ">>" (map b_name ns)) FChain [] dims [] [] layers
    | _ => fail TypeError
    end.
  (** add.py 24-27, concatenate.py 42-45 *)
  Definition joint_dims (ns : list bnode) : dict string (option Z) :=
    if forallb (fun n => knows_dim n "nI") ns then [("nO", None); ("nI", None)] else [("nO", None)].
  (** add.py 13-29: needs at least two layers; the first one, if its name is "add", gets the others as layers *)
  Definition add (layers : list nat) : bact nat :=
    match layers with
    | first :: ((_ :: _) as rest) =>
        let! n := node_at first in
        if String.eqb (b_name n) "add" then let! _ := extend first rest in ret first
        else let! ns := nodes_at layers in new_model "add" FAdd [] (joint_dims ns) [] [] layers
    | _ => fail TypeError
    end.
  (** noop.py 10-12 *)
  Definition noop (layers : list nat) : bact nat := new_model "noop" FNoop [] [] [] [] layers.
  (** concatenate.py 29-53 *)
  Definition concatenate (layers : list nat) : bact nat :=
    match layers with
    | [] => noop []
    | [l] => ret l
    | first :: rest =>
        let! n := node_at first in
        match b_func n with
        | FConcat => let! _ := extend first rest in ret first
        | _ => let! ns := nodes_at layers in new_model (String.concat "|" (map b_name ns)) FConcat [] (joint_dims ns) [] [] layers
        end
    end.
  (** tuplify.py 11-29 *)
  Definition tuplify (layers : list nat) : bact nat :=
    match layers with
    | _ :: _ :: _ =>
        let! ns := nodes_at layers in
        new_model ("tuple(" ++ String.concat ", " (map b_name ns) ++ ")") FTuplify [] [("nI", None)] [] [] layers
    | _ => fail TypeError
    end.
  (** residual.py 15-25 *)
  Definition residual (layer : nat) : bact nat :=
    let! n := node_at layer in
    new_model ("residual(" ++ b_name n ++ ")") FResidual [] [("nO", dim_of n "nO"); ("nI", dim_of n "nI")] [] [] [layer].

  (** ** Layers *)

  (** The arguments of the dense layers; [o_W] and [o_b] are [init_W] and [init_b] *)
  Record options := mkOptions { o_nO : option Z; o_nI : option Z; o_W : option initfn; o_b : option initfn; o_dropout : option T; o_normalize : bool }.
  Definition or_else {A} (x : option A) (y : A) : A := match x with Some x => x | None => y end.
  (** layernorm.py 13-20 *)
  Definition LayerNorm (nI : option Z) : bact nat := new_model "layernorm" FLayerNorm [] [("nI", nI); ("nO", nI)] ["G"; "b"] [] [].
  (** dropout.py 11-16 *)
  Definition Dropout (rate : T) : bact nat := new_model "dropout" FDropout [] [] [] [("dropout_rate", AFloat rate); ("is_enabled", ABool true)] [].
  (** relu.py 37-41 and the same lines of the other dense layers *)
  Definition finish (model : nat) (o : options) : bact nat :=
    let! model := if o_normalize o then let! norm := LayerNorm (o_nO o) in chain [model; norm] else ret model in
    match o_dropout o with
    | Some rate => let! drop := Dropout rate in chain [model; drop]
    | None => ret model
    end.
  Definition two_dims (o : options) : dict string (option Z) := [("nO", o_nO o); ("nI", o_nI o)].
  Definition dense (name : string) (f : func) (W b : initfn) (dims : dict string (option Z)) (attrs : dict string attr) (o : options) : bact nat :=
    let! model := new_model name f [W; b] dims ["W"; "b"] attrs [] in finish model o.
  (** relu.py 17-41 *)
  Definition Relu (o : options) : bact nat := dense "relu" FRelu (or_else (o_W o) GlorotUniform) (or_else (o_b o) ZeroInit) (two_dims o) [] o.
  (** mish.py 17-44 *)
  Definition Mish (o : options) : bact nat := dense "mish" FMish (or_else (o_W o) GlorotUniform) (or_else (o_b o) ZeroInit) (two_dims o) [] o.
  (** dish.py 14-38 *)
  Definition Dish (o : options) : bact nat := dense "dish" FDish (or_else (o_W o) HeNormal) (or_else (o_b o) ZeroInit) (two_dims o) [] o.
  (** gelu.py 14-38 *)
  Definition Gelu (o : options) : bact nat := dense "gelu" FGelu (or_else (o_W o) HeNormal) (or_else (o_b o) ZeroInit) (two_dims o) [] o.
  (** swish.py 14-38 *)
  Definition Swish (o : options) : bact nat := dense "swish" FSwish (or_else (o_W o) HeNormal) (or_else (o_b o) ZeroInit) (two_dims o) [] o.
  (** hard_swish.py 14-38 *)
  Definition HardSwish (o : options) : bact nat := dense "hardswish" FHardSwish (or_else (o_W o) HeNormal) (or_else (o_b o) ZeroInit) (two_dims o) [] o.
  (** hard_swish_mobilenet.py 14-38 *)
  Definition HardSwishMobilenet (o : options) : bact nat :=
    dense "hardswishmobilenet" FHardSwishMobilenet (or_else (o_W o) HeNormal) (or_else (o_b o) ZeroInit) (two_dims o) [] o.
  (** maxout.py 17-42; [nP=3] is the default *)
  Definition Maxout (nP : option Z) (o : options) : bact nat :=
    dense "maxout" FMaxout (or_else (o_W o) GlorotUniform) (or_else (o_b o) ZeroInit) (two_dims o ++ [("nP", nP)])%list [] o.
  (** clipped_linear.py 14-49 *)
  Definition ClippedLinear (slope offset min_val max_val : T) (o : options) : bact nat :=
    dense "clipped_linear" FClippedLinear (or_else (o_W o) GlorotUniform) (or_else (o_b o) ZeroInit) (two_dims o)
      [("slope", AFloat slope); ("offset", AFloat offset); ("min_val", AFloat min_val); ("max_val", AFloat max_val)] o.
  (** The options that HardSigmoid, HardTanh and ReluK pass on: all but [init_b] *)
  Definition passed (o : options) : options := mkOptions (o_nO o) (o_nI o) (Some (or_else (o_W o) GlorotUniform)) None (o_dropout o) (o_normalize o).
  (** clipped_linear.py 93-114 *)
  Definition HardSigmoid (o : options) : bact nat := ClippedLinear (nZ 1 / nZ 5)%num (nZ 1 / nZ 2)%num (nZ 0) (nZ 1) (passed o).
  (** clipped_linear.py 118-139 *)
  Definition HardTanh (o : options) : bact nat := ClippedLinear (nZ 1) (nZ 0) (nZ (-1)) (nZ 1) (passed o).
  (** clipped_linear.py 143-165 *)
  Definition ReluK (k : T) (o : options) : bact nat := ClippedLinear (nZ 1) (nZ 0) (nZ 0) k (passed o).
  (** linear.py 14-32 *)
  Definition Linear (nO nI : option Z) (W b : option initfn) : bact nat :=
    new_model "linear" FLinear [or_else W GlorotUniform; or_else b ZeroInit] [("nO", nO); ("nI", nI)] ["W"; "b"] [] [].
  (** sigmoid.py 14-35 *)
  Definition Sigmoid (nO nI : option Z) (W b : option initfn) : bact nat :=
    new_model "sigmoid" FSigmoid [or_else W ZeroInit; or_else b ZeroInit] [("nO", nO); ("nI", nI)] ["W"; "b"] [] [].
  (** softmax.py 14-32 *)
  Definition Softmax (nO nI : option Z) (W b : option initfn) : bact nat :=
    new_model "softmax" FSoftmax [or_else W ZeroInit; or_else b ZeroInit] [("nO", nO); ("nI", nI)] ["W"; "b"]
      [("softmax_normalize", ABool true); ("softmax_temperature", AFloat (nZ 1))] [].
  (** softmax.py 36-60, 112-115 *)
  Definition Softmax_v2 (nO nI : option Z) (W b : option initfn) (normalize_outputs : bool) (temperature : T) : bact nat :=
    if (nltb temperature (nZ 0) || neqb temperature (nZ 0))%bool then fail ValueError
    else new_model "softmax" FSoftmax [or_else W ZeroInit; or_else b ZeroInit] [("nO", nO); ("nI", nI)] ["W"; "b"]
           [("softmax_normalize", ABool normalize_outputs); ("softmax_temperature", AFloat temperature)] [].
  (** array_getitem.py 30-35 with the index of a column *)
  Definition ints_column (c : Z) : bact nat := new_model "ints-getitem" FGetitem [] [] [] [("index", AColumn c)] [].
  Definition int_attr (x : option Z) : attr := match x with Some z => AInt z | None => ANone end.
  (** embed.py 38-45 and hashembed.py 49-56: the column, if there is one, is taken in front *)
  Definition with_column (model : nat) (column : option Z) : bact nat :=
    let! model := match column with
                  | Some c => let! item := ints_column c in chain [item; model]
                  | None => ret model
                  end in
    let! _ := set_attr model "column" (int_attr column) in
    ret model.
  Definition rate_attr (dropout : option T) : dict string attr := match dropout with Some r => [("dropout_rate", AFloat r)] | None => [] end.
  (** embed.py 16-45 *)
  Definition Embed (nO nV : option Z) (column : option Z) (initializer : option initfn) (dropout : option T) : bact nat :=
    let! model := new_model "embed" FEmbed [or_else initializer UniformInit] [("nO", nO); ("nV", nV)] ["E"] (rate_attr dropout) [] in
    with_column model column.
  (** hashembed.py 16-56 *)
  Definition HashEmbed (nO nV : Z) (seed column : option Z) (initializer : option initfn) (dropout : option T) : bact nat :=
    let attrs := (("column", int_attr column) :: ("seed", int_attr seed) :: rate_attr dropout)%list in
    let! model := new_model "hashembed" FHashEmbed [or_else initializer UniformInit] [("nO", Some nO); ("nV", Some nV); ("nI", None)] ["E"] attrs [] in
    let! _ := match seed with
              | None => let! n := node_at model in set_attr model "seed" (AInt (b_id n))
              | Some _ => ret tt
              end in
    with_column model column.
End Build.
Arguments bnode : clear implicits. Arguments bst : clear implicits. Arguments attr : clear implicits. Arguments options : clear implicits.
Arguments bact : clear implicits.
