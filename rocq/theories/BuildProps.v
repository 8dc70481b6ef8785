(** Property C77: what the functions that build layers put together. *)
From Coq Require Import Reals String Lia Lra.
From Verif Require Import WInitSpec NumR ActSpec InitChainProofs BuildProofs BuildWitProofs BuildSpec.
Local Open Scope string_scope.

(** [chain] computes its layers one after the other; its width of inputs is that of the first layer if that has one, its width of
    outputs that of the last layer. *)
Theorem C77_chain : forall {T} (s : bst T) l1 l2 ls es,
  Forall2 (computes (g_heap s)) (l1 :: l2 :: ls) es -> exists s' root n ns first,
    chain (l1 :: l2 :: ls) s = (s', Ok root) /\ grows s s' [n] /\ root = length (g_heap s) /\ computes (g_heap s') root (EComb Seq es) /\
    Forall2 (fun l n => nth_error (g_heap s) l = Some n) (l1 :: l2 :: ls) ns /\ hd_error ns = Some first /\ b_name n = String.concat ">>" (map b_name ns) /\
    dget "nI" (b_dims n) = dget "nI" (b_dims first) /\
    dget "nO" (b_dims n) = Some (match dget "nO" (b_dims (last ns first)) with Some v => v | None => None end).
Proof. exact @chain_run. Qed.
Print Assumptions C77_chain.

(** [add] of layers whose first is not called "add" makes a new model that computes the sum of all. *)
Theorem C77_add_new : forall {T} (s : bst T) l1 l2 ls es n1,
  Forall2 (computes (g_heap s)) (l1 :: l2 :: ls) es -> nth_error (g_heap s) l1 = Some n1 -> b_name n1 <> "add" ->
    exists s' root n ns, add (l1 :: l2 :: ls) s = (s', Ok root) /\ grows s s' [n] /\ computes (g_heap s') root (EComb Sum es) /\ nth_error (g_heap s') root = Some n /\
    Forall2 (fun l m => nth_error (g_heap s) l = Some m) (l1 :: l2 :: ls) ns /\ b_name n = "add" /\ dget "nO" (b_dims n) = Some None /\
    (Forall (fun m => dget "nI" (b_dims m) <> None) ns -> dget "nI" (b_dims n) = Some None) /\ (Exists (fun m => dget "nI" (b_dims m) = None) ns -> dget "nI" (b_dims n) = None).
Proof. exact @add_new. Qed.
Print Assumptions C77_add_new.

(** [concatenate] of layers whose first is not a concatenation makes a new model that concatenates all. *)
Theorem C77_concatenate_new : forall {T} (s : bst T) l1 l2 ls es n1,
  Forall2 (computes (g_heap s)) (l1 :: l2 :: ls) es -> nth_error (g_heap s) l1 = Some n1 -> b_func n1 <> FConcat ->
    exists s' root n ns, concatenate (l1 :: l2 :: ls) s = (s', Ok root) /\ grows s s' [n] /\ computes (g_heap s') root (EComb Cat es) /\ nth_error (g_heap s') root = Some n /\
    Forall2 (fun l m => nth_error (g_heap s) l = Some m) (l1 :: l2 :: ls) ns /\ b_name n = String.concat "|" (map b_name ns) /\ dget "nO" (b_dims n) = Some None /\
    (Forall (fun m => dget "nI" (b_dims m) <> None) ns -> dget "nI" (b_dims n) = Some None) /\ (Exists (fun m => dget "nI" (b_dims m) = None) ns -> dget "nI" (b_dims n) = None).
Proof. exact @concat_new. Qed.
Print Assumptions C77_concatenate_new.

(** [tuplify]: a new model of all layers. *)
Theorem C77_tuplify : forall {T} (s : bst T) l1 l2 ls es,
  Forall2 (computes (g_heap s)) (l1 :: l2 :: ls) es ->
    exists s' root n ns, tuplify (l1 :: l2 :: ls) s = (s', Ok root) /\ grows s s' [n] /\ computes (g_heap s') root (EComb Tup es) /\ nth_error (g_heap s') root = Some n /\
    Forall2 (fun l m => nth_error (g_heap s) l = Some m) (l1 :: l2 :: ls) ns /\ b_name n = "tuple(" ++ String.concat ", " (map b_name ns) ++ ")" /\ b_dims n = [("nI", None)].
Proof. exact @tuplify_new. Qed.
Print Assumptions C77_tuplify.

(** [residual]: a new model around the layer. *)
Theorem C77_residual : forall {T} (s : bst T) l e m,
  computes (g_heap s) l e -> nth_error (g_heap s) l = Some m ->
    exists s' root n, residual l s = (s', Ok root) /\ grows s s' [n] /\ computes (g_heap s') root (EComb Res [e]) /\ nth_error (g_heap s') root = Some n /\
    b_name n = "residual(" ++ b_name m ++ ")" /\ forall d v, d = "nI" \/ d = "nO" -> (dget d (b_dims n) = Some (Some v) <-> dget d (b_dims m) = Some (Some v)).
Proof. exact @residual_new. Qed.
Print Assumptions C77_residual.

(** With one layer or none, only [concatenate] works: it gives the layer itself, or a [noop]. *)
Theorem C77_few_layers : forall {T} (s : bst T) l,
  chain [] s = (s, Err TypeError) /\ chain [l] s = (s, Err TypeError) /\ add [] s = (s, Err TypeError) /\ add [l] s = (s, Err TypeError) /\
    tuplify [] s = (s, Err TypeError) /\ tuplify [l] s = (s, Err TypeError) /\ concatenate [l] s = (s, Ok l) /\
    exists s' n, concatenate [] s = (s', Ok (length (g_heap s))) /\ grows s s' [n] /\ computes (g_heap s') (length (g_heap s)) (ELeaf n) /\ b_func n = FNoop.
Proof. exact @few_layers. Qed.
Print Assumptions C77_few_layers.

(** An [add] as first argument is not copied: the model that was passed in gets the other layers, and computes something else from then on. *)
Theorem C77_add_extends : forall {T} (s : bst T) a n l ls es es',
  nth_error (g_heap s) a = Some n -> b_name n = "add" -> computes (g_heap s) a (EComb Sum es) -> Forall2 (computes (g_heap s)) (l :: ls) es' ->
    (forall b, In b (l :: ls) -> ~ reaches (g_heap s) b a) -> (forall b, In b (b_layers n) -> ~ reaches (g_heap s) b a) ->
    exists s', add (a :: l :: ls) s = (s', Ok a) /\ computes (g_heap s') a (EComb Sum (es ++ es')) /\ ~ computes (g_heap s') a (EComb Sum es) /\ g_id s' = g_id s.
Proof. exact @add_extends. Qed.
Print Assumptions C77_add_extends.

(** The same for [concatenate]. *)
Theorem C77_concatenate_extends : forall {T} (s : bst T) a n l ls es es',
  nth_error (g_heap s) a = Some n -> computes (g_heap s) a (EComb Cat es) -> Forall2 (computes (g_heap s)) (l :: ls) es' ->
    (forall b, In b (l :: ls) -> ~ reaches (g_heap s) b a) -> (forall b, In b (b_layers n) -> ~ reaches (g_heap s) b a) ->
    exists s', concatenate (a :: l :: ls) s = (s', Ok a) /\ computes (g_heap s') a (EComb Cat (es ++ es')) /\ ~ computes (g_heap s') a (EComb Cat es) /\ g_id s' = g_id s.
Proof. exact @concat_extends. Qed.
Print Assumptions C77_concatenate_extends.

(** Refuted: the sum of a model with itself computes twice the model. If it is an [add], it becomes a layer of itself, and computes nothing any more. *)
Theorem C77_add_self_refuted : forall {T} (s : bst T) a n ls,
  nth_error (g_heap s) a = Some n -> b_name n = "add" -> b_func n = FAdd ->
    exists s', add (a :: a :: ls) s = (s', Ok a) /\ forall e, ~ computes (g_heap s') a e.
Proof. exact @add_self. Qed.
Print Assumptions C77_add_self_refuted.

(** The same for [concatenate]. *)
Theorem C77_concatenate_self_refuted : forall {T} (s : bst T) a n ls,
  nth_error (g_heap s) a = Some n -> b_func n = FConcat ->
    exists s', concatenate (a :: a :: ls) s = (s', Ok a) /\ forall e, ~ computes (g_heap s') a e.
Proof. exact @concat_self. Qed.
Print Assumptions C77_concatenate_self_refuted.

(** Refuted: [add] gives a model that adds. Any other model called "add" is taken for one, and stays what it was. *)
Theorem C77_add_name_refuted : forall {T} (s : bst T) a n l ls,
  nth_error (g_heap s) a = Some n -> b_name n = "add" -> combinator_of (b_func n) = None ->
    exists s' n', add (a :: l :: ls) s = (s', Ok a) /\ computes (g_heap s') a (ELeaf n') /\ b_func n' = b_func n.
Proof. exact @add_by_name. Qed.
Print Assumptions C77_add_name_refuted.

(** The dense layers: activation, then normalization, then dropout, as asked for; only new models, in order; widths as given - except that with dropout the width of outputs of the whole is not set. *)
Theorem C77_dense : forall {T} build name f W extra attrs,
  dense_layer build name f W extra attrs -> forall o (s : bst T),
    exists s' root news, build o s = (s', Ok root) /\ grows s s' news /\ computes (g_heap s') root (dense_expr (g_id s) name f W extra attrs o) /\
    dim_state s' root "nI" = Some (o_nI o) /\ dim_state s' root "nO" = Some (match o_dropout o with None => o_nO o | Some _ => None end).
Proof. exact @dense_ok. Qed.
Print Assumptions C77_dense.

(** Refuted: after initialization without data the width of outputs is known. With dropout it stays unset, although the layer has it. *)
Theorem C77_dense_width_refuted : exists (o : options R) s root s', Relu o (mkSt 0 []) = (s, Ok root) /\ o_nO o = Some 2%Z /\ o_nI o = Some 1%Z /\
    winitialize zero_draw Int_part no_conv no_fwd (WNode KChain root [WLeaf 0; WLeaf 1]) None None (mkIst (map as_inode (g_heap s)) 0) = (s', Ok tt) /\
    dim_at s' 0 "nO" = Some 2%Z /\ dim_at s' root "nI" = Some 1%Z /\ dim_at s' root "nO" = None.
Proof. exact @width_unset. Qed.
Print Assumptions C77_dense_width_refuted.

(** HardSigmoid, HardTanh and ReluK are ClippedLinear; [init_b] is not passed on. *)
Theorem C77_hard : forall {T} `{Num T} o (s : bst T),
  HardSigmoid o s = ClippedLinear (nZ 1 / nZ 5)%num (nZ 1 / nZ 2)%num (nZ 0) (nZ 1) (without_b o) s /\
    HardTanh o s = ClippedLinear (nZ 1) (nZ 0) (nZ (-1)) (nZ 1) (without_b o) s /\
    forall k, ReluK k o s = ClippedLinear (nZ 1) (nZ 0) (nZ 0) k (without_b o) s.
Proof. exact @hard_ok. Qed.
Print Assumptions C77_hard.

(** Their activations. *)
Theorem C77_hard_sigmoid : forall o (s s' : bst R) root e n x,
  HardSigmoid o s = (s', Ok root) -> computes (g_heap s') root e -> leaf_of e n -> b_func n = FClippedLinear ->
    clip_activation n x = Some (Rmax 0 (Rmin 1 (x / 5 + 1 / 2))).
Proof. exact @hard_sigmoid_leaf. Qed.
Print Assumptions C77_hard_sigmoid.

(** HardTanh. *)
Theorem C77_hard_tanh : forall o (s s' : bst R) root e n x,
  HardTanh o s = (s', Ok root) -> computes (g_heap s') root e -> leaf_of e n -> b_func n = FClippedLinear ->
    clip_activation n x = Some (Rmax (-1) (Rmin 1 x)).
Proof. exact @hard_tanh_leaf. Qed.
Print Assumptions C77_hard_tanh.

(** ReluK. *)
Theorem C77_relu_k : forall k o (s s' : bst R) root e n x,
  (0 <= k)%R -> ReluK k o s = (s', Ok root) -> computes (g_heap s') root e -> leaf_of e n -> b_func n = FClippedLinear ->
    clip_activation n x = Some (Rmax 0 (Rmin k x)).
Proof. exact @relu_k_leaf. Qed.
Print Assumptions C77_relu_k.

(** Embed: with a column, the column is taken first. *)
Theorem C77_embed : forall {T} nO nV column init dropout (s : bst T),
  exists s' root, Embed nO nV column init dropout s = (s', Ok root) /\
    let node top := mkB (g_id s + 1) "embed" FEmbed [match init with Some i => i | None => UniformInit end] [("nO", nO); ("nV", nV)] ["E"]
    (match dropout with Some r => [("dropout_rate", AFloat r)] | None => [] end ++ if top : bool then [("column", ANone)] else [])%list [] in
    match column with
    | None => grows s s' [node true] /\ root = length (g_heap s) /\ computes (g_heap s') root (ELeaf (node true))
    | Some c => exists top, grows s s' [node false; column_node (g_id s) c; top] /\ computes (g_heap s') root (EComb Seq [ELeaf (column_node (g_id s) c); ELeaf (node false)]) /\
    root = (length (g_heap s) + 2)%nat /\ nth_error (g_heap s') root = Some top /\ b_attrs top = [("column", AInt c)] /\ b_dims top = [("nO", nO)]
    end.
Proof. exact @embed_ok. Qed.
Print Assumptions C77_embed.

(** HashEmbed: the same; the seed is the one given or else the id of the model. *)
Theorem C77_hashembed : forall {T} nO nV seed column init dropout (s : bst T),
  exists s' root, HashEmbed nO nV seed column init dropout s = (s', Ok root) /\
    let node := hash_node (g_id s) nO nV seed column (match init with Some i => i | None => UniformInit end) dropout in
    match column with
    | None => grows s s' [node] /\ root = length (g_heap s) /\ computes (g_heap s') root (ELeaf node)
    | Some c => exists top, grows s s' [node; column_node (g_id s) c; top] /\ computes (g_heap s') root (EComb Seq [ELeaf (column_node (g_id s) c); ELeaf node]) /\
    root = (length (g_heap s) + 2)%nat /\ nth_error (g_heap s') root = Some top /\ b_attrs top = [("column", AInt c)] /\ b_dims top = [("nO", Some nO)]
    end.
Proof. exact @hash_ok. Qed.
Print Assumptions C77_hashembed.

(** HashEmbed layers made without a seed, one after the other, have different seeds. *)
Theorem C77_seeds : forall {T} nO nV column init dropout nO' nV' column' init' dropout' (s1 s1' s2 s2' : bst T) r1 r2 e1 e2 n1 n2,
  HashEmbed nO nV None column init dropout s1 = (s1', Ok r1) -> (g_id s1' <= g_id s2)%Z -> HashEmbed nO' nV' None column' init' dropout' s2 = (s2', Ok r2) ->
    computes (g_heap s1') r1 e1 -> computes (g_heap s2') r2 e2 -> leaf_of e1 n1 -> leaf_of e2 n2 -> b_func n1 = FHashEmbed -> b_func n2 = FHashEmbed ->
    dget "seed" (b_attrs n1) <> dget "seed" (b_attrs n2).
Proof. exact @seeds_differ. Qed.
Print Assumptions C77_seeds.

(** Softmax.v1 is Softmax.v2 with the defaults. *)
Theorem C77_softmax_versions : forall {T} `{Num T} nO nI W b (s : bst T),
  nltb (nZ 1) (nZ 0) = false -> neqb (nZ 1) (nZ 0) = false -> Softmax nO nI W b s = Softmax_v2 nO nI W b true (nZ 1) s.
Proof. exact @softmax_versions. Qed.
Print Assumptions C77_softmax_versions.

(** ** The hypotheses can be met *)
Definition bex_linear (i : Z) : bnode R := mkB i "linear" FLinear [GlorotUniform; ZeroInit] [("nO", Some 2%Z); ("nI", Some 1%Z)] ["W"; "b"] [] [].
Definition bex_add : bst R := mkSt 4 [bex_linear 1; bex_linear 2; mkB 3 "add" FAdd [] [("nO", None); ("nI", None)] [] [] [0; 1]; bex_linear 4].
(** Two linear layers and their sum. *)
Example C77_add_ex : let s0 := fst (andthen (Linear (Some 2%Z) (Some 1%Z) None None) (fun _ => Linear (Some 2%Z) (Some 1%Z) None None) (mkSt 0 [])) in
  Forall2 (computes (g_heap s0)) [0; 1] [ELeaf (bex_linear 1); ELeaf (bex_linear 2)] /\ nth_error (g_heap s0) 0 = Some (bex_linear 1) /\ b_name (bex_linear 1) <> "add" /\
  fst (andthen (add [0; 1]) (fun _ => Linear (Some 2%Z) (Some 1%Z) None None) s0) = bex_add.
Proof. split; [|split; [|split; [discriminate|]]]; [|reflexivity..]. constructor; [|constructor; [|constructor]]; apply computes_leaf; reflexivity. Qed.
(** Extending the sum by a third layer. *)
Example C77_extends_ex : computes (g_heap bex_add) 2 (EComb Sum [ELeaf (bex_linear 1); ELeaf (bex_linear 2)]) /\ Forall2 (computes (g_heap bex_add)) [3] [ELeaf (bex_linear 4)] /\
  (forall b, In b [3] -> ~ reaches (g_heap bex_add) b 2) /\ (forall b, In b [0; 1] -> ~ reaches (g_heap bex_add) b 2).
Proof.
  split; [apply computes_comb with (n := mkB 3 "add" FAdd [] [("nO", None); ("nI", None)] [] [] [0; 1]); [reflexivity|reflexivity|constructor; [|constructor; [|constructor]]; apply computes_leaf; reflexivity]|].
  split; [constructor; [apply computes_leaf; reflexivity|constructor]|].
  split; intros b I R; inversion R as [|? n l ? E J]; subst.
  - destruct I as [I|[]]; discriminate I.
  - destruct I as [<-|[]]. injection E as <-. destruct J.
  - destruct I as [I|[I|[]]]; discriminate I.
  - destruct I as [<-|[<-|[]]]; injection E as <-; destruct J.
Qed.
(** The function of another model called "add". *)
Example C77_name_ex : combinator_of (b_func (mkB (T := R) 1 "add" (FUser 0) [] [] [] [] [])) = None /\ b_name (mkB (T := R) 1 "add" (FUser 0) [] [] [] [] []) = "add".
Proof. split; reflexivity. Qed.
(** A dense layer with everything: four new models besides the activation. *)
Example C77_dense_ex : exists s root, Maxout (Some 3%Z) (mkOptions (Some 2%Z) (Some 1%Z) None (Some (UserInit 7)) (Some (1/2)%R) true) (mkSt 0 []) = (s, Ok root) /\ length (g_heap s) = 5 /\
  dim_state s root "nO" = Some None /\ dim_state s root "nI" = Some (Some 1%Z) /\ (exists n, nth_error (g_heap s) 0 = Some n /\ b_inits n = [GlorotUniform; UserInit 7]) /\
  map b_name (g_heap s) = ["maxout"; "layernorm"; "maxout>>layernorm"; "dropout"; "maxout>>layernorm>>dropout"].
Proof. eexists. eexists. split; [calc|]. split; [reflexivity|]. split; [reflexivity|]. split; [reflexivity|]. split; [eexists; split; reflexivity|]. reflexivity. Qed.
(** An [init_b] that has no effect. *)
Example C77_hard_ex : exists s n, HardTanh (mkOptions (T := R) (Some 2%Z) (Some 1%Z) None (Some (UserInit 7)) None false) (mkSt 0 []) = (s, Ok 0) /\ nth_error (g_heap s) 0 = Some n /\
  b_inits n = [GlorotUniform; ZeroInit] /\ computes (g_heap s) 0 (ELeaf n) /\ leaf_of (ELeaf n) n /\ b_func n = FClippedLinear.
Proof. eexists. eexists. split; [calc|]. split; [reflexivity|]. split; [reflexivity|]. split; [apply computes_leaf; reflexivity|]. split; [constructor|reflexivity]. Qed.
Example C77_hash_ex : exists s s' n1 n2, HashEmbed (T := R) 2 10 None None None None (mkSt 0 []) = (s, Ok 0) /\ HashEmbed 2 10 None (Some 4%Z) None None s = (s', Ok 3) /\
  nth_error (g_heap s') 0 = Some n1 /\ nth_error (g_heap s') 1 = Some n2 /\ dget "seed" (b_attrs n1) = Some (AInt 1) /\ dget "seed" (b_attrs n2) = Some (AInt 2) /\
  map b_name (g_heap s') = ["hashembed"; "hashembed"; "ints-getitem"; "ints-getitem>>hashembed"].
Proof. eexists. eexists. eexists. eexists. split; [calc|]. split; [calc|]. repeat split. Qed.
Example C77_softmax_ex : nltb (nZ (T := R) 1) (nZ 0) = false /\ neqb (nZ (T := R) 1) (nZ 0) = false.
Proof. cbn. destruct (Rlt_dec 1 0) as [L|L]; [lra|]. destruct (Req_EM_T 1 0) as [L'|L']; [lra|]. split; reflexivity. Qed.
