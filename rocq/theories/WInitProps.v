(** Property C71: initialization of wrappers and of the other layers with parameters. *)
From Coq Require Import Reals String Lia Lra.
From Verif Require Import Base DictModel NodeModel InitModel WInitModel WInitSpec NumR ActSpec.
From Verif Require Import InitChainProofs WInitProofs WInitShapeProofs WInitWrapProofs WInitLayerProofs.
Local Open Scope string_scope.

(** Whatever is initialized, and whether or not it raises: the nodes stay, none loses or gains names of dims, dims
    that were set keep their values, and parameters that were set stay set. *)
Theorem C71_dims_kept : forall {T} `{Num T} (draw : nat -> list Z -> result (arr T)) to_int conv fwd p X Y s s' r,
  winitialize draw to_int conv fwd p X Y s = (s', r) -> later s s'.
Proof. exact @winit_later. Qed.
Print Assumptions C71_dims_kept.

(** Nodes that are not part of the model are not touched. *)
Theorem C71_frame : forall {T} `{Num T} (draw : nat -> list Z -> result (arr T)) to_int conv fwd p X Y s s' r a,
  winitialize draw to_int conv fwd p X Y s = (s', r) -> ~ In a (waddrs p) -> nth_error (i_heap s') a = nth_error (i_heap s) a.
Proof. exact @winit_frame. Qed.
Print Assumptions C71_frame.

(** With initializers that give arrays of the shape asked for, parameters always have the shapes that the dims of
    their nodes say, even after an exception. *)
Theorem C71_params_sized : forall {T} `{Num T} (draw : nat -> list Z -> result (arr T)) to_int conv fwd, shape_ok draw ->
  forall p X Y s s' r, all_sized s -> all_ruled s -> winitialize draw to_int conv fwd p X Y s = (s', r) -> all_sized s' /\ all_ruled s'.
Proof. exact @winit_sized. Qed.
Print Assumptions C71_params_sized.

(** The assertion at the end of the initialization of an LSTM always holds. *)
Theorem C71_lstm_assertion : forall {T} `{Num T} (draw : nat -> list Z -> result (arr T)) to_int, shape_ok draw ->
  forall a X Y s s', lstm_init draw to_int a X Y s = (s', Err AssertionError) -> exists n shape, draw n shape = Err AssertionError.
Proof. exact @lstm_calm. Qed.
Print Assumptions C71_lstm_assertion.

(** Dense layers, LayerNorm, MultiSoftmax and LSTM refuse data of another width than theirs, before anything has changed. *)
Theorem C71_width_clash : forall {T} `{Num T} (draw : nat -> list Z -> result (arr T)) to_int conv fwd a x Y s v w n,
  nth_error (i_heap s) a = Some n -> n_func n <= 3 \/ n_func n = 4 \/ n_func n = 11 \/ n_func n = 17 ->
  dim_at s a "nI" = Some v -> get_width to_int x = Ok w -> v <> w -> winitialize draw to_int conv fwd (WLeaf a) (Some x) Y s = (s, Err ValueError).
Proof. exact @dense_clash. Qed.
Print Assumptions C71_width_clash.
(** MultiSoftmax does not look at Y. *)
Theorem C71_multisoftmax_y : forall {T} `{Num T} (draw : nat -> list Z -> result (arr T)) to_int conv fwd a X Y s n,
  nth_error (i_heap s) a = Some n -> n_func n = 11 -> winitialize draw to_int conv fwd (WLeaf a) X Y s = winitialize draw to_int conv fwd (WLeaf a) X None s.
Proof. exact @multisoftmax_ignores. Qed.
Print Assumptions C71_multisoftmax_y.
(** HashEmbed looks at no data and sets no dims. *)
Theorem C71_hashembed_data : forall {T} `{Num T} (draw : nat -> list Z -> result (arr T)) to_int conv fwd a X Y s n,
  nth_error (i_heap s) a = Some n -> n_func n = 13 ->
  winitialize draw to_int conv fwd (WLeaf a) X Y s = winitialize draw to_int conv fwd (WLeaf a) None None s /\
  forall name, dim_at (fst (winitialize draw to_int conv fwd (WLeaf a) X Y s)) a name = dim_at s a name.
Proof. exact @hashembed_ignores. Qed.
Print Assumptions C71_hashembed_data.

(** with_array and with_array2d around a layer whose dims they had when they were built: they initialize whenever the
    layer does, do to all nodes but their own what the layer does, and have its dims again afterwards. *)
Theorem C71_with_array : forall {T} `{Num T} (draw : nat -> list Z -> result (arr T)) to_int conv fwd c cv a p X Y X' Y' s s1 w n,
  c = KArray /\ cv = CArray \/ c = KArray2d /\ cv = CArray2d -> ~ In a (waddrs p) ->
  nth_error (i_heap s) a = Some w -> nth_error (i_heap s) (waddr p) = Some n -> mirrors w n ->
  conv_opt (conv cv) X = Ok X' -> conv_opt (conv cv) Y = Ok Y' -> winitialize draw to_int conv fwd p X' Y' s = (s1, Ok tt) ->
  exists s' w' n', winitialize draw to_int conv fwd (WNode c a [p]) X Y s = (s', Ok tt) /\ nth_error (i_heap s') a = Some w' /\
    nth_error (i_heap s') (waddr p) = Some n' /\ same_dims w' n' /\ (forall b, b <> a -> nth_error (i_heap s') b = nth_error (i_heap s1) b).
Proof. exact @array_run. Qed.
Print Assumptions C71_with_array.
Theorem C71_with_array_raises : forall {T} `{Num T} (draw : nat -> list Z -> result (arr T)) to_int conv fwd c cv a p X Y X' Y' s s1 e,
  c = KArray /\ cv = CArray \/ c = KArray2d /\ cv = CArray2d -> conv_opt (conv cv) X = Ok X' -> conv_opt (conv cv) Y = Ok Y' ->
  winitialize draw to_int conv fwd p X' Y' s = (s1, Err e) -> winitialize draw to_int conv fwd (WNode c a [p]) X Y s = (s1, Err e).
Proof. exact @array_raises. Qed.
Print Assumptions C71_with_array_raises.

(** uniqued, with_reshape and residual end with the widths of their layer. *)
Theorem C71_copied_dims : forall {T} `{Num T} (draw : nat -> list Z -> result (arr T)) to_int conv fwd c a p X Y s s',
  c = KUniqued \/ c = KReshape \/ c = KResidual -> a <> waddr p -> winitialize draw to_int conv fwd (WNode c a [p]) X Y s = (s', Ok tt) ->
  forall name v, name = "nI" \/ name = "nO" -> dim_at s' (waddr p) name = Some v -> dim_at s' a name = Some v.
Proof. exact @copied_dims. Qed.
Print Assumptions C71_copied_dims.

(** The other wrappers initialize their layer with the converted data and do nothing else. *)
Theorem C71_pass : forall {T} `{Num T} (draw : nat -> list Z -> result (arr T)) to_int conv fwd c cX cY a p X Y X' Y' s,
  In (c, (cX, cY)) [(KList, (CList, CList)); (KRagged, (CRagged, CRagged)); (KPadded, (CPadded, CPadded)); (KFlatten, (CFlatten, CHstack)); (KFlatten2, (CFlatten2, CHstack))] ->
  conv_opt (conv cX) X = Ok X' -> conv_opt (conv cY) Y = Ok Y' ->
  winitialize draw to_int conv fwd (WNode c a [p]) X Y s = winitialize draw to_int conv fwd p X' Y' s.
Proof. exact @pass_run. Qed.
Print Assumptions C71_pass.
Theorem C71_pass_same : forall {T} `{Num T} (draw : nat -> list Z -> result (arr T)) to_int conv fwd c a p X Y s,
  c = KResizable \/ c = KCpu -> winitialize draw to_int conv fwd (WNode c a [p]) X Y s = winitialize draw to_int conv fwd p X Y s.
Proof. exact @same_run. Qed.
Print Assumptions C71_pass_same.
(** bidirectional initializes its two layers one after the other with the same inputs, each with its half of the outputs. *)
Theorem C71_bidirectional : forall {T} `{Num T} (draw : nat -> list Z -> result (arr T)) to_int conv fwd a p q X Y Y1 Y2 s,
  Y = None /\ Y1 = None /\ Y2 = None \/ (exists y y1 y2, Y = Some y /\ split_padded y = Ok (y1, y2) /\ Y1 = Some y1 /\ Y2 = Some y2) ->
  winitialize draw to_int conv fwd (WNode KBidirectional a [p; q]) X Y s =
    match winitialize draw to_int conv fwd p X Y1 s with (s1, Ok tt) => winitialize draw to_int conv fwd q X Y2 s1 | other => other end.
Proof. exact @bidirectional_run. Qed.
Print Assumptions C71_bidirectional.
(** map_list initializes its layer with the first items of the lists. *)
Theorem C71_map_list : forall {T} `{Num T} (draw : nat -> list Z -> result (arr T)) to_int conv fwd a p X Y X' Y' s,
  head_item X X' -> head_item Y Y' -> winitialize draw to_int conv fwd (WNode KMapList a [p]) X Y s = winitialize draw to_int conv fwd p X' Y' s.
Proof. exact @map_list_run. Qed.
Print Assumptions C71_map_list.
(** An LSTM has one or two directions; a depth of 0 is rejected. *)
Theorem C71_lstm_built : forall {T} id nO nI bi depth,
  match new_lstm (T := T) id nO nI bi depth with
  | Ok n => depth <> 0%Z /\ dget "dirs" (n_dims n) = Some (Some (if bi then 2 else 1)%Z) /\ dget "depth" (n_dims n) = Some (Some depth) /\
    dget "nO" (n_dims n) = Some nO /\ dget "nI" (n_dims n) = Some nI
  | Err e => depth = 0%Z /\ e = ValueError
  end.
Proof. exact @lstm_built. Qed.
Print Assumptions C71_lstm_built.
(** So with_list, with_padded, with_cpu and resizable never get the dims that their layer infers, although they
    took over its dims when they were built. *)
Theorem C71_wrapper_forgets : forall {T} `{Num T} (draw : nat -> list Z -> result (arr T)) to_int conv fwd c a ps X Y s s' r,
  forgetful c = true -> ~ In a (flat_map waddrs ps) -> winitialize draw to_int conv fwd (WNode c a ps) X Y s = (s', r) ->
  nth_error (i_heap s') a = nth_error (i_heap s) a.
Proof. exact @forgetful_kept. Qed.
Print Assumptions C71_wrapper_forgets.

(** Without data, with_reshape initializes its layer twice. *)
Theorem C71_reshape_twice : forall {T} `{Num T} (draw : nat -> list Z -> result (arr T)) to_int conv fwd a p s s',
  winitialize draw to_int conv fwd (WNode KReshape a [p]) None None s = (s', Ok tt) ->
  exists s1 s2, winitialize draw to_int conv fwd p None None s = (s1, Ok tt) /\ winitialize draw to_int conv fwd p None None s1 = (s2, Ok tt) /\ i_draws s' = i_draws s2.
Proof. exact @reshape_twice. Qed.
Print Assumptions C71_reshape_twice.

(** Without data, siamese leaves its first layer as it was: only the second one is initialized. *)
Theorem C71_siamese_skips : forall {T} `{Num T} (draw : nat -> list Z -> result (arr T)) to_int conv fwd a p q Y s s' r b,
  winitialize draw to_int conv fwd (WNode KSiamese a [p; q]) None Y s = (s', r) -> ~ In b (a :: waddrs q) -> nth_error (i_heap s') b = nth_error (i_heap s) b.
Proof. exact @siamese_skips. Qed.
Print Assumptions C71_siamese_skips.
(** With data, it is the second input whose width the first layer must have; both inputs are needed. *)
Theorem C71_siamese_width : forall {T} `{Num T} (draw : nat -> list Z -> result (arr T)) to_int conv fwd a p q x0 x1 Y s v w,
  dim_at s (waddr p) "nI" = Some v -> get_width to_int x1 = Ok w -> v <> w -> winitialize draw to_int conv fwd (WNode KSiamese a [p; q]) (Some (PyTup [x0; x1])) Y s = (s, Err ValueError).
Proof. exact @siamese_clash. Qed.
Print Assumptions C71_siamese_width.
Theorem C71_siamese_pair : forall {T} `{Num T} (draw : nat -> list Z -> result (arr T)) to_int conv fwd a p q x0 Y s,
  winitialize draw to_int conv fwd (WNode KSiamese a [p; q]) (Some (PyTup [x0])) Y s = (s, Err IndexError).
Proof. exact @siamese_one. Qed.
Print Assumptions C71_siamese_pair.
(** The width of a MultiSoftmax is the sum of its widths. *)
Theorem C71_multisoftmax_width : forall {T} id nOs nI, dget "nO" (n_dims (new_multisoftmax (T := T) id nOs nI)) = Some (Some (fold_left Z.add nOs 0%Z)).
Proof. exact @multisoftmax_width. Qed.
Print Assumptions C71_multisoftmax_width.
(** siamese cannot be built around a layer whose input width is to be inferred. *)
Theorem C71_siamese_needs : forall {T} id l1 l2 (n1 n2 : inode (T := T)), has_dim n1 "nI" <> Some true -> exists e, new_siamese id l1 l2 n1 n2 = Err e.
Proof. exact @siamese_needs. Qed.
Print Assumptions C71_siamese_needs.

(** Refuted: a wrapper that took its dims from its layer has the dims of the layer after initialization. An add of two
    with_cpu(LayerNorm()) raises, after both layers have got their widths. *)
Theorem C71_add_of_wrapped_refuted : exists (s s' : ist (T := R)) e X, let p := WNode KAdd 0 [WNode KCpu 1 [WLeaf 2]; WNode KCpu 3 [WLeaf 4]] in
  winitialize zero_draw Int_part no_conv no_fwd p (Some X) None s = (s', Err e) /\
  nth_error (i_heap s) 1 = option_map (new_wrapper 7 "with_cpu(layernorm)" 2) (nth_error (i_heap s) 2) /\
  nth_error (i_heap s) 2 = Some (new_layernorm 1 None) /\ dim_at s' 2 "nO" = Some 1%Z /\ dim_at s' 4 "nO" = Some 1%Z /\ dim_at s' 1 "nO" = None /\ dim_at s' 3 "nO" = None.
Proof. exact add_of_wrapped. Qed.
Print Assumptions C71_add_of_wrapped_refuted.
(** Refuted: a layer of width 3 refuses to be initialized with data of width 1. Sigmoid takes it. *)
Theorem C71_sigmoid_width_refuted : exists (s s' : ist (T := R)) m, wf_mat m /\ dim_at s 0 "nI" = Some 3%Z /\ m_cols m = 1 /\
  winitialize zero_draw Int_part no_conv no_fwd (WLeaf 0) (Some (Arr2 m)) None s = (s', Ok tt) /\
  nth_error (i_heap s) 0 = Some (new_sigmoid 1 (Some 1%Z) (Some 3%Z)) /\ dim_at s' 0 "nI" = Some 3%Z.
Proof. exact sigmoid_takes. Qed.
Print Assumptions C71_sigmoid_width_refuted.
(** Refuted: the states of an LSTM have the output width of the layer. A bidirectional one of width 3 has two states
    of width 1. *)
Theorem C71_lstm_odd_refuted : exists (s s' : ist (T := R)) n hc, new_lstm 1 (Some 3%Z) (Some 1%Z) true 1%Z = Ok n /\ nth_error (i_heap s) 0 = Some n /\
  winitialize zero_draw Int_part no_conv no_fwd (WLeaf 0) None None s = (s', Ok tt) /\ dim_at s' 0 "nO" = Some 3%Z /\
  match nth_error (i_heap s') 0 with Some n' => dget "HC0" (n_params n') = Some hc /\ a_shape hc = [2; 1; 2; 1] | None => False end.
Proof. exact lstm_odd. Qed.
Print Assumptions C71_lstm_odd_refuted.
(** Refuted: the key transform of ParametricAttention_v2 gets the width of the query when it has none. It raises if
    there is no Y, and otherwise gets the width of Y, which need not be that of the query. *)
Theorem C71_key_width_refuted : exists (s s1 s2 : ist (T := R)) e X Y, let p := WNode KAttention 0 [WLeaf 1] in
  nth_error (i_heap s) 0 = Some (new_attention2 2 None 1) /\ nth_error (i_heap s) 1 = Some (new_linear 1 None None) /\
  winitialize zero_draw Int_part no_conv no_fwd p (Some X) None s = (s1, Err e) /\
  winitialize zero_draw Int_part no_conv no_fwd p (Some X) (Some Y) s = (s2, Ok tt) /\ dim_at s2 0 "nO" = Some 2%Z /\ dim_at s2 1 "nI" = Some 2%Z /\ dim_at s2 1 "nO" = Some 1%Z.
Proof. exact key_unset. Qed.
Print Assumptions C71_key_width_refuted.

(** ** The hypotheses can be met *)
Definition wex_heap : list (inode (T := R)) :=
  [new_wrapper 9 "with_array(linear)" 1 (new_linear 1 None None); new_linear 1 None None; fresh_node 5 "lstm" 17 [] [("nO", Some 2%Z); ("nI", None); ("depth", Some 2%Z); ("dirs", Some 2%Z)] ["LSTM"; "HC0"];
   new_hashembed 4 2 3; new_multisoftmax 6 [1; 2]%Z None].
Example C71_with_array_ex : mirrors (new_wrapper 9 "with_array(linear)" 1 (new_linear (T := R) 1 None None)) (new_linear 1 None None) /\ ~ In 0 (waddrs (WLeaf 1)) /\
  exists s1, winitialize zero_draw Int_part no_conv no_fwd (WLeaf 1) (Some (Arr2 (mkM 1 [[1%R]]))) (Some (Arr2 (mkM 2 [[1%R; 1%R]]))) (mkIst wex_heap 0) = (s1, Ok tt).
Proof. split; [split; [reflexivity|intros name v E; exact E]|]. split; [intros [E|[]]; discriminate E|]. eexists. calc. Qed.
Example C71_kept_ex : exists s', winitialize zero_draw Int_part no_conv no_fwd (WNode KArray 0 [WLeaf 1]) (Some (Arr2 (mkM 1 [[1%R]]))) (Some (Arr2 (mkM 2 [[1%R; 1%R]]))) (mkIst wex_heap 0) = (s', Ok tt) /\
  dim_at s' 0 "nO" = Some 2%Z /\ dim_at s' 0 "nI" = Some 1%Z /\ dim_at s' 1 "nO" = Some 2%Z /\ i_draws s' = 2.
Proof. eexists. split; [calc|]. repeat split. Qed.
(** An LSTM of width 2, depth 2 and two directions over inputs of width 3 has 48 + 40 parameters. *)
Example C71_lstm_ex : exists s' n P, winitialize zero_draw Int_part no_conv no_fwd (WLeaf 2) (Some (Arr2 (mkM 3 [[1; 1; 1]%R]))) None (mkIst wex_heap 0) = (s', Ok tt) /\
  nth_error (i_heap s') 2 = Some n /\ dget "LSTM" (n_params n) = Some P /\ length (a_data P) = 88 /\ lstm_size 2 2 3 2 = 88%Z.
Proof. eexists. eexists. eexists. split; [calc|]. split; [reflexivity|]. split; [reflexivity|]. split; reflexivity. Qed.
Example C71_sized_ex : shape_ok (zero_draw (T := R)) /\ all_sized (mkIst wex_heap 0) /\ all_ruled (mkIst wex_heap 0).
Proof. split; [exact zero_draw_shape|]. split; repeat constructor; [intros param x names Hx; discriminate Hx..| | | | |]; intros param x names f Hx; discriminate Hx. Qed.
Example C71_ignores_ex : nth_error wex_heap 3 = Some (new_hashembed 4 2 3) /\ n_func (new_hashembed (T := R) 4 2 3) = 13 /\ n_func (new_multisoftmax (T := R) 6 [1; 2]%Z None) = 11.
Proof. repeat split. Qed.
Example C71_clash_ex : nth_error (i_heap (mkIst [new_linear (T := R) 1 None (Some 3%Z)] 0)) 0 = Some (new_linear 1 None (Some 3%Z)) /\
  dim_at (mkIst [new_linear (T := R) 1 None (Some 3%Z)] 0) 0 "nI" = Some 3%Z /\ get_width Int_part (Arr2 (mkM 1 [[1%R]])) = Ok 1%Z.
Proof. repeat split. Qed.
Example C71_reshape_ex : exists s', winitialize zero_draw Int_part no_conv no_fwd (WNode KReshape 0 [WLeaf 1]) None None
    (mkIst [fresh_node 9 "with_reshape" 20 [1] [("nO", None); ("nI", None)] []; new_linear (T := R) 1 (Some 1%Z) (Some 1%Z)] 0) = (s', Ok tt) /\ i_draws s' = 4 /\ dim_at s' 0 "nO" = Some 1%Z.
Proof. eexists. split; [calc|]. split; reflexivity. Qed.
Example C71_siamese_ex : exists n s', new_siamese (T := R) 9 1 2 (new_linear 1 (Some 1%Z) (Some 1%Z)) (new_cauchy 2 (Some 1%Z)) = Ok n /\
  winitialize zero_draw Int_part no_conv no_fwd (WNode KSiamese 0 [WLeaf 1; WLeaf 2]) None None (mkIst [n; new_linear 1 (Some 1%Z) (Some 1%Z); new_cauchy 2 (Some 1%Z)] 0) = (s', Ok tt) /\
  nth_error (i_heap s') 1 = Some (new_linear 1 (Some 1%Z) (Some 1%Z)).
Proof. eexists. eexists. split; [reflexivity|]. split; [calc|]. reflexivity. Qed.
Example C71_bidirectional_ex : exists s', winitialize zero_draw Int_part no_conv no_fwd (WNode KBidirectional 0 [WLeaf 1; WLeaf 2]) (Some (Arr2 (mkM 1 [[1%R]]))) None
    (mkIst [fresh_node 9 "bidirectional" 20 [1; 2] [] []; new_linear (T := R) 1 (Some 1%Z) None; new_linear 2 (Some 2%Z) None] 0) = (s', Ok tt) /\ dim_at s' 1 "nI" = Some 1%Z /\ dim_at s' 2 "nI" = Some 1%Z.
Proof. eexists. split; [calc|]. split; reflexivity. Qed.

(** The weights of CauchySimilarity start at one; those of MultiSoftmax and SparseLinear, and their biases, at zero. *)
Theorem C71_constants : forall {T} `{Num T} (draw : nat -> list Z -> result (arr T)) to_int conv fwd a X Y s s' n,
  nth_error (i_heap s) a = Some n -> winitialize draw to_int conv fwd (WLeaf a) X Y s = (s', Ok tt) ->
  (n_func n = 14 -> filled_with (nZ 1) (param_at s' a "W")) /\
  (n_func n = 11 \/ n_func n = 16 -> filled_with (nZ 0) (param_at s' a "W") /\ filled_with (nZ 0) (param_at s' a "b")).
Proof. exact @constants. Qed.
Print Assumptions C71_constants.

(** with_getitem initializes its layer with one item of the inputs and of the outputs. *)
Theorem C71_getitem : forall {T} `{Num T} (draw : nat -> list Z -> result (arr T)) to_int conv fwd a p i X Y X' Y' s,
  item_of i X X' -> item_of i Y Y' -> winitialize draw to_int conv fwd (WNode (KGetitem i) a [p]) X Y s = winitialize draw to_int conv fwd p X' Y' s.
Proof. exact @getitem_run. Qed.
Print Assumptions C71_getitem.
