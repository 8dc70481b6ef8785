(** Property C58: initialization and inference of dimensions. *)
From Coq Require Import Reals String Lia Lra.
From Verif Require Import Base DictModel NodeModel CombModel InitModel InitSpec InitWidthSpec NumR ActSpec.
From Verif Require Import InitProofs InitFrameProofs InitReadyProofs InitChainProofs InitWidthProofs.
Local Open Scope string_scope.

(** Whatever is initialized, and whether or not it raises: the nodes stay, none loses or gains names of dims, dims
    that were set keep their values, and parameters that were set stay set. *)
Theorem C58_dims_kept : forall {T} `{Num T} `{Trans T} (draw : nat -> list Z -> result (arr T)) to_int numpy p X Y s s' r,
  initialize draw to_int numpy p X Y s = (s', r) -> later s s'.
Proof. exact @init_later. Qed.
Print Assumptions C58_dims_kept.

(** Nodes that are not part of the model are not touched. *)
Theorem C58_frame : forall {T} `{Num T} `{Trans T} (draw : nat -> list Z -> result (arr T)) to_int numpy p X Y s s' r a,
  initialize draw to_int numpy p X Y s = (s', r) -> ~ In a (addrs p) -> nth_error (i_heap s') a = nth_error (i_heap s) a.
Proof. exact @init_frame. Qed.
Print Assumptions C58_frame.

(** With initializers that give arrays of the shape asked for, parameters always have the shapes that the dims of
    their nodes say, even after an exception. *)
Theorem C58_params_sized : forall {T} `{Num T} `{Trans T} (draw : nat -> list Z -> result (arr T)) to_int numpy, shape_ok draw ->
  forall p X Y s s' r, all_sized s -> initialize draw to_int numpy p X Y s = (s', r) -> all_sized s'.
Proof. exact @init_sized. Qed.
Print Assumptions C58_params_sized.

(** After a successful initialization with a batch of width w, a layer, a chain of plain models or a concatenation of
    such maps every batch of width w to a batch of some fixed width, with as many rows. *)
Theorem C58_ready : forall (draw : nat -> list Z -> result (arr R)) to_int numpy, shape_ok draw ->
  forall p m Y s s', tried p -> wf_mat m -> all_sized s -> initialize draw to_int numpy p (Some (Arr2 m)) Y s = (s', Ok tt) -> all_positive s' ->
  exists w', maps_widths numpy s' p (m_cols m) w'.
Proof. exact init_ready. Qed.
Print Assumptions C58_ready.

(** Whether a plain model runs depends only on the width of the batch: if it ran on one batch, it runs on all batches
    of that width. *)
Theorem C58_shape_only : forall numpy p m y (s : ist (T := R)), plain p -> all_sized s -> all_positive s -> wf_mat m ->
  predict numpy p (Arr2 m) s = (s, Ok y) -> exists Y, y = Arr2 Y /\ maps_widths numpy s p (m_cols m) (m_cols Y).
Proof. exact shape_only. Qed.
Print Assumptions C58_shape_only.

(** A chain whose output width was not set gets the width of its outputs. *)
Theorem C58_chain_width : forall (draw : nat -> list Z -> result (arr R)) to_int numpy, shape_ok draw ->
  forall a ps m Y s s' n, plain (NChain a ps) -> wf_mat m -> all_sized s -> initialize draw to_int numpy (NChain a ps) (Some (Arr2 m)) Y s = (s', Ok tt) ->
  all_positive s' -> nth_error (i_heap s) a = Some n -> has_dim n "nO" = None -> ~ In a (flat_map addrs ps) ->
  exists w', maps_widths numpy s' (NChain a ps) (m_cols m) w' /\ dim_at s' a "nO" = Some (Z.of_nat w').
Proof. exact chain_width. Qed.
Print Assumptions C58_chain_width.

(** A chain of linear layers without input widths, initialized with X of width w and Y of width v, always succeeds: the
    first layer takes width w, every layer takes what the one before gives, and every layer created without output
    width (not only the last one) gives width v. *)
Theorem C58_chain_fills : forall (draw : nat -> list Z -> result (arr R)) to_int numpy, shape_ok draw -> always_draws draw ->
  forall a id name k ls o v w L (m y : mat R) s, L <> [] -> NoDup (a :: map fst L) ->
  nth_error (i_heap s) a = Some (fresh_node id name k ls [("nO", o); ("nI", None)] []) -> Forall (unset_linear (i_heap s)) L ->
  wf_mat m -> Z.of_nat (m_cols m) = w -> Z.of_nat (m_cols y) = v -> (0 < w)%Z -> (0 < v)%Z -> all_sized s -> all_positive s ->
  exists s', initialize draw to_int numpy (NChain a (map (fun q => NLeaf (fst q)) L)) (Some (Arr2 m)) (Some (Arr2 y)) s = (s', Ok tt) /\
    wired s' v w L /\ dim_at s' a "nI" = Some w /\ dim_at s' a "nO" = Some (match o with Some z => z | None => last_width v w L end).
Proof. exact chain_inits. Qed.
Print Assumptions C58_chain_fills.

(** Initialization without data calls the initializers of a layer twice for every chain (or tuplify) around it. *)
Theorem C58_calls : forall {T} `{Num T} `{Trans T} (draw : nat -> list Z -> result (arr T)) to_int numpy p s s',
  initialize draw to_int numpy p None None s = (s', Ok tt) -> i_draws s' = i_draws s + calls (i_heap s) p.
Proof. exact @init_draws. Qed.
Print Assumptions C58_calls.
(** So a layer in d chains, one inside the other, is initialized 2^d times. *)
Theorem C58_nested_calls : forall {T} (h : list (inode (T := T))) chains b,
  calls h (nested chains b) = 2 ^ length chains * leaf_calls h b.
Proof. exact @nested_calls. Qed.
Print Assumptions C58_nested_calls.

(** An add whose first layer has no dim nO (such as Dropout) never initializes. *)
Theorem C58_add_first_no_nO : forall {T} `{Num T} `{Trans T} (draw : nat -> list Z -> result (arr T)) to_int numpy a q qs X Y s n,
  nth_error (i_heap s) (addr_of q) = Some n -> has_dim n "nO" = Some false ->
  exists s' e, initialize draw to_int numpy (NAdd a (q :: qs)) X Y s = (s', Err e).
Proof. exact @add_first_dim. Qed.
Print Assumptions C58_add_first_no_nO.

(** Refuted: a model that was initialized with a batch runs on that batch. An add of layers of different widths, and a
    residual layer around a layer of another width, initialize and fail when they are used. *)
Theorem C58_add_mismatch_refuted : exists (s s' : ist (T := R)) (p : net) (m : mat R),
  all_sized s /\ wf_mat m /\ initialize zero_draw Int_part true p (Some (Arr2 m)) None s = (s', Ok tt) /\ predict true p (Arr2 m) s' = (s', Err ValueError).
Proof. exact add_mismatch. Qed.
Print Assumptions C58_add_mismatch_refuted.
Theorem C58_residual_mismatch_refuted : exists (s s' : ist (T := R)) (p : net) (m : mat R),
  all_sized s /\ wf_mat m /\ initialize zero_draw Int_part true p (Some (Arr2 m)) None s = (s', Ok tt) /\ predict true p (Arr2 m) s' = (s', Err ValueError).
Proof. exact residual_mismatch. Qed.
Print Assumptions C58_residual_mismatch_refuted.
(** Refuted: a model without output width that was initialized with Y gets the width of Y. A concatenation of two such
    layers gets twice that width. *)
Theorem C58_concat_width_refuted : exists (s s' : ist (T := R)) (p : net) (m y : mat R),
  all_sized s /\ wf_mat m /\ wf_mat y /\ initialize zero_draw Int_part true p (Some (Arr2 m)) (Some (Arr2 y)) s = (s', Ok tt) /\
  m_cols y = 2 /\ dim_at s (addr_of p) "nO" = None /\ dim_at s' (addr_of p) "nO" = Some 4%Z.
Proof. exact concat_width. Qed.
Print Assumptions C58_concat_width_refuted.

(** ** The hypotheses can be met *)
Definition ex_heap : list (inode (T := R)) :=
  [fresh_node 9 "chain" 9 [1; 2; 3] [("nO", None); ("nI", None)] []; new_linear 1 (Some 4%Z) None; new_linear 2 None None; new_linear 3 None None].
Definition ex_chain : net := NChain 0 [NLeaf 1; NLeaf 2; NLeaf 3].
Example C58_kept_ex : exists s', initialize zero_draw Int_part true ex_chain (Some (Arr2 (mkM 1 [[1%R]]))) (Some (Arr2 (mkM 2 [[1%R; 1%R]]))) (mkIst ex_heap 0) = (s', Ok tt) /\
  dim_at s' 1 "nO" = Some 4%Z /\ dim_at s' 2 "nI" = Some 4%Z /\ dim_at s' 2 "nO" = Some 2%Z /\ dim_at s' 3 "nO" = Some 2%Z /\ dim_at s' 0 "nO" = Some 2%Z /\ i_draws s' = 6.
Proof. eexists. split; [calc|]. repeat split. Qed.
(** Without widths of outputs it raises, but the input width of the first layer stays. *)
Example C58_frame_ex : exists s' e, initialize zero_draw Int_part true (NLeaf 2) (Some (Arr2 (mkM 1 [[1%R]]))) None (mkIst ex_heap 0) = (s', Err e) /\
  dim_at s' 2 "nI" = Some 1%Z /\ ~ In 1 (addrs (NLeaf 2)) /\ nth_error (i_heap s') 1 = nth_error ex_heap 1.
Proof. eexists. eexists. split; [calc|]. repeat split. intros [E|[]]. discriminate E. Qed.
Example C58_sized_ex : shape_ok (zero_draw (T := R)) /\ always_draws (zero_draw (T := R)) /\ all_sized (mkIst ex_heap 0).
Proof. split; [exact zero_draw_shape|]. split; [exact zero_draw_always|]. repeat constructor; intros param x names Hx; discriminate Hx. Qed.
Example C58_ready_ex : tried ex_chain /\ plain ex_chain /\ tried (NConcat 7 [ex_chain; NLeaf 4]) /\ wf_mat (mkM 1 [[1%R]]).
Proof. repeat split; [discriminate|repeat constructor]. Qed.
Example C58_shape_only_ex : exists s', initialize zero_draw Int_part true (NAdd 0 [NLeaf 1; NLeaf 2]) (Some (Arr2 (mkM 1 [[1%R]]))) (Some (Arr2 (mkM 4 [[1%R; 1%R; 1%R; 1%R]]))) (mkIst ex_heap 0) = (s', Ok tt) /\
  (exists y, predict true (NAdd 0 [NLeaf 1; NLeaf 2]) (Arr2 (mkM 1 [[1%R]])) s' = (s', Ok y)) /\ plain (NAdd 0 [NLeaf 1; NLeaf 2]).
Proof. eexists. split; [calc|]. split; [eexists; calc|repeat split]. Qed.
Example C58_fills_ex : NoDup (0 :: map fst [(1, Some 4%Z); (2, None); (3, None)]) /\ Forall (unset_linear ex_heap) [(1, Some 4%Z); (2, None); (3, None)] /\
  nth_error ex_heap 0 = Some (fresh_node 9 "chain" 9 [1; 2; 3] [("nO", None); ("nI", None)] []) /\ all_positive (mkIst ex_heap 0).
Proof.
  split; [repeat constructor; cbn; intuition discriminate|]. split.
  - repeat constructor; eexists; reflexivity.
  - split; [reflexivity|]. intros a d z. unfold dim_at. do 4 (destruct a as [|a]; [cbn; unfold dim_of, dget; cbn; repeat match goal with |- context[eqd ?x ?y] => destruct (eqd x y) end; intros E; try discriminate E; injection E; lia|]).
    destruct a; discriminate.
Qed.
Example C58_calls_ex : exists s', initialize zero_draw Int_part true (nested [0; 4] 1) None None
    (mkIst [fresh_node 9 "chain" 9 [4] [("nO", None); ("nI", None)] []; new_linear 1 (Some 4%Z) (Some 2%Z); new_linear 2 None None; new_linear 3 None None; fresh_node 8 "chain" 9 [1] [("nO", None); ("nI", None)] []] 0 : ist (T := R)) = (s', Ok tt) /\ i_draws s' = 8.
Proof. eexists. split; [calc|reflexivity]. Qed.
Example C58_add_first_ex : has_dim (new_dropout (T := R) 1) "nO" = Some false.
Proof. reflexivity. Qed.

(** The width inferred from an array of ids is the number of rows that a table needs for them. *)
Theorem C58_width_ids : forall (to_int : R -> Z) (ids : list Z), (forall z, to_int (IZR z) = z) -> ids <> [] ->
  exists w, get_width to_int (Arr1 (map IZR ids)) = Ok w /\ (forall i, In i ids -> (i < w)%Z) /\ In (w - 1)%Z ids.
Proof. exact width_ids. Qed.
Print Assumptions C58_width_ids.
Example C58_width_ids_ex : (forall z, Int_part (IZR z) = z) /\ [3%Z; 7%Z; 0%Z] <> [].
Proof.
  split; [|discriminate]. intros z. unfold Int_part. replace (up (IZR z)) with (z + 1)%Z by (apply tech_up; rewrite plus_IZR; lra). lia.
Qed.

(** Inferring the width raises, and a ValueError, exactly when the first data are an empty array of ids. *)
Theorem C58_width_raises : forall {T} {NT : Num T} (to_int : T -> Z) (X : value T) e,
  get_width to_int X = Err e <-> e = ValueError /\ first_leaf X = Some (Arr1 []).
Proof. exact @width_raises. Qed.
Print Assumptions C58_width_raises.
Example C58_width_raises_ex : first_leaf (PyList [PyTup [Arr1 []; Arr1 [1%R]]; Sc 2%R]) = Some (Arr1 []).
Proof. reflexivity. Qed.

(** Only the first of several data is looked at: others of another width are not noticed. *)
Theorem C58_width_first : forall {T} {NT : Num T} (to_int : T -> Z) (x : value T) l,
  get_width to_int (PyList (x :: l)) = get_width to_int x /\ get_width to_int (PyTup (x :: l)) = get_width to_int x.
Proof. exact @width_first. Qed.
Print Assumptions C58_width_first.
