(** C41: combinators backpropagate by the chain rule. *)
From Coq Require Import QArith.
From Verif Require Import CombModel CombSpec CombBuiltProofs CombDiffProofs NumQ.

(** [differentiates L tr theta X Y] says that the callback of L at X is the adjoint of the derivative of L with
    respect to the input and to all parameters, and that the layer runs without error on all inputs of that shape. *)

Theorem C41_noop : forall tr theta X, wfv X -> differentiates noop tr theta X X.
Proof. exact noop_ok. Qed.
Print Assumptions C41_noop.

Theorem C41_chain : forall tr theta ls X Z,
  chained (fun l X Y => differentiates l tr theta X Y) ls X Z -> differentiates (chain ls) tr theta X Z.
Proof. exact chain_ok. Qed.
Print Assumptions C41_chain.

(** add, for any number of layers whose outputs are arrays of the same shape *)
Theorem C41_add : forall tr theta l ls X Y Ys, is_array X -> is_array Y ->
  differentiates l tr theta X Y -> Forall2 (fun l Y => differentiates l tr theta X Y) ls Ys ->
  Forall (fun Y' => like Y' Y) Ys -> exists Z, iadd_all Y Ys = Ok Z /\ differentiates (add (l :: ls)) tr theta X Z.
Proof. exact add_ex. Qed.
Print Assumptions C41_add.

(** concatenate on 2d outputs of any widths; the input may be an array, a Ragged or a Padded *)
Theorem C41_concatenate : forall tr theta ls X ms n, has_data X -> ls <> [] ->
  Forall2 (fun l m => differentiates l tr theta X (Arr2 m)) ls ms -> Forall (fun m => length (m_rows m) = n) ms ->
  exists m, hstack ms = Ok m /\ differentiates (concatenation ls) tr theta X (Arr2 m).
Proof. exact concat_ex. Qed.
Print Assumptions C41_concatenate.

Theorem C41_residual : forall tr theta l X Y, can_residual X -> wfv X -> like Y X -> differentiates l tr theta X Y ->
  exists Z, gives (residual l) tr theta X Z /\ like Z X /\ differentiates (residual l) tr theta X Z.
Proof. exact residual_ex. Qed.
Print Assumptions C41_residual.

Theorem C41_tuplify : forall tr theta ls X Ys, is_array X -> ls <> [] ->
  Forall2 (fun l Y => differentiates l tr theta X Y) ls Ys -> differentiates (tuplify ls) tr theta X (PyTup Ys).
Proof. exact tuplify_ok. Qed.
Print Assumptions C41_tuplify.

Theorem C41_siamese : forall tr theta l sim X1 X2 Y1 Y2 Z,
  differentiates l tr theta X1 Y1 -> differentiates l tr theta X2 Y2 -> differentiates sim tr theta (PyTup [Y1; Y2]) Z ->
  differentiates (siamese l sim) tr theta (PyTup [X1; X2]) Z.
Proof. exact siamese_ok. Qed.
Print Assumptions C41_siamese.

Theorem C41_map_list : forall tr theta l Xs Ys, Forall2 (fun X Y => differentiates l tr theta X Y) Xs Ys ->
  differentiates (map_list l) tr theta (PyList Xs) (PyList Ys).
Proof. exact map_list_ok. Qed.
Print Assumptions C41_map_list.

Theorem C41_clone : forall tr theta l copies n c X Y, clone l copies n = Ok c -> (n <> 0)%Z ->
  chained (fun l X Y => differentiates l tr theta X Y) (l :: map copies (seq 0 (Z.to_nat (n - 1)))) X Y ->
  differentiates c tr theta X Y.
Proof. exact clone_ok. Qed.
Print Assumptions C41_clone.

Theorem C41_clone_zero : forall tr theta l copies X, wfv X ->
  exists c, clone l copies 0 = Ok c /\ differentiates c tr theta X X.
Proof. exact clone_zero. Qed.
Print Assumptions C41_clone_zero.

Theorem C41_with_debug : forall tr theta l f h X Y, (forall X' tr', f X' tr' = Ok tt) -> (forall d, h d = Ok tt) ->
  differentiates l tr theta X Y -> differentiates (with_debug l f h) tr theta X Y.
Proof. exact debug_ok. Qed.
Print Assumptions C41_with_debug.

Theorem C41_resizable : forall tr theta l X Y, differentiates l tr theta X Y -> differentiates (resizable l) tr theta X Y.
Proof. exact resizable_ok. Qed.
Print Assumptions C41_resizable.

(** any nesting of the combinators *)
Theorem C41_nested : forall tr theta l X Y, built tr theta l X Y -> differentiates l tr theta X Y.
Proof. exact built_ok. Qed.
Print Assumptions C41_nested.

(** Findings: values without elementwise addition. Layers that return Ragged cannot be added at all. *)
Theorem C41_add_ragged_raises : forall tr theta l1 l2 ls X m w lens b1 Y2 b2,
  l1 tr theta X = Ok (Rag m w lens, b1) -> l2 tr theta X = Ok (Y2, b2) -> @add R _ (l1 :: l2 :: ls) tr theta X = Err TypeError.
Proof. exact add_ragged_raises. Qed.
Print Assumptions C41_add_ragged_raises.

(** residual: a layer that returns fewer items than it is given. *)
Theorem C41_residual_short : forall (T : Type) (N : Num T) (l : layer T) tr theta xs ys b, l tr theta (PyList xs) = Ok (PyList ys, b) -> (length ys < length xs)%nat ->
  Forall (fun p => exists z, vadd (fst p) (snd p) = Ok z) (combine xs ys) -> residual l tr theta (PyList xs) = Err IndexError.
Proof. exact @residual_short. Qed.
Print Assumptions C41_residual_short.
Example C41_residual_short_ex : residual (fun _ _ X => Ok (PyList [Arr1 [1%Q]], fun d g => Ok (d, g))) true [] (PyList [Arr1 [1%Q]; Arr1 [2%Q]]) = Err IndexError.
Proof. reflexivity. Qed.

(** Outputs that are lists or tuples are joined, not added. *)
Theorem C41_add_lists_refuted : forall (T : Type) (N : Num T) (l1 l2 : layer T) tr theta X ys1 b1 ys2 b2, l1 tr theta X = Ok (PyList ys1, b1) -> l2 tr theta X = Ok (PyList ys2, b2) ->
  exists b, add [l1; l2] tr theta X = Ok (PyList (ys1 ++ ys2), b).
Proof. exact @add_lists. Qed.
Print Assumptions C41_add_lists_refuted.
Theorem C41_add_tuples_refuted : forall (T : Type) (N : Num T) (l1 l2 : layer T) tr theta X ys1 b1 ys2 b2, l1 tr theta X = Ok (PyTup ys1, b1) -> l2 tr theta X = Ok (PyTup ys2, b2) ->
  exists b, add [l1; l2] tr theta X = Ok (PyTup (ys1 ++ ys2), b).
Proof. exact @add_tuples. Qed.
Print Assumptions C41_add_tuples_refuted.
Theorem C41_concatenate_mixed : forall (T : Type) (N : Num T) (l1 l2 : layer T) tr theta X m w lens b1 Y b2, l1 tr theta X = Ok (Rag m w lens, b1) -> l2 tr theta X = Ok (Y, b2) -> (forall m' w' lens', Y <> Rag m' w' lens') ->
  concatenation [l1; l2] tr theta X = Err TypeError.
Proof. exact @concat_mixed. Qed.
Print Assumptions C41_concatenate_mixed.

(** Concatenating lists: the gradient of the input is twice as long as the input. *)
Theorem C41_concatenate_list_refuted : exists Y b dX, concatenation [noop; noop] true [] ex_list = Ok (Y, b) /\
  differentiates noop true [] ex_list ex_list /\ like ex_grad Y /\ b ex_grad [] = Ok (dX, []) /\
  leaves dX = [1; 3; 2; 4]%R /\ ~ like dX ex_list.
Proof. exact list_concat_refuted. Qed.
Print Assumptions C41_concatenate_list_refuted.

(** Concatenating Ragged: the callback always fails. *)
Theorem C41_concatenate_ragged_refuted : exists Y b, concatenation [noop; noop] true [] ex_ragged = Ok (Y, b) /\
  differentiates noop true [] ex_ragged ex_ragged /\ leaves Y = [1; 1; 2; 2]%R /\ b Y [] = Err TypeError.
Proof. exact ragged_concat_refuted. Qed.
Print Assumptions C41_concatenate_ragged_refuted.

(** A child that meets the hypothesis: multiplication by a parameter. *)
Example C41_child_ex : forall i tr theta m, wf_mat m -> (i < length theta)%nat ->
  differentiates (scale i) tr theta (Arr2 m) (Arr2 (mkM (m_cols m) (map (map (Rmult (nth i theta 0%R))) (m_rows m)))).
Proof. exact scale_ok. Qed.
Example C41_nested_ex : exists Y, built true [2; 3]%R (chain [add [scale 0; noop]; residual (scale 1); concatenation [noop; scale 0]]) ex_X Y.
Proof. exact ex_built. Qed.
(** y = (a + 1) x (1 + b) | a (a + 1) x (1 + b), with x = 1, a = 2, b = 3: y = (12, 24); with gradient (1, 1) and
    two earlier accumulated gradients (10, 20). *)
Definition run (X : value Q) (dY : value Q) : result (value Q * (value Q * list Q)) :=
  let* r := chain [add [scale 0; noop]; residual (scale 1); concatenation [noop; scale 0]] true [2; 3]%Q X in
  let* d := snd r dY [10; 20]%Q in Ok (fst r, d).
Example C41_run_ex : run (Arr2 (mkM 1 [[1]])) (Arr2 (mkM 2 [[1; 1]]))
  = Ok (Arr2 (mkM 2 [[12; 24]]), (Arr2 (mkM 1 [[36]]), [34; 29]))%Q.
Proof. reflexivity. Qed.
