(** C62: parametric attention, Cauchy similarity and the reduction layers. *)
From Coq Require Import QArith Reals Lra Lia.
From Verif Require Import NumQ SoftSpec ReduceSpec AttnModel AttnSpec AttnProofs AttnReduceProofs AttnCauchyProofs AttnMainProofs.
Local Open Scope R_scope.

(** A toy exponential on the rationals, to run the model: powers of two of whole numbers *)
Local Instance trans_toy : Trans Q := {| nexp := fun x => Qpower 2 (Qround.Qfloor x); nln := fun x => x; ntanh := fun x => x; ncosh := fun x => x; npi := 3%Q |}.

(** ** Attention *)

(** Each row of a Ragged is multiplied with its weight: within each sequence, the softmax of the products of the
    transformed rows with the learned vector. If the key transform differentiates, so does the layer, along every curve of
    inputs and of all parameters, as long as the products stay within the clip of the exponential. *)
Theorem C62_attention :
  forall numpy key nO qo tr theta c X K lengths,
    input_of c X -> c <> 0%nat -> m_rows X <> [] -> ReduceSpec.nonneg lengths -> zsum lengths = Z.of_nat (length (m_rows X)) -> room qo nO theta ->
    differentiates key tr theta (Arr2 X) (Arr2 K) -> m_cols K = nO -> length (m_rows K) = length (m_rows X) ->
    let s := scores (firstn nO (skipn qo theta)) K in Forall (fun a => -20 < a < 20) s ->
    differentiates (ParametricAttention_v2 numpy key nO qo) tr theta (Rag X c lengths) (Rag (weighted (attention_weights lengths s) X) c lengths).
Proof. exact attention_diff. Qed.
Print Assumptions C62_attention.
(** The first version is the second without a transform *)
Theorem C62_attention_versions :
  forall numpy nO qo tr (theta : list R) X, ParametricAttention numpy nO qo tr theta X = ParametricAttention_v2 numpy noop nO qo tr theta X.
Proof. exact attention_old. Qed.
Print Assumptions C62_attention_versions.
Theorem C62_attention_v1 :
  forall numpy nO qo tr theta X lengths,
    input_of nO X -> nO <> 0%nat -> m_rows X <> [] -> ReduceSpec.nonneg lengths -> zsum lengths = Z.of_nat (length (m_rows X)) -> room qo nO theta ->
    let s := scores (firstn nO (skipn qo theta)) X in Forall (fun a => -20 < a < 20) s ->
    differentiates (ParametricAttention numpy nO qo) tr theta (Rag X nO lengths) (Rag (weighted (attention_weights lengths s) X) nO lengths).
Proof. exact attention_old_diff. Qed.
Print Assumptions C62_attention_v1.
(** The weights of each non-empty sequence are positive and sum to 1 *)
Theorem C62_attention_distribution :
  forall lengths s, ReduceSpec.nonneg lengths -> zsum lengths = Z.of_nat (length s) ->
    Forall (fun t => t <> [] -> distribution t) (chop (map Z.to_nat lengths) (attention_weights lengths s)).
Proof. exact attention_distribution. Qed.
Print Assumptions C62_attention_distribution.
Example C62_attention_ex :
  map (fun numpy => let* y := ParametricAttention numpy 2 1 true [9; 1; -1]%Q (Rag (mkM 2 [[3; 1]; [2; 1]; [5; 7]]%Q) 2 [2; 0; 1]%Z) in
    let* dy := snd y (Rag (mkM 2 [[3; 0]; [0; 0]; [0; 1]]%Q) 2 [2; 0; 1]%Z) [0; 0; 0]%Q in Ok (vmap Qred (fst y), vmap Qred (fst dy), map Qred (snd dy))) [true; false]
  = let y := Ok (Rag (mkM 2 [[2; 2#3]; [2#3; 1#3]; [5; 7]]%Q) 2 [2; 0; 1]%Z, Rag (mkM 2 [[4; -2]; [-2; 2]; [0; 1]]%Q) 2 [2; 0; 1]%Z, [0; 2; 0]%Q) in [y; y].
Proof. vm_compute. reflexivity. Qed.
Example C62_attention_hyp :
  let X := mkM 2 [[3; 1]; [2; 1]; [5; 7]] in let theta := [9; 1; -1] in
  input_of 2 X /\ room 1 2 theta /\ zsum [2; 0; 1]%Z = Z.of_nat (length (m_rows X)) /\ Forall (fun a => -20 < a < 20) (scores (firstn 2 (skipn 1 theta)) X).
Proof. cbv zeta. unfold input_of, room, scores, dot, wf_mat. cbn. repeat split; repeat constructor; lra. Qed.

(** Errors: no learned vector; a transform of another width; whatever the transform raises. *)
Theorem C62_attention_no_query : forall numpy key nO qo tr theta X, ~ room qo nO theta -> ParametricAttention_v2 numpy key nO qo tr theta X = Err KeyError.
Proof. exact attention_no_query. Qed.
Print Assumptions C62_attention_no_query.
Theorem C62_attention_width :
  forall numpy key nO qo tr theta c X K kb lengths, input_of c X -> c <> 0%nat -> m_rows X <> [] -> room qo nO theta ->
    key tr theta (Arr2 X) = Ok (Arr2 K, kb) -> m_cols K <> nO -> ParametricAttention_v2 numpy key nO qo tr theta (Rag X c lengths) = Err ValueError.
Proof. exact attention_width. Qed.
Print Assumptions C62_attention_width.
Theorem C62_attention_key_error :
  forall numpy key nO qo tr theta c X lengths e, input_of c X -> c <> 0%nat -> m_rows X <> [] -> room qo nO theta ->
    key tr theta (Arr2 X) = Err e -> ParametricAttention_v2 numpy key nO qo tr theta (Rag X c lengths) = Err e.
Proof. exact attention_key_error. Qed.
Print Assumptions C62_attention_key_error.
Example C62_attention_width_ex : (let* y := ParametricAttention true 3 0 true [1; 2; 3]%Q (Rag (mkM 2 [[3; 1]]%Q) 2 [1]%Z) in Ok (fst y)) = Err ValueError.
Proof. vm_compute. reflexivity. Qed.

(** Findings. A batch without rows makes the compiled backend raise; products beyond the clip all count alike, and there the
    callback still returns a gradient although the output does not move. *)
Theorem C62_attention_empty_refuted :
  forall tr q, ParametricAttention true 1 0 tr [q] (Rag (mkM 0 []) 1 [0%Z]) = Err IndexError /\
    exists b, ParametricAttention false 1 0 tr [q] (Rag (mkM 0 []) 1 [0%Z]) = Ok (Rag (mkM 0 []) 1 [0%Z], b).
Proof. exact attention_empty. Qed.
Print Assumptions C62_attention_empty_refuted.
Theorem C62_attention_clip_refuted :
  forall numpy tr, exists b,
    ParametricAttention numpy 1 0 tr [1] (Rag (mkM 1 [[30]; [25]]) 1 [2%Z]) = Ok (Rag (mkM 1 [[15]; [25 / 2]]) 1 [2%Z], b) /\
    ~ differentiates (ParametricAttention numpy 1 0) tr [1] (Rag (mkM 1 [[30]; [25]]) 1 [2%Z]) (Rag (mkM 1 [[15]; [25 / 2]]) 1 [2%Z]).
Proof. exact clip_example. Qed.
Print Assumptions C62_attention_clip_refuted.

(** ** Cauchy similarity *)

(** One over one plus the weighted squared distance of the rows, and its derivative in both inputs and the weights. *)
Theorem C62_cauchy :
  forall nI wo tr theta X1 X2, input_of nI X1 -> input_of nI X2 -> length (m_rows X1) = length (m_rows X2) -> room wo nI theta ->
    let w := firstn nI (skipn wo theta) in Forall (fun p => 1 + distance w (fst p) (snd p) <> 0) (combine (m_rows X1) (m_rows X2)) ->
    differentiates (CauchySimilarity nI wo) tr theta (PyTup [Arr2 X1; Arr2 X2]) (Arr1 (map (fun p => cauchy w (fst p) (snd p)) (combine (m_rows X1) (m_rows X2)))).
Proof. exact cauchy_diff. Qed.
Print Assumptions C62_cauchy.
Theorem C62_cauchy_siamese :
  forall l nI wo tr theta A1 A2 X1 X2, differentiates l tr theta A1 (Arr2 X1) -> differentiates l tr theta A2 (Arr2 X2) ->
    m_cols X1 = nI -> m_cols X2 = nI -> length (m_rows X1) = length (m_rows X2) -> room wo nI theta ->
    let w := firstn nI (skipn wo theta) in Forall (fun p => 1 + distance w (fst p) (snd p) <> 0) (combine (m_rows X1) (m_rows X2)) ->
    differentiates (siamese l (CauchySimilarity nI wo)) tr theta (PyTup [A1; A2]) (Arr1 (map (fun p => cauchy w (fst p) (snd p)) (combine (m_rows X1) (m_rows X2)))).
Proof. exact cauchy_siamese. Qed.
Print Assumptions C62_cauchy_siamese.
Theorem C62_cauchy_facts :
  forall w a b, length a = length b -> cauchy w a b = cauchy w b a /\ cauchy w a a = 1 /\ (Forall (fun x => 0 <= x) w -> 0 < cauchy w a b <= 1).
Proof. exact cauchy_facts. Qed.
Print Assumptions C62_cauchy_facts.
Example C62_cauchy_ex :
  (let* y := CauchySimilarity 2 1 true [9; 1; 2]%Q (PyTup [Arr2 (mkM 2 [[1; 2]; [3; 4]]%Q); Arr2 (mkM 2 [[0; 1]; [3; 4]]%Q)]) in
   let* dy := snd y (Arr1 [8; 5]%Q) [0; 0; 0]%Q in Ok (vmap Qred (fst y), vmap Qred (fst dy), map Qred (snd dy)))
  = Ok (Arr1 [1#4; 1]%Q, PyTup [Arr2 (mkM 2 [[-1; -2]; [0; 0]]%Q); Arr2 (mkM 2 [[1; 2]; [0; 0]]%Q)], [0; -1#2; -1#2]%Q).
Proof. vm_compute. reflexivity. Qed.
Theorem C62_cauchy_errors :
  forall nI wo tr theta X1 X2, input_of nI X1 -> input_of nI X2 ->
    (~ room wo nI theta -> CauchySimilarity nI wo tr theta (PyTup [Arr2 X1; Arr2 X2]) = Err KeyError) /\
    (room wo nI theta -> length (m_rows X1) <> length (m_rows X2) -> length (m_rows X1) <> 1%nat -> length (m_rows X2) <> 1%nat ->
       CauchySimilarity nI wo tr theta (PyTup [Arr2 X1; Arr2 X2]) = Err ValueError).
Proof. exact cauchy_errors. Qed.
Print Assumptions C62_cauchy_errors.
Theorem C62_cauchy_arity :
  forall nI wo tr theta (Xs : list (value R)), length Xs <> 2%nat ->
    CauchySimilarity nI wo tr theta (PyTup Xs) = Err ValueError /\ CauchySimilarity nI wo tr theta (PyList Xs) = Err ValueError.
Proof. exact cauchy_arity. Qed.
Print Assumptions C62_cauchy_arity.
Example C62_cauchy_errors_ex : (let* y := CauchySimilarity 1 0 true [9]%Q (PyTup [Arr2 (mkM 1 [[1]; [2]]%Q); Arr2 (mkM 1 [[1]; [2]; [3]]%Q)]) in Ok (fst y)) = Err ValueError.
Proof. vm_compute. reflexivity. Qed.
(** Finding: one row is compared with each of several, but then its gradient has the shape of the other input. *)
Theorem C62_cauchy_broadcast_refuted :
  forall tr, exists b g, CauchySimilarity 1 0 tr [1] (PyTup [Arr2 (mkM 1 [[0]]); Arr2 (mkM 1 [[0]; [1]])]) = Ok (Arr1 [1; 1 / 2], b) /\
    b (Arr1 [0; 1]) [0] = Ok (PyTup [Arr2 (mkM 1 [[0]; [1 / 2]]); Arr2 (mkM 1 [[0]; [- (1 / 2)]])], g) /\ ~ like (Arr2 (mkM 1 [[0]; [1 / 2]])) (Arr2 (mkM 1 [[0]])).
Proof. exact cauchy_broadcast. Qed.
Print Assumptions C62_cauchy_broadcast_refuted.

(** ** Reductions of the sequences of a Ragged *)
Theorem C62_reduce_sum :
  forall tr theta c X lengths, input_of c X -> c <> 0%nat -> m_rows X <> [] -> zsum lengths = Z.of_nat (length (m_rows X)) -> forall numpy, ReduceSpec.nonneg lengths ->
    differentiates (reduce_sum_layer numpy) tr theta (Rag X c lengths) (Arr2 (mkM c (map (colsum c) (seqs_of lengths (m_rows X))))).
Proof. exact sum_diff. Qed.
Print Assumptions C62_reduce_sum.
Theorem C62_reduce_mean :
  forall tr theta c X lengths, input_of c X -> c <> 0%nat -> m_rows X <> [] -> zsum lengths = Z.of_nat (length (m_rows X)) -> forall numpy, ReduceSpec.nonneg lengths ->
    differentiates (reduce_mean_layer numpy) tr theta (Rag X c lengths) (Arr2 (mkM c (map (colmean c) (seqs_of lengths (m_rows X))))).
Proof. exact mean_diff. Qed.
Print Assumptions C62_reduce_mean.
Theorem C62_reduce_first :
  forall tr theta c X lengths, input_of c X -> c <> 0%nat -> m_rows X <> [] -> zsum lengths = Z.of_nat (length (m_rows X)) -> ReduceSpec.positive lengths ->
    differentiates reduce_first_layer tr theta (Rag X c lengths) (Arr2 (mkM c (map (fun s => nth 0 s []) (seqs_of lengths (m_rows X))))).
Proof. exact first_diff. Qed.
Print Assumptions C62_reduce_first.
Theorem C62_reduce_last :
  forall tr theta c X lengths, input_of c X -> c <> 0%nat -> m_rows X <> [] -> zsum lengths = Z.of_nat (length (m_rows X)) -> ReduceSpec.positive lengths ->
    differentiates reduce_last_layer tr theta (Rag X c lengths) (Arr2 (mkM c (map (fun s => last s []) (seqs_of lengths (m_rows X))))).
Proof. exact last_diff. Qed.
Print Assumptions C62_reduce_last.
Theorem C62_reduce_max :
  forall tr theta c X lengths, input_of c X -> c <> 0%nat -> m_rows X <> [] -> zsum lengths = Z.of_nat (length (m_rows X)) -> forall numpy, ReduceSpec.positive lengths ->
    clear_maxima lengths X ->
    differentiates (reduce_max_layer numpy) tr theta (Rag X c lengths) (Arr2 (mkM c (map (fun s => map (fun j => maximum (col 0 j s)) (seq 0 c)) (seqs_of lengths (m_rows X))))).
Proof. exact max_diff. Qed.
Print Assumptions C62_reduce_max.
(** With a tie the maximum has no derivative *)
Theorem C62_reduce_max_tie_refuted :
  forall numpy tr theta, exists b, reduce_max_layer numpy tr theta (Rag (mkM 1 [[0]; [0]]) 1 [2%Z]) = Ok (Arr2 (mkM 1 [[0]]), b) /\
    ~ differentiates (reduce_max_layer numpy) tr theta (Rag (mkM 1 [[0]; [0]]) 1 [2%Z]) (Arr2 (mkM 1 [[0]])).
Proof. exact max_tie. Qed.
Print Assumptions C62_reduce_max_tie_refuted.
(** A gradient of another shape is refused *)
Theorem C62_reduce_shape :
  forall numpy tr theta (m : mat R) w lengths, Forall (fun L : layer R => forall Y b dY g, L tr theta (Rag m w lengths) = Ok (Arr2 Y, b) ->
    (length (m_rows dY), m_cols dY) <> (length (m_rows Y), m_cols Y) -> b (Arr2 dY) g = Err ValueError) [reduce_sum_layer numpy; reduce_mean_layer numpy; reduce_max_layer numpy; reduce_first_layer; reduce_last_layer].
Proof. exact layers_check_shape. Qed.
Print Assumptions C62_reduce_shape.
Definition ex_rag : value Q := Rag (mkM 2 [[1; 2]; [3; 1]; [5; 7]]%Q) 2 [2; 1]%Z.
Example C62_reduce_ex :
  map (fun L : layer Q => let* y := L true [] ex_rag in let* dy := snd y (Arr2 (mkM 2 [[2; 4]; [6; 8]]%Q)) [] in Ok (vmap Qred (fst y), vmap Qred (fst dy)))
    [reduce_sum_layer true; reduce_mean_layer false; reduce_max_layer true; reduce_first_layer; reduce_last_layer]
  = let r m := Rag (mkM 2 m) 2 [2; 1]%Z in
    [Ok (Arr2 (mkM 2 [[4; 3]; [5; 7]]), r [[2; 4]; [2; 4]; [6; 8]]); Ok (Arr2 (mkM 2 [[2; 3#2]; [5; 7]]), r [[1; 2]; [1; 2]; [6; 8]]);
     Ok (Arr2 (mkM 2 [[3; 2]; [5; 7]]), r [[0; 4]; [2; 0]; [6; 8]]); Ok (Arr2 (mkM 2 [[1; 2]; [5; 7]]), r [[2; 4]; [0; 0]; [6; 8]]);
     Ok (Arr2 (mkM 2 [[3; 1]; [5; 7]]), r [[0; 0]; [2; 4]; [6; 8]])]%Q.
Proof. vm_compute. reflexivity. Qed.
Example C62_reduce_shape_ex : (let* y := reduce_sum_layer true true [] ex_rag in let* dy := snd y (Arr2 (mkM 2 [[2; 4]]%Q)) [] in Ok (fst dy)) = Err ValueError.
Proof. vm_compute. reflexivity. Qed.
Example C62_clear_maxima_ex : clear_maxima [2; 1]%Z (mkM 2 [[1; 2]; [3; 1]; [5; 7]]).
Proof.
  unfold clear_maxima, seqs_of. cbn. repeat apply Forall_cons; [| |apply Forall_nil]; intros [|[|j]] Hj; try lia; unfold unique_max.
  - exists 1%nat, 3. split; [reflexivity|]. intros [|[|[|p]]] x E N; cbn in E; try discriminate; try (exfalso; now apply N); injection E as <-; lra.
  - exists 0%nat, 2. split; [reflexivity|]. intros [|[|[|p]]] x E N; cbn in E; try discriminate; try (exfalso; now apply N); injection E as <-; lra.
  - exists 0%nat, 5. split; [reflexivity|]. intros [|[|p]] x E N; cbn in E; try discriminate; try (exfalso; now apply N).
  - exists 0%nat, 7. split; [reflexivity|]. intros [|[|p]] x E N; cbn in E; try discriminate; try (exfalso; now apply N).
Qed.
