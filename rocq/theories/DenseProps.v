(** C42: dense layers compute the exact gradient. [differentiates L tr theta X Y]: at the parameters [theta] and the
    input [X] the layer returns [Y] and a callback; for every output gradient the callback returns the input gradient and
    increments the parameter gradients so that, along every differentiable curve of parameters and inputs through this
    point, the outputs move differentiably and the inner products of gradients and velocities agree. *)
From Coq Require Import QArith.
From Coq Require Import Reals Lra.
From Verif Require Import NumQ CombModel CombSpec DenseModel DenseSpec DenseProofs.
Local Open Scope R_scope.

Definition run_layer (L : layer Q) (theta : list Q) (X dY : mat Q) (g : list Q) : result (value Q * (value Q * list Q)) :=
  let* p := L true theta (Arr2 X) in let* r := snd p (Arr2 dY) g in Ok (fst p, r).

Theorem C42_linear :
  forall nO nI wo bo tr theta X, input_of nI X -> room wo (nO * nI) theta -> room bo nO theta ->
    differentiates (Linear nO nI wo bo) tr theta (Arr2 X) (Arr2 (by_row nO (affine_at theta wo bo nI) X)).
Proof. exact linear_diff. Qed.
Print Assumptions C42_linear.
(** Two outputs, weights [[1 2]; [3 4]], bias [5; 6] *)
Example C42_linear_ex : run_layer (Linear 2 2 0 4) [1; 2; 3; 4; 5; 6]%Q (mkM 2 [[1; 10]; [0; 1]]%Q) (mkM 2 [[1; 0]; [0; 1]]%Q) [0; 0; 0; 0; 0; 7]%Q =
  Ok (Arr2 (mkM 2 [[26; 49]; [7; 10]]%Q), (Arr2 (mkM 2 [[1; 2]; [3; 4]]%Q), [1; 10; 0; 1; 1; 8]%Q)).
Proof. vm_compute. reflexivity. Qed.
Example C42_linear_hyp : input_of 2 (mkM 2 [[1; 10]; [0; 1]]) /\ room 0 (2 * 2) [1; 2; 3; 4; 5; 6] /\ room 4 2 [1; 2; 3; 4; 5; 6].
Proof. split; [split; [repeat constructor|reflexivity]|split; unfold room; cbn; auto]. Qed.

Theorem C42_relu :
  forall numpy nO nI wo bo tr theta X, input_of nI X -> room wo (nO * nI) theta -> room bo nO theta ->
    everywhere nO (fun x j => affine_at theta wo bo nI x j <> 0) X ->
    differentiates (Relu numpy nO nI wo bo) tr theta (Arr2 X) (Arr2 (by_row nO (fun x j => Rmax 0 (affine_at theta wo bo nI x j)) X)).
Proof. exact relu_diff. Qed.
Print Assumptions C42_relu.
Example C42_relu_ex : run_layer (Relu true 2 1 0 2) [1; -1; 0; 0]%Q (mkM 1 [[3]; [-2]]%Q) (mkM 2 [[1; 1]; [1; 1]]%Q) [0; 0; 0; 0]%Q =
  Ok (Arr2 (mkM 2 [[3; 0]; [0; 2]]%Q), (Arr2 (mkM 1 [[1]; [-1]]%Q), [3; -2; 1; 1]%Q)).
Proof. vm_compute. reflexivity. Qed.
Example C42_relu_hyp : everywhere 1 (fun x j => affine_at [2; 1] 0 1 1 x j <> 0) (mkM 1 [[3]; [-2]]).
Proof. intros x [<- | [<- | []]] [|j] Hj; try (inversion Hj; match goal with H : (S _ <= _)%nat |- _ => inversion H end); unfold affine_at; cbn; lra. Qed.

Theorem C42_clipped_linear :
  forall slope offset lo hi nO nI wo bo tr theta X, 0 < slope -> input_of nI X -> room wo (nO * nI) theta -> room bo nO theta ->
    everywhere nO (fun x j => affine_at theta wo bo nI x j * slope + offset <> lo /\ affine_at theta wo bo nI x j * slope + offset <> hi) X ->
    differentiates (ClippedLinear slope offset lo hi nO nI wo bo) tr theta (Arr2 X)
      (Arr2 (by_row nO (fun x j => Rmin hi (Rmax lo (affine_at theta wo bo nI x j * slope + offset))) X)).
Proof. exact clipped_diff. Qed.
Print Assumptions C42_clipped_linear.
Example C42_clipped_ex : run_layer (ClippedLinear 2 (1#2) 0 1 1 1 0 1)%Q [1; 0]%Q (mkM 1 [[1#8]; [3]; [-2]]%Q) (mkM 1 [[1]; [1]; [1]]%Q) [0; 0]%Q =
  Ok (Arr2 (mkM 1 [[3#4]; [1]; [0]]%Q), (Arr2 (mkM 1 [[2]; [0]; [0]]%Q), [1#4; 2]%Q)).
Proof. vm_compute. reflexivity. Qed.

(** With the slope 0 the callback divides by zero. *)
Theorem C42_clipped_slope_zero :
  forall offset lo hi nO nI wo bo tr theta X Y b, ClippedLinear 0 offset lo hi nO nI wo bo tr theta (Arr2 X) = Ok (Y, b) ->
    forall dY g, b (Arr2 dY) g = Err ZeroDivisionError.
Proof. exact clipped_zero. Qed.
Print Assumptions C42_clipped_slope_zero.
Example C42_clipped_slope_zero_ex : run_layer (ClippedLinear 0 (1#2) 0 1 1 1 0 1)%Q [1; 0]%Q (mkM 1 [[3]]%Q) (mkM 1 [[1]]%Q) [0; 0]%Q = Err ZeroDivisionError.
Proof. vm_compute. reflexivity. Qed.

(** On the compiled backend the batch must have rows: its backprop raises IndexError on an empty one (C36). *)
Theorem C42_maxout :
  forall numpy nO nP nI wo bo tr theta X, input_of nI X -> room wo (nO * nP * nI) theta -> room bo (nO * nP) theta ->
    nO <> 0%nat -> nP <> 0%nat -> (numpy = true -> m_rows X <> []) ->
    everywhere nO (fun x o => unique_max (pieces theta wo bo nI nP x o)) X ->
    differentiates (Maxout numpy nO nP nI wo bo) tr theta (Arr2 X) (Arr2 (by_row nO (fun x o => maximum (pieces theta wo bo nI nP x o)) X)).
Proof. exact maxout_diff. Qed.
Print Assumptions C42_maxout.
Example C42_maxout_ex : run_layer (Maxout true 1 3 1 0 3) [1; -1; 0; 0; 0; 1]%Q (mkM 1 [[3]; [-2]; [1#2]]%Q) (mkM 1 [[1]; [10]; [100]]%Q) [0; 0; 0; 0; 0; 0]%Q =
  Ok (Arr2 (mkM 1 [[3]; [2]; [1]]%Q), (Arr2 (mkM 1 [[1]; [-10]; [0]]%Q), [3; -20; 50; 1; 10; 100]%Q)).
Proof. vm_compute. reflexivity. Qed.
Example C42_maxout_hyp : everywhere 1 (fun x o => unique_max (pieces [1; -1; 0; 0] 0 2 1 2 x o)) (mkM 1 [[3]]).
Proof.
  intros x [<- | []] [|j] Hj; [|inversion Hj; match goal with H : (S _ <= _)%nat |- _ => inversion H end].
  exists 0%nat, (3 * 1 + 0 + 0). split; [reflexivity|]. intros [|[|p]] y E Hp; [congruence| |destruct p; discriminate]. injection E as <-. unfold affine_at; cbn; lra.
Qed.

Theorem C42_layernorm :
  forall nI go bo tr theta X, input_of nI X -> room go nI theta -> room bo nI theta ->
    differentiates (LayerNorm nI go bo) tr theta (Arr2 X) (Arr2 (by_row nI (layer_norm_at theta go bo) X)).
Proof. exact layernorm_diff. Qed.
Print Assumptions C42_layernorm.
Example C42_layernorm_hyp : input_of 2 (mkM 2 [[1; 3]; [0; 0]]) /\ room 0 2 [1; 1; 0; 0] /\ room 2 2 [1; 1; 0; 0].
Proof. split; [split; [repeat constructor|reflexivity]|split; unfold room; cbn; auto]. Qed.

(** An input of another width, or a parameter that is not there. *)
Theorem C42_input_width :
  forall nO nI wo bo tr theta X, m_cols X <> nI -> room wo (nO * nI) theta -> room bo nO theta ->
    Linear nO nI wo bo tr theta (Arr2 X) = Err ValueError /\
    (forall numpy, Relu numpy nO nI wo bo tr theta (Arr2 X) = Err ValueError) /\
    (forall slope offset lo hi, ClippedLinear slope offset lo hi nO nI wo bo tr theta (Arr2 X) = Err ValueError).
Proof. exact linear_width. Qed.
Print Assumptions C42_input_width.
Example C42_input_width_ex : run_layer (Linear 1 2 0 2) [1; 2; 3]%Q (mkM 1 [[1]]%Q) (mkM 1 [[1]]%Q) [0; 0; 0]%Q = Err ValueError.
Proof. vm_compute. reflexivity. Qed.

Theorem C42_maxout_width :
  forall numpy nO nP nI wo bo tr theta X, m_cols X <> nI -> room wo (nO * nP * nI) theta -> room bo (nO * nP) theta ->
    Maxout numpy nO nP nI wo bo tr theta (Arr2 X) = Err ValueError.
Proof. exact maxout_width. Qed.
Print Assumptions C42_maxout_width.
Example C42_maxout_width_ex : run_layer (Maxout true 1 1 2 0 2) [1; 2; 3]%Q (mkM 1 [[1]]%Q) (mkM 1 [[1]]%Q) [0; 0; 0]%Q = Err ValueError.
Proof. vm_compute. reflexivity. Qed.

Theorem C42_missing_bias :
  forall nO nI wo bo tr theta X, ~ room bo nO theta ->
    Linear nO nI wo bo tr theta X = Err KeyError /\ (forall numpy, Relu numpy nO nI wo bo tr theta X = Err KeyError) /\
    (forall slope offset lo hi, ClippedLinear slope offset lo hi nO nI wo bo tr theta X = Err KeyError).
Proof. exact missing_bias. Qed.
Print Assumptions C42_missing_bias.
Example C42_missing_bias_ex : run_layer (Linear 1 2 0 2) [1; 2]%Q (mkM 2 [[1; 1]]%Q) (mkM 1 [[1]]%Q) [0; 0]%Q = Err KeyError.
Proof. vm_compute. reflexivity. Qed.

(** A gradient with another number of rows is rejected. *)
Theorem C42_gradient_rows :
  forall nO nI wo bo tr theta X, input_of nI X -> room wo (nO * nI) theta -> room bo nO theta ->
    exists Y b, Linear nO nI wo bo tr theta (Arr2 X) = Ok (Y, b) /\
      forall dY g, length g = length theta -> wf_mat dY -> m_cols dY = nO -> length (m_rows dY) <> length (m_rows X) -> b (Arr2 dY) g = Err ValueError.
Proof. exact linear_grad_width. Qed.
Print Assumptions C42_gradient_rows.
Example C42_gradient_rows_ex : run_layer (Linear 1 1 0 1) [1; 2]%Q (mkM 1 [[1]]%Q) (mkM 1 [[1]; [2]]%Q) [0; 0]%Q = Err ValueError.
Proof. vm_compute. reflexivity. Qed.

(** LayerNorm does not check the width: an input of width 1 is broadcast against the parameters. *)
Theorem C42_layernorm_width_refuted :
  exists Y b, LayerNorm 2 0 2 true [1; 1; 0; 0] (Arr2 (mkM 1 [[5]])) = Ok (Y, b) /\ exists m, Y = Arr2 m /\ m_cols m = 2%nat.
Proof. exact layernorm_broadcast. Qed.
Print Assumptions C42_layernorm_width_refuted.
