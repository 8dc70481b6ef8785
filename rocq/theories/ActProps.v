(** C44: the backprops of the activation functions multiply by the true derivative. [true_at f back x]: if [f] has a
    derivative at the real number [x], [back] multiplies every gradient by it. *)
From Coq Require Import QArith.
From Coq Require Import Reals Lra.
From Verif Require Import NumQ CombModel CombSpec DenseModel DenseSpec ActModel ActSpec ActProofs ActGeluProofs ActLayersProofs.
Local Open Scope R_scope.

Theorem C44_relu :
  forall (numpy : bool) x, (x <> 0 -> differentiable (Rmax 0) x) /\
    (if numpy then np_relu else op_relu) (mkM 1 [[x]]) = mkM 1 [[Rmax 0 x]] /\
    forall l, derivable_pt_lim (Rmax 0) x l -> forall d,
      (if numpy then np_backprop_relu else op_backprop_relu) (mkM 1 [[d]]) (mkM 1 [[Rmax 0 x]]) = Ok (mkM 1 [[d * l]]).
Proof. exact relu_true. Qed.
Print Assumptions C44_relu.
Example C44_relu_ex : np_backprop_relu (mkM 2 [[5; 7]]%Q) (np_relu (mkM 2 [[-3; 2]]%Q)) = Ok (mkM 2 [[0; 7]]%Q).
Proof. reflexivity. Qed.

(** With a positive slope, for all bounds and at every point, kinks included: where the function has no derivative
    there is nothing to prove, where it has one (equal bounds) the backprop is right. *)
Theorem C44_clipped_linear :
  forall slope offset lo hi x, 0 < slope ->
    (x * slope + offset <> lo -> x * slope + offset <> hi -> differentiable (fun z => clamp lo hi (z * slope + offset)) x) /\
    true_at (fun z => clamp lo hi (z * slope + offset)) (backprop_clipped_linear slope offset lo hi) x.
Proof. exact clipped_true. Qed.
Print Assumptions C44_clipped_linear.
Theorem C44_clipped_linear_forward : forall slope offset lo hi x, clipped_linear slope offset lo hi x = clamp lo hi (x * slope + offset).
Proof. exact (fun slope offset lo hi x => clip_is lo hi (x * slope + offset)). Qed.
Print Assumptions C44_clipped_linear_forward.
Example C44_clipped_ex : map (backprop_clipped_linear 2 (1#2) 0 1 3)%Q [-1; 1#8; 3]%Q = [0; 6; 0]%Q.
Proof. reflexivity. Qed.

(** relu_k, hard_sigmoid and hard_tanh are instances. *)
Theorem C44_relu_k :
  forall n x, (x <> 0 -> x <> n -> differentiable (relu_k n) x) /\ true_at (relu_k n) (backprop_relu_k n) x.
Proof. exact relu_k_true. Qed.
Print Assumptions C44_relu_k.
Theorem C44_hard_sigmoid :
  forall x, (x <> -5/2 -> x <> 5/2 -> differentiable hard_sigmoid x) /\ true_at hard_sigmoid backprop_hard_sigmoid x.
Proof. exact hard_sigmoid_true. Qed.
Print Assumptions C44_hard_sigmoid.
Theorem C44_hard_tanh :
  forall x, (x <> -1 -> x <> 1 -> differentiable hard_tanh x) /\ true_at hard_tanh backprop_hard_tanh x.
Proof. exact hard_tanh_true. Qed.
Print Assumptions C44_hard_tanh.
Example C44_hard_ex : map (relu_k 6%Q) [-1; 2; 9]%Q = [0; 2; 6]%Q /\ map (fun x => Qred (hard_sigmoid x)) [-9; 0; 9]%Q = [0; 1#2; 1]%Q /\ map (backprop_hard_tanh 3%Q) [-9; 0; 9]%Q = [0; 3; 0]%Q.
Proof. repeat split; vm_compute; reflexivity. Qed.

(** Finding: with a negative slope the low end of the active interval is above its high end, and the backprop is
    always zero, while the derivative is the slope. *)
Theorem C44_clipped_negative_slope_refuted :
  forall slope offset lo hi x, slope < 0 -> lo < hi -> lo < x * slope + offset < hi ->
    derivable_pt_lim (fun z => clamp lo hi (z * slope + offset)) x slope /\ forall d, backprop_clipped_linear slope offset lo hi d x = 0.
Proof. exact clipped_negative. Qed.
Print Assumptions C44_clipped_negative_slope_refuted.
Example C44_clipped_negative_ex : (clipped_linear (-1) 0 (-2) 2 1 = -1 /\ backprop_clipped_linear (-1) 0 (-2) 2 3 1 = 0)%Q.
Proof. split; vm_compute; reflexivity. Qed.

Theorem C44_hard_swish : forall x, (x <> 5/2 -> x <> -5/2 -> differentiable hard_swish x) /\ true_at hard_swish backprop_hard_swish x.
Proof. exact hard_swish_true. Qed.
Print Assumptions C44_hard_swish.
Theorem C44_hard_swish_mobilenet :
  forall x, (x <> 3 -> x <> -3 -> differentiable hard_swish_mobilenet x) /\ true_at hard_swish_mobilenet backprop_hard_swish_mobilenet x.
Proof. exact mobilenet_true. Qed.
Print Assumptions C44_hard_swish_mobilenet.
Example C44_hard_swish_ex : map (fun x => Qred (hard_swish x)) [-9; 1; 9]%Q = [0; 7#10; 9]%Q /\
  map (fun x => Qred (backprop_hard_swish 10%Q x)) [-9; 1; 9]%Q = [0; 9; 10]%Q /\ map (fun x => Qred (backprop_hard_swish_mobilenet 6%Q x)) [-9; 1; 9]%Q = [0; 5; 6]%Q.
Proof. repeat split; vm_compute; reflexivity. Qed.

Theorem C44_dish : forall x, differentiable dish x /\ true_at dish backprop_dish x.
Proof. exact dish_true. Qed.
Print Assumptions C44_dish.
Theorem C44_tanh : forall x, differentiable tanh x /\ true_at tanh (fun d z => d * dtanh (tanh z)) x.
Proof. exact tanh_true. Qed.
Print Assumptions C44_tanh.

(** Every threshold; [Mish] uses 20. Below it mish is x tanh(softplus x), from it on the identity. The compiled
    kernels compute the same real functions. *)
Theorem C44_mish :
  forall t x, x <> t -> differentiable (mish t) x /\ true_at (mish t) (backprop_mish t) x.
Proof. exact mish_true. Qed.
Print Assumptions C44_mish.
Theorem C44_mish_forward : forall t x, (x < t -> mish t x = x * tanh (softplus x)) /\ (t <= x -> mish t x = x).
Proof. exact (fun t x => conj (mish_low t x) (mish_high t x)). Qed.
Print Assumptions C44_mish_forward.
Theorem C44_mish_kernels : forall t x d, cpu_mish t x = mish t x :> R /\ cpu_backprop_mish t d x = backprop_mish t d x :> R.
Proof. exact (fun t x d => conj (cpu_mish_is t x) (cpu_mish_back_is t d x)). Qed.
Print Assumptions C44_mish_kernels.

(** sigmoid clips its input to [-20, 20]. Inside, and at the kinks, the backprop is right. *)
Theorem C44_sigmoid_partial :
  forall x, -20 <= x <= 20 -> sigmoid x = logistic x /\ (-20 < x < 20 -> differentiable sigmoid x) /\ true_at sigmoid (fun d z => backprop_sigmoid d (sigmoid z)) x.
Proof. exact (fun x H => conj (sigmoid_mid x H) (sigmoid_true x H)). Qed.
Print Assumptions C44_sigmoid_partial.
(** Finding: outside the function is constant, but the backprop does not return zero; the error is below e^-20. *)
Theorem C44_sigmoid_refuted :
  forall x, x < -20 \/ 20 < x -> derivable_pt_lim sigmoid x 0 /\ 0 < backprop_sigmoid 1 (sigmoid x).
Proof. exact sigmoid_flat. Qed.
Print Assumptions C44_sigmoid_refuted.
Theorem C44_sigmoid_error :
  forall x, x <= -20 \/ 20 <= x -> backprop_sigmoid 1 (sigmoid x) <= exp (-20).
Proof. exact sigmoid_back_small. Qed.
Print Assumptions C44_sigmoid_error.

Theorem C44_swish_partial :
  forall x, -20 < x < 20 -> differentiable swish x /\ true_at swish (fun d z => backprop_swish d z (swish z)) x.
Proof. exact swish_true. Qed.
Print Assumptions C44_swish_partial.
(** Finding: outside, the derivative is the clipped sigmoid, and the error of the backprop grows in proportion to x. *)
Theorem C44_swish_refuted :
  forall x, x < -20 \/ 20 < x ->
    derivable_pt_lim swish x (sigmoid x) /\ backprop_swish 1 x (swish x) - sigmoid x = x * (sigmoid x * (1 - sigmoid x)).
Proof. exact swish_beyond. Qed.
Print Assumptions C44_swish_refuted.
Example C44_outside : (20 < 25 /\ -20 < 0 < 20)%R.
Proof. lra. Qed.

(** gelu_approx: as long as the argument of tanh stays within the clipping bounds of [sechsq], the backprop is the
    derivative for the rounded constants of the backprop, up to 5e-7 x sech^2. *)
Theorem C44_gelu_approx_partial :
  forall x, exists l, derivable_pt_lim gelu_fixed x l /\
    (-20 <= gelu_arg x <= 20 -> forall d, backprop_gelu_approx d x = d * (l - 5 / 10000000 * x * sech2 (gelu_arg x))).
Proof. exact gelu_fixed_der. Qed.
Print Assumptions C44_gelu_approx_partial.
(** Finding: for large inputs the clipped [sechsq] is multiplied by x^3: from 10^7 on, the backprop returns more than
    twice the gradient, and grows without bound, though gelu_approx stays between 0 and x. *)
Theorem C44_gelu_approx_refuted :
  (forall x, differentiable gelu_approx x) /\ (forall x, 10000000 <= x -> 2 < backprop_gelu_approx 1 x) /\
  (forall x, 0 <= x -> 0 <= gelu_approx x <= x) /\
  forall a, 10000000 <= a -> ~ (forall x, a <= x <= 3 * a -> derivable_pt_lim gelu_approx x (backprop_gelu_approx 1 x)).
Proof. exact (conj gelu_approx_differentiable (conj gelu_back_large (conj gelu_approx_range gelu_approx_wrong))). Qed.
Print Assumptions C44_gelu_approx_refuted.

(** gelu: the formula is the derivative when the cumulative distribution is exact. Finding: with the polynomial [erf] of
    the code, which does not vanish at 0, gelu has no derivative at 0. *)
Theorem C44_gelu_formula :
  forall Phi x, derivable_pt_lim Phi x (gaussian_pdf x) -> derivable_pt_lim (fun z => z * Phi z) x (Phi x + x * gaussian_pdf x).
Proof. exact gelu_exact. Qed.
Print Assumptions C44_gelu_formula.
Theorem C44_gaussian_pdf : forall x : R, gaussian_pdf x = / sqrt (2 * PI) * exp (- (x * x / 2)).
Proof. exact pdf_is. Qed.
Print Assumptions C44_gaussian_pdf.
Theorem C44_erf_odd : forall x : R, erf (- x) = - erf x.
Proof. exact erf_odd. Qed.
Print Assumptions C44_erf_odd.
Theorem C44_gelu_refuted : ~ differentiable gelu 0.
Proof. exact gelu_kink. Qed.
Print Assumptions C44_gelu_refuted.

(** ** Layers *)
Theorem C44_HardSwish :
  forall nO nI wo bo tr theta X, input_of nI X -> room wo (nO * nI) theta -> room bo nO theta ->
    everywhere nO (fun x j => affine_at theta wo bo nI x j <> 5/2 /\ affine_at theta wo bo nI x j <> -5/2) X ->
    differentiates (HardSwish nO nI wo bo) tr theta (Arr2 X) (Arr2 (by_row nO (fun x j => hard_swish (affine_at theta wo bo nI x j)) X)).
Proof. exact hard_swish_diff. Qed.
Print Assumptions C44_HardSwish.
Theorem C44_HardSwishMobilenet :
  forall nO nI wo bo tr theta X, input_of nI X -> room wo (nO * nI) theta -> room bo nO theta ->
    everywhere nO (fun x j => affine_at theta wo bo nI x j <> 3 /\ affine_at theta wo bo nI x j <> -3) X ->
    differentiates (HardSwishMobilenet nO nI wo bo) tr theta (Arr2 X) (Arr2 (by_row nO (fun x j => hard_swish_mobilenet (affine_at theta wo bo nI x j)) X)).
Proof. exact mobilenet_diff. Qed.
Print Assumptions C44_HardSwishMobilenet.
Theorem C44_Mish :
  forall (compiled : bool) nO nI wo bo tr theta X, input_of nI X -> room wo (nO * nI) theta -> room bo nO theta ->
    everywhere nO (fun x j => affine_at theta wo bo nI x j <> 20) X ->
    differentiates ((if compiled then np_Mish else Mish) nO nI wo bo) tr theta (Arr2 X) (Arr2 (by_row nO (fun x j => mish 20 (affine_at theta wo bo nI x j)) X)).
Proof. exact mish_diff. Qed.
Print Assumptions C44_Mish.
Theorem C44_Swish_partial :
  forall nO nI wo bo tr theta X, input_of nI X -> room wo (nO * nI) theta -> room bo nO theta ->
    everywhere nO (fun x j => -20 < affine_at theta wo bo nI x j < 20) X ->
    differentiates (Swish nO nI wo bo) tr theta (Arr2 X) (Arr2 (by_row nO (fun x j => swish (affine_at theta wo bo nI x j)) X)).
Proof. exact swish_diff. Qed.
Print Assumptions C44_Swish_partial.
Theorem C44_Sigmoid_partial :
  forall nO nI wo bo tr theta X, input_of nI X -> room wo (nO * nI) theta -> room bo nO theta ->
    everywhere nO (fun x j => -20 < affine_at theta wo bo nI x j < 20) X ->
    differentiates (Sigmoid nO nI wo bo) tr theta (Arr2 X) (Arr2 (by_row nO (fun x j => sigmoid (affine_at theta wo bo nI x j)) X)).
Proof. exact sigmoid_diff. Qed.
Print Assumptions C44_Sigmoid_partial.
(** sigmoid_activation and Logistic *)
Theorem C44_sigmoid_activation_partial :
  forall nI tr theta X, input_of nI X -> everywhere nI (fun x j => -20 < nth j x 0 < 20) X ->
    differentiates sigmoid_activation tr theta (Arr2 X) (Arr2 (by_row nI (fun x j => sigmoid (nth j x 0)) X)).
Proof. exact sigmoid_act_diff. Qed.
Print Assumptions C44_sigmoid_activation_partial.
Example C44_layer_hyp : everywhere 1 (fun x j => -20 < affine_at [2; 1] 0 1 1 x j < 20) (mkM 1 [[3]; [-2]]).
Proof. intros x [<- | [<- | []]] [|j] Hj; try (inversion Hj; match goal with H : (S _ <= _)%nat |- _ => inversion H end); unfold affine_at; cbn; lra. Qed.
Example C44_layer_ex :
  (let* p := HardSwishMobilenet 1 1 0 1 true [2; 1]%Q (Arr2 (mkM 1 [[1#2]; [3]]%Q)) in let* r := snd p (Arr2 (mkM 1 [[6]; [1]]%Q)) [0; 0]%Q in
   match r with (Arr2 m, g) => Ok (map (map Qred) (m_rows m), map Qred g) | _ => Err TypeError end) = Ok ([[14]; [2]]%Q, [13#2; 8]%Q).
Proof. vm_compute. reflexivity. Qed.

(** Finding: [Dish] passes its input to the backprop where the pre-activation belongs. The callback raises unless input
    and output have the same width, or one of them is 1; and where it runs, the gradient is wrong. *)
Theorem C44_Dish_refuted_shapes :
  forall nO nI wo bo tr (theta : list R) X Y b, Dish nO nI wo bo tr theta (Arr2 X) = Ok (Y, b) -> m_cols X = nI -> nO <> nI -> nO <> 1%nat -> nI <> 1%nat ->
    forall dY g, m_cols dY = nO -> b (Arr2 dY) g = Err ValueError.
Proof. exact dish_shapes. Qed.
Print Assumptions C44_Dish_refuted_shapes.
Theorem C44_Dish_refuted :
  ~ differentiates (Dish 1 1 0 1) true [1; 1] (Arr2 (mkM 1 [[0]])) (Arr2 (mkM 1 [[dish 1]])).
Proof. exact dish_wrong. Qed.
Print Assumptions C44_Dish_refuted.
Example C44_Dish_runs : exists Y b, Dish 2 3 0 6 true [1; 2; 3; 4; 5; 6; 7; 8] (Arr2 (mkM 3 [[1; 0; 2]])) = Ok (Y, b).
Proof. eexists _, _. unfold Dish, activated. cbn. reflexivity. Qed.
