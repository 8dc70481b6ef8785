(** Property C60: activations, gradient clipping and Adam on the GPU. *)
From Coq Require Import QArith Reals Lra.
From Verif Require Import NumQ OptModel ActSpec CudaActSpec ErfProofs CudaActProofs CudaGeluProofs.
Local Open Scope R_scope.

(** For every grid and interleaving, in place or not, with or without the kernels: the functions of the base class. *)
Theorem C60_same_forward : forall c junk inplace, has_threads c -> forall fast slope offset lo hi t X,
  cupy_clipped_linear fast c junk inplace slope offset lo hi X = Ok (map (clipped_linear slope offset lo hi) X) /\
  cupy_dish fast c junk inplace X = Ok (map dish X) /\ cupy_mish fast c junk inplace t X = Ok (map (mish t) X).
Proof. exact arrays_forward. Qed.
Print Assumptions C60_same_forward.
Theorem C60_same_backward : forall c junk inplace, has_threads c -> forall slope offset lo hi t dY X, length X = length dY ->
  (slope <> 0 -> cupy_backprop_clipped_linear c junk inplace slope offset lo hi dY X = Ok (vmap2 (backprop_clipped_linear slope offset lo hi) dY X)) /\
  cupy_backprop_hard_swish c junk inplace dY X = Ok (vmap2 backprop_hard_swish dY X) /\
  cupy_backprop_hard_swish_mobilenet c junk inplace dY X = Ok (vmap2 backprop_hard_swish_mobilenet dY X) /\
  cupy_backprop_dish c junk inplace dY X = Ok (vmap2 backprop_dish dY X) /\
  cupy_backprop_mish c junk inplace t dY X = Ok (vmap2 (backprop_mish t) dY X).
Proof. exact arrays_backward. Qed.
Print Assumptions C60_same_backward.
Theorem C60_relu : forall (X : mat R) dY Y, map cupy_relu (m_rows X) = m_rows (op_relu X) /\
  (length dY = length Y -> cupy_backprop_relu dY Y = Ok (vmap2 (fun d y => if nltb 0 y then d else 0) dY Y)).
Proof. exact cupy_relu_is. Qed.
Print Assumptions C60_relu.
Example C60_same_ex : let c := mkC 2 2 [3; 0; 1; 2; 2; 0]%nat in has_threads c /\
  cupy_clipped_linear true c (fun _ => 9%Q) true (2%Q) (1 # 2)%Q 0%Q 1%Q [-3; 1 # 8; 5; 0; -1]%Q = Ok [0; 3 # 4; 1; 1 # 2; 0]%Q /\
  cupy_backprop_hard_swish_mobilenet c (fun _ => 9%Q) false [5; 5; 5]%Q [-4; 0; 4]%Q = Ok [0; 5 # 2; 5]%Q /\
  cupy_backprop_hard_swish c (fun _ => 9%Q) true [5; 5; 5]%Q [-4; 0; 4]%Q = Ok [0; 5 # 2; 5]%Q /\
  cupy_relu [-1; 2]%Q = [0; 2]%Q /\ cupy_backprop_relu [7; 7]%Q [0; 2]%Q = Ok [0; 7]%Q /\ cupy_backprop_relu [7]%Q [0; 2]%Q = Err ValueError.
Proof. split; [discriminate|]. repeat split; vm_compute; reflexivity. Qed.
(** A slope of 0, with which the CPU divides by zero (see C42), gives zero gradients. *)
Theorem C60_slope_zero : forall c junk inplace, has_threads c -> forall offset lo hi dY X, length X = length dY ->
  cupy_backprop_clipped_linear c junk inplace 0 offset lo hi dY X = Ok (map (fun _ => 0) dY).
Proof. exact arrays_slope_zero. Qed.
Print Assumptions C60_slope_zero.

(** Swish and gelu use thresholds. *)
Theorem C60_thresholds : forall c junk inplace, has_threads c -> forall erf dY X Y, length X = length dY -> length Y = length dY ->
  cupy_swish true c junk inplace X = Ok (map (gpu_swish 17) X) /\ cupy_gelu erf true c junk inplace X = Ok (map (gpu_gelu erf 6) X) /\
  cupy_backprop_swish c junk inplace dY X Y = Ok (map (fun p => gpu_backprop_swish 17 (fst p) (fst (snd p)) (snd (snd p))) (combine dY (combine X Y))) /\
  cupy_backprop_gelu erf c junk inplace dY X = Ok (vmap2 (gpu_backprop_gelu erf 6) dY X).
Proof. exact arrays_thresholds. Qed.
Print Assumptions C60_thresholds.
(** Within the threshold the GPU computes the swish of the CPU and its gradient. *)
Theorem C60_swish_inside : forall x, -17 < x < 17 -> gpu_swish 17 x = swish x /\ forall d, gpu_backprop_swish 17 d x (gpu_swish 17 x) = backprop_swish d x (swish x).
Proof. exact swish_inside. Qed.
Print Assumptions C60_swish_inside.
(** Everywhere it is within 17 e^-17 of the exact swish, and the gradient is that of the function that is computed,
    except at the thresholds, where that function jumps. *)
Theorem C60_swish_close : forall x, Rabs (gpu_swish 17 x - exact_swish x) <= 17 * exp (-17).
Proof. exact gpu_swish_close. Qed.
Print Assumptions C60_swish_close.
Theorem C60_swish_gradient : forall t x, 0 < t -> x <> t -> x <> - t ->
  differentiable (gpu_swish t) x /\ true_at (gpu_swish t) (fun d z => gpu_backprop_swish t d z (gpu_swish t z)) x.
Proof. exact gpu_swish_true. Qed.
Print Assumptions C60_swish_gradient.
Theorem C60_swish_continuous_refuted : forall t, 1 <= t -> ~ continuity_pt (gpu_swish t) t /\ ~ continuity_pt (gpu_swish t) (- t).
Proof. exact gpu_swish_jump. Qed.
Print Assumptions C60_swish_continuous_refuted.
(** The swish of the CPU clips the sigmoid at -20, so the two backends differ by any amount. *)
Theorem C60_swish_backends_refuted : forall M, exists x, M < Rabs (gpu_swish 17 x - swish x).
Proof. exact swish_apart. Qed.
Print Assumptions C60_swish_backends_refuted.

(** There is an error function; with it the gelu of the GPU is within e^-18 / sqrt (2 pi) of the exact one, and its
    gradient is right except at the thresholds, where it jumps. *)
Theorem C60_erf : exists erf, is_erf erf.
Proof. exact (ex_intro _ true_erf erf_exists). Qed.
Print Assumptions C60_erf.
Theorem C60_gelu_close : forall erf, is_erf erf -> forall x, Rabs (gpu_gelu erf 6 x - exact_gelu erf x) <= / sqrt (2 * PI) * exp (-18).
Proof. exact gpu_gelu_close. Qed.
Print Assumptions C60_gelu_close.
Theorem C60_gelu_inside : forall erf x, -6 < x < 6 -> gpu_gelu erf 6 x = exact_gelu erf x.
Proof. exact (fun erf => gpu_gelu_mid erf 6). Qed.
Print Assumptions C60_gelu_inside.
Theorem C60_gelu_gradient : forall erf, is_erf erf -> forall t x, 0 < t -> x <> t -> x <> - t ->
  differentiable (gpu_gelu erf t) x /\ true_at (gpu_gelu erf t) (gpu_backprop_gelu erf t) x.
Proof. exact gpu_gelu_true. Qed.
Print Assumptions C60_gelu_gradient.
Theorem C60_gelu_continuous_refuted : forall erf t, is_erf erf -> 0 < t -> ~ continuity_pt (gpu_gelu erf t) t.
Proof. exact gpu_gelu_jump. Qed.
Print Assumptions C60_gelu_continuous_refuted.

(** clip_gradient clips like the base class unless both the threshold and the norm are below 1e-12; adam is the
    base class's with mod_rate 1, whatever mod_rate is given, and zeroes the gradient like NumpyOps. *)
Theorem C60_clip_gradient : forall g th, / 1000000000000 <= th \/ / 1000000000000 <= norm g -> cupy_clip_gradient g th = clip_gradient g th.
Proof. exact cupy_clip_is. Qed.
Print Assumptions C60_clip_gradient.
Theorem C60_adam : forall (w g m1 m2 : list R) b1 b2 eps lr mod_rate, length g = length w -> length m1 = length w -> length m2 = length w ->
  cupy_adam w g m1 m2 b1 b2 eps lr mod_rate = Ok (let '(w', _, m1', m2') := ops_adam w g m1 m2 b1 b2 eps lr (nZ 1) in (w', map (fun _ => nZ 0) g, m1', m2')).
Proof. exact cupy_adam_is. Qed.
Print Assumptions C60_adam.
Theorem C60_adam_shapes : forall (w g m1 m2 : list R) b1 b2 eps lr mod_rate, length w <> length g \/ length w <> length m1 \/ length w <> length m2 ->
  cupy_adam w g m1 m2 b1 b2 eps lr mod_rate = Err ValueError.
Proof. exact cupy_adam_shapes. Qed.
Print Assumptions C60_adam_shapes.
(** mod_rate has an effect on the CPU only. *)
Theorem C60_mod_rate_refuted : exists (w g m1 m2 : list R) b1 b2 eps lr mod_rate w1 g1 a1 v1 w2 g2 a2 v2,
  cupy_adam w g m1 m2 b1 b2 eps lr mod_rate = Ok (w1, g1, a1, v1) /\ ops_adam w g m1 m2 b1 b2 eps lr mod_rate = (w2, g2, a2, v2) /\ w1 <> w2.
Proof. exact mod_rate_lost. Qed.
Print Assumptions C60_mod_rate_refuted.
Example C60_adam_ex : let r := cupy_adam [1; 2]%Q [4; 0]%Q [0; 0]%Q [0; 0]%Q (1 # 2)%Q (3 # 4)%Q 1%Q 1%Q 1%Q in
  match r with Ok (w, g, m, v) => map Qred m = [2; 0]%Q /\ map Qred v = [4; 0]%Q /\ g = [0; 0]%Q | Err _ => False end.
Proof. vm_compute. repeat split. Qed.
