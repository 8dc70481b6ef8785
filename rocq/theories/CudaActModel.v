(** The kernels of activations in thinc/backends/_custom_kernels.cu 169-251 and 391-559 with their wrappers in
    thinc/backends/_custom_kernels.py and thinc/backends/cupy_ops.py 46-68 and 141-252, and [clip_gradient] and
    [adam] of cupy_ops.py 254-264 and 332-366. No proofs here. NaN, infinities other than those of a slope of 0,
    rounding and dtypes are not modelled. *)
From Verif Require Export OptModel ActModel CudaModel.

Section CudaAct.
  Context {T : Type} `{Num T} `{Trans T}.
  (** CUDA's [erf] *)
  Variable c_erf : T -> T.
  Local Open Scope num_scope.

  (** [a >= b] and [a <= b] *)
  Definition ge (a b : T) : bool := negb (a <? b).
  Definition le (a b : T) : bool := negb (b <? a).
  Definition cmin (a b : T) : T := if b <? a then b else a.
  Definition cmax (a b : T) : T := if a <? b then b else a.

  (** ** Kernels: the value written to element [i] *)

  (** 169-180 *)
  Definition gpu_clipped_linear (slope offset min_val max_val x : T) : T :=
    let y := x * slope + offset in
    cmin (cmax y min_val) max_val.
  (** 183-194 *)
  Definition gpu_dish (x : T) : T := dec 5 10 * x * (x / nsqrt (nZ 1 + x * x) + nZ 1).
  (** 197-215; the constants of lines 9-23 are rounded values of these *)
  Definition gpu_gelu (threshold x : T) : T :=
    if ge x threshold then x
    else if le x (- threshold) then nZ 0
    else let cdf := dec 5 10 * (nZ 1 + c_erf (inv_sqrt_2 * x)) in x * cdf.
  (** 218-231 *)
  Definition gpu_mish (threshold x : T) : T :=
    if ge x threshold then x else x * ntanh (nln (nZ 1 + nexp x)).
  (** 234-251 *)
  Definition gpu_swish (threshold x : T) : T :=
    if ge x threshold then x
    else if le x (- threshold) then nZ 0
    else let logistic_cdf := nZ 1 / (nZ 1 + nexp (- x)) in x * logistic_cdf.
  (** _custom_kernels.cu 391-409. With a slope of 0 the bounds are infinite or NaN: nothing lies between them, or everything does and
      the gradient is multiplied by 0. *)
  Definition gpu_backprop_clipped_linear (slope offset min_val max_val d x : T) : T :=
    if slope =? nZ 0 then nZ 0
    else
      let low := (min_val - offset) / slope in
      let high := (max_val - offset) / slope in
      if (low <? x) && (x <? high) then d * slope else nZ 0.
  (** 412-428 *)
  Definition gpu_backprop_hard_swish (d x : T) : T :=
    if dec 25 10 <? x then d
    else if x <? - dec 25 10 then nZ 0
    else d * (x * dec 4 10 + dec 5 10).
  (** 431-447 *)
  Definition gpu_backprop_hard_swish_mobilenet (d x : T) : T :=
    if nZ 3 <? x then d
    else if x <? nZ (-3) then nZ 0
    else d * ((x * nZ 2 + nZ 3) / nZ 6).
  (** 450-465 *)
  Definition gpu_backprop_dish (d x : T) : T :=
    let x_sq := x * x in
    let x_sq_plus_one := x_sq + nZ 1 in
    d * (x / nsqrt x_sq_plus_one - (dec 5 10 * x * x_sq) / (x_sq_plus_one * nsqrt x_sq_plus_one) + dec 5 10).
  (** 468-490 *)
  Definition gpu_backprop_gelu (threshold d x : T) : T :=
    if ge x threshold then d
    else if le x (- threshold) then nZ 0
    else
      let cdf := dec 5 10 * (nZ 1 + c_erf (inv_sqrt_2 * x)) in
      let pdf := inv_sqrt_2pi * nexp (- dec 5 10 * x * x) in
      d * (cdf + x * pdf).
  (** 511-534 *)
  Definition gpu_backprop_mish (threshold d x : T) : T :=
    if ge x threshold then d
    else
      let exp_x := nexp x in
      let exp_2x := nexp (nZ 2 * x) in
      let exp_3x := nexp (nZ 3 * x) in
      let omega := nZ 4 * (x + nZ 1) + nZ 4 * exp_2x + exp_3x + exp_x * (nZ 4 * x + nZ 6) in
      let delta := nZ 2 * exp_x + exp_2x + nZ 2 in
      d * ((exp_x * omega) / (delta * delta)).
  (** 537-559 *)
  Definition gpu_backprop_swish (threshold d x y : T) : T :=
    if ge x threshold then d
    else if le x (- threshold) then nZ 0
    else
      let cdf := nZ 1 / (nZ 1 + nexp (- x)) in
      let d' := y + cdf * (nZ 1 - y) in
      d * d'.

  (** ** Methods of CupyOps on arrays, as lists of their elements; [fast]: the dtypes allow the kernel *)

  (** 141-147, 149-153: one thread per element in CuPy's own kernels *)
  Definition cupy_relu (X : list T) : list T := map (fun x => x * (if nZ 0 <? x then nZ 1 else nZ 0)) X.
  Definition cupy_backprop_relu (dY Y : list T) : result (list T) :=
    if (length dY =? length Y)%nat then Ok (vmap2 (fun d y => d * (if nZ 0 <? y then nZ 1 else nZ 0)) dY Y) else Err ValueError.
  (** 155-181 *)
  Definition cupy_clipped_linear (fast : bool) c junk inplace slope offset min_val max_val (X : list T) : result (list T) :=
    if fast then cu_map c junk inplace (gpu_clipped_linear slope offset min_val max_val) X
    else Ok (map (clipped_linear slope offset min_val max_val) X).
  (** 46-50 *)
  Definition cupy_dish (fast : bool) c junk inplace (X : list T) : result (list T) :=
    if fast then cu_map c junk inplace gpu_dish X else Ok (map dish X).
  (** 58-62: the threshold is 6 *)
  Definition cupy_gelu (fast : bool) c junk inplace (X : list T) : result (list T) :=
    if fast then cu_map c junk inplace (gpu_gelu (nZ 6)) X else Ok (map gelu X).
  (** 226-230 *)
  Definition cupy_mish (fast : bool) c junk inplace threshold (X : list T) : result (list T) :=
    if fast then cu_map c junk inplace (gpu_mish threshold) X else Ok (map (mish threshold) X).
  (** 240-244: the threshold is 17 *)
  Definition cupy_swish (fast : bool) c junk inplace (X : list T) : result (list T) :=
    if fast then cu_map c junk inplace (gpu_swish (nZ 17)) X else Ok (map swish X).
  (** 183-212, 214-224, 52-56, 64-68, 232-238, 246-252, when the kernels are used *)
  Definition cupy_backprop_clipped_linear c junk inplace slope offset min_val max_val (dY X : list T) : result (list T) :=
    cu_map2 c junk inplace (gpu_backprop_clipped_linear slope offset min_val max_val) dY X.
  Definition cupy_backprop_hard_swish c junk inplace (dY X : list T) := cu_map2 c junk inplace gpu_backprop_hard_swish dY X.
  Definition cupy_backprop_hard_swish_mobilenet c junk inplace (dY X : list T) := cu_map2 c junk inplace gpu_backprop_hard_swish_mobilenet dY X.
  Definition cupy_backprop_dish c junk inplace (dY X : list T) := cu_map2 c junk inplace gpu_backprop_dish dY X.
  Definition cupy_backprop_gelu c junk inplace (dY X : list T) := cu_map2 c junk inplace (gpu_backprop_gelu (nZ 6)) dY X.
  Definition cupy_backprop_mish c junk inplace threshold (dY X : list T) := cu_map2 c junk inplace (gpu_backprop_mish threshold) dY X.
  Definition cupy_backprop_swish c junk inplace (dY X Y : list T) := cu_map3 c junk inplace (gpu_backprop_swish (nZ 17)) dY X Y.

  (** 254-264 *)
  Definition cupy_clip_gradient (g : list T) (threshold : T) : list T :=
    let grad_norm := cmax (norm g) (dec 1 1000000000000) in
    map (fun x => x * (cmin threshold grad_norm / grad_norm)) g.
  (** 332-343, 350-366: the kernel of one element; [mod_rate] is not used *)
  Definition adam_element (grad lr one_minus_beta1 one_minus_beta2 eps param m v : T) : T * T * T :=
    let m := m + one_minus_beta1 * (grad - m) in
    let v := v + one_minus_beta2 * (grad * grad - v) in
    (param - lr * m / (nsqrt v + eps), m, v).
  Fixpoint adam_elements (lr omb1 omb2 eps : T) (params grads ms vs : list T) : list T * list T * list T :=
    match params, grads, ms, vs with
    | p :: ps, g :: gs, m :: ms, v :: vs =>
      let '(p, m, v) := adam_element g lr omb1 omb2 eps p m v in
      let '(ps, ms, vs) := adam_elements lr omb1 omb2 eps ps gs ms vs in
      (p :: ps, m :: ms, v :: vs)
    | _, _, _, _ => ([], [], [])
    end.
  Definition cupy_adam (weights gradient mom1 mom2 : list T) (beta1 beta2 eps learn_rate mod_rate : T)
    : result (list T * list T * list T * list T) :=
    if negb (length weights =? length gradient)%nat then Err ValueError
    else if negb (length weights =? length mom1)%nat then Err ValueError
    else if negb (length weights =? length mom2)%nat then Err ValueError
    else
      let '(w, m1, m2) := adam_elements learn_rate (nZ 1 - beta1) (nZ 1 - beta2) eps weights gradient mom1 mom2 in
      Ok (w, map (fun _ => nZ 0) gradient, m1, m2).
End CudaAct.
