(** Activation functions: thinc/backends/ops.py 773-809 and 950-1170 and the mish kernels of
    thinc/backends/cpu_kernels.hh; the layers swish.py, hard_swish.py, hard_swish_mobilenet.py, dish.py, gelu.py,
    mish.py, sigmoid.py, sigmoid_activation.py and logistic.py. (relu and clipped_linear are in DenseModel.v.)
    No proofs here. All these functions work element by element, so they are modelled on scalars; the [inplace]
    variants compute the same values in the memory of their argument and are not modelled. *)
From Verif Require Export DenseModel.

(** The transcendental functions of numpy *)
Class Trans (T : Type) := {
  nexp : T -> T;
  nln : T -> T;
  ntanh : T -> T;
  ncosh : T -> T;
  npi : T
}.

Section Act.
  Context {T : Type} `{Num T} `{Trans T}.
  Local Open Scope num_scope.

  (** A decimal literal *)
  Definition dec (a b : Z) : T := nZ a / nZ b.

  (** ops.py 773-783 *)
  Definition sigmoid (x : T) : T := let x := clip (nZ (-20)) (nZ 20) x in nZ 1 / (nZ 1 + nexp (- x)).
  (** 795-800 *)
  Definition dsigmoid (y : T) : T := y * (nZ 1 - y).
  (** 785-793 *)
  Definition backprop_sigmoid (d y : T) : T := d * dsigmoid y.
  (** 802-809 *)
  Definition dtanh (y : T) : T := nZ 1 - npow y 2.

  (** 950-957 *)
  Definition relu_k (n x : T) : T := clipped_linear (nZ 1) (nZ 0) (nZ 0) n x.
  Definition backprop_relu_k (n d x : T) : T := backprop_clipped_linear (nZ 1) (nZ 0) (nZ 0) n d x.
  (** 959-965 *)
  Definition hard_sigmoid (x : T) : T := clipped_linear (dec 2 10) (dec 5 10) (nZ 0) (nZ 1) x.
  Definition backprop_hard_sigmoid (d x : T) : T := backprop_clipped_linear (dec 2 10) (dec 5 10) (nZ 0) (nZ 1) d x.
  (** 967-973 *)
  Definition hard_tanh (x : T) : T := clipped_linear (nZ 1) (nZ 0) (nZ (-1)) (nZ 1) x.
  Definition backprop_hard_tanh (d x : T) : T := backprop_clipped_linear (nZ 1) (nZ 0) (nZ (-1)) (nZ 1) d x.

  (** 974-990 *)
  Definition swish (x : T) : T := x * sigmoid x.
  Definition backprop_swish (d x y : T) : T := d * (y + sigmoid x * (nZ 1 - y)).
  (** 992-1009 *)
  Definition hard_swish (x : T) : T := x * hard_sigmoid x.
  Definition backprop_hard_swish (d x : T) : T :=
    let dX := x * dec 4 10 + dec 5 10 in
    let dX := if dec 25 10 <? x then nZ 1 else dX in
    let dX := if x <? - dec 25 10 then nZ 0 else dX in
    d * dX.
  (** 1011-1026 *)
  Definition hard_swish_mobilenet (x : T) : T := x * (relu_k (nZ 6) (x + nZ 3) / nZ 6).
  Definition backprop_hard_swish_mobilenet (d x : T) : T :=
    let dX := (nZ 1 / nZ 6) * (x * nZ 2 + nZ 3) in
    let dX := if nZ 3 <? x then nZ 1 else dX in
    let dX := if x <? nZ (-3) then nZ 0 else dX in
    dX * d.
  (** 1028-1039 *)
  Definition dish (x : T) : T :=
    let tmp := nsqrt (x * x + nZ 1) in
    let tmp := (x / tmp + nZ 1) * dec 5 10 in
    x * tmp.
  (** 1041-1055; [q ** 1.5] is q times its square root *)
  Definition backprop_dish (d x : T) : T :=
    let x_sq := x * x in
    let q := x_sq + nZ 1 in
    let deriv := x / nsqrt q in
    let second := dec 5 10 * x * x_sq / (q * nsqrt q) in
    let deriv := deriv - second + dec 5 10 in
    d * deriv.

  (** 1059-1077; [sign] is -1, 0 or 1 *)
  Definition sign (x : T) : T := if nZ 0 <? x then nZ 1 else if x <? nZ 0 then nZ (-1) else nZ 0.
  Definition erf (x : T) : T :=
    let a := if x <? nZ 0 then - x else x in
    let t := nZ 1 / (nZ 1 + dec 3275911 10000000 * a) in
    let a1 := dec 254829592 1000000000 in
    let a2 := dec (-284496736) 1000000000 in
    let a3 := dec 1421413741 1000000000 in
    let a4 := dec (-1453152027) 1000000000 in
    let a5 := dec 1061405429 1000000000 in
    let y := nZ 1 - (((((a5 * t + a4) * t) + a3) * t + a2) * t + a1) * t * nexp (- a * a) in
    sign x * y.
  (** 55-57, 1695-1702 *)
  Definition sqrt_2_pi : T := nsqrt (nZ 2 / npi).
  Definition inv_sqrt_2 : T := nZ 1 / nsqrt (nZ 2).
  Definition inv_sqrt_2pi : T := nZ 1 / nsqrt (nZ 2 * npi).
  Definition gaussian_cdf (x : T) : T := dec 5 10 * (nZ 1 + erf (inv_sqrt_2 * x)).
  Definition gaussian_pdf (x : T) : T := inv_sqrt_2pi * nexp (- dec 5 10 * x * x).
  (** 1112-1128 *)
  Definition gelu (x : T) : T := x * gaussian_cdf x.
  Definition backprop_gelu (d x : T) : T := d * (gaussian_cdf x + x * gaussian_pdf x).
  (** 1079-1082 *)
  Definition sechsq (x : T) : T := let x := clip (nZ (-20)) (nZ 20) x in npow (nZ 1 / ncosh x) 2.
  (** 1084-1094 *)
  Definition gelu_approx (x : T) : T :=
    let tmp := nZ 1 + ntanh (sqrt_2_pi * (x + dec 44715 1000000 * npow x 3)) in
    x * (tmp * dec 5 10).
  (** 1096-1110 *)
  Definition backprop_gelu_approx (d x : T) : T :=
    let Xp3 := npow x 3 in
    let arg := dec 356774 10000000 * Xp3 + dec 797885 1000000 * x in
    let tmp := dec 5 10 * ntanh arg in
    let tmp := tmp + (dec 535161 10000000 * Xp3 + dec 398942 1000000 * x) * sechsq arg in
    d * (tmp + dec 5 10).

  (** 1130-1140 *)
  Definition mish (threshold x : T) : T :=
    let tmp := x * ntanh (nln (nZ 1 + nexp x)) in
    if x <? threshold then tmp else x.
  (** 1142-1170 *)
  Definition backprop_mish (threshold d x : T) : T :=
    if x <? threshold then
      let omega := nZ 4 * (x + nZ 1) + nZ 4 * nexp (nZ 2 * x) + nexp (nZ 3 * x) + nexp x * (nZ 4 * x + nZ 6) in
      let delta := nexp x + nZ 1 in
      let delta := delta * delta + nZ 1 in
      d * ((nexp x * omega) / npow delta 2)
    else d.
  (** cpu_kernels.hh 257-268 and 271-289 *)
  Definition cpu_mish (threshold y : T) : T := if y <? threshold then y * ntanh (nln (nZ 1 + nexp y)) else y.
  Definition cpu_backprop_mish (threshold d x : T) : T :=
    if x <? threshold then
      let exp_x := nexp x in
      let exp_2x := nexp (nZ 2 * x) in
      let exp_3x := nexp (nZ 3 * x) in
      let omega := nZ 4 * (x + nZ 1) + nZ 4 * exp_2x + exp_3x + exp_x * (nZ 4 * x + nZ 6) in
      let delta := nZ 2 * exp_x + exp_2x + nZ 2 in
      d * ((exp_x * omega) / (delta * delta))
    else d.

  (** ** Layers *)

  (** swish.py 41-55, hard_swish.py 41-55, hard_swish_mobilenet.py 41-55, dish.py 41-55, gelu.py 41-55,
      mish.py 47-61 and sigmoid.py 38-50 are the same code around two calls of [ops]: one computes the output from
      [Y_preact], the other the gradient of [Y_preact] from the gradient, the layer's input, [Y_preact] and the
      output. (mish.py increments the gradient of W before that of b.) *)
  Definition activated (f : T -> T) (back : mat T -> mat T -> mat T -> mat T -> result (mat T)) (nO nI wo bo : nat) : layer T := fun _ theta X =>
    let* W := get_param2 theta wo nO nI in
    let* b := get_param1 theta bo nO in
    let* X := as_mat X in
    let* Y_preact := affine X W b in
    let Y := mmap f Y_preact in
    Ok (Arr2 Y, fun dY g =>
      let* dY := as_mat dY in
      let* dY := back dY X Y_preact Y in
      let* g := inc_grad g bo (sum0 dY) in
      let* dW := gemm dY X true false in
      let* g := inc_grad g wo (concat (m_rows dW)) in
      let* dX := gemm dY W false false in
      Ok (Arr2 dX, g)).
  (** swish.py 47-50: [Y + sigmoid(X) * (1 - Y)] has the shape of the output *)
  Definition Swish := activated swish (fun dY _ P Y => let* f := mbin (fun p y => y + sigmoid p * (nZ 1 - y)) P Y in mbin nmul dY f).
  Definition HardSwish := activated hard_swish (fun dY _ P _ => mbin backprop_hard_swish dY P).
  Definition HardSwishMobilenet := activated hard_swish_mobilenet (fun dY _ P _ => mbin backprop_hard_swish_mobilenet dY P).
  (** dish.py 50 passes the layer's input where the other layers pass [Y_preact] *)
  Definition Dish := activated dish (fun dY X _ _ => mbin backprop_dish dY X).
  Definition Gelu := activated gelu (fun dY _ P _ => mbin backprop_gelu dY P).
  Definition Sigmoid := activated sigmoid (fun dY _ _ Y => mbin backprop_sigmoid dY Y).
  (** ops.py 1149-1151 and numpy_ops.pyx 237 compare the shapes first *)
  Definition Mish := activated (mish (nZ 20)) (fun dY _ P _ => if mshape_eq dY P then mbin (backprop_mish (nZ 20)) dY P else Err ValueError).
  Definition np_Mish := activated (cpu_mish (nZ 20)) (fun dY _ P _ => if mshape_eq dY P then mbin (cpu_backprop_mish (nZ 20)) dY P else Err ValueError).
  (** sigmoid_activation.py 13-24 and logistic.py 19-25 on 2d arrays *)
  Definition sigmoid_activation : layer T := fun _ _ X =>
    let* X := as_mat X in
    let Y := mmap sigmoid X in
    Ok (Arr2 Y, fun dY g => let* dY := as_mat dY in let* dX := mbin nmul dY (mmap dsigmoid Y) in Ok (Arr2 dX, g)).
End Act.
