(** Dense layers: thinc/layers/linear.py 35-46, relu.py 44-56, clipped_linear.py 52-74, maxout.py 45-66 and
    layernorm.py 23-87, with thinc/backends/ops.py 235-265 and 899-948 and thinc/backends/numpy_ops.pyx 81-157.
    No proofs here. Parameters are segments of the vector of all parameters (see CombModel). *)
From Verif Require Export CombModel KernelModel.

Section Dense.
  Context {T : Type} `{Num T}.
  Local Open Scope num_scope.

  (** ** Parameters *)

  (** [model.get_param]: a 1d parameter of n elements and a 2d parameter of r rows and c columns; the vector
      being too short stands for a parameter that is not set *)
  Definition get_param1 (theta : list T) (off n : nat) : result (list T) :=
    if Nat.leb (off + n) (length theta) then Ok (firstn n (skipn off theta)) else Err KeyError.
  Definition get_param2 (theta : list T) (off r c : nat) : result (mat T) :=
    let* v := get_param1 theta off (r * c) in Ok (mkM c (cells_of c r v)).
  (** [model.inc_grad] (modelled in full in GradModel): add to the accumulated gradient of one parameter *)
  Definition inc_grad (g : list T) (off : nat) (v : list T) : result (list T) :=
    if Nat.leb (off + length v) (length g)
    then Ok (firstn off g ++ row_add (firstn (length v) (skipn off g)) v ++ skipn (off + length v) g)
    else Err KeyError.

  (** ** Arrays *)

  Definition transpose (m : mat T) : mat T :=
    mkM (length (m_rows m)) (map (fun j => col (nZ 0) j (m_rows m)) (seq 0 (m_cols m))).
  (** ops.py 235-254, numpy_ops.pyx 81-126: both check the inner dimension *)
  Definition matmul (x y : mat T) : result (mat T) :=
    if Nat.eqb (m_cols x) (length (m_rows y))
    then Ok (mkM (m_cols y) (map (fun r => map (fun j => nsum (vmap2 nmul r (col (nZ 0) j (m_rows y)))) (seq 0 (m_cols y))) (m_rows x)))
    else Err ValueError.
  Definition gemm (x y : mat T) (trans1 trans2 : bool) : result (mat T) :=
    matmul (if trans1 then transpose x else x) (if trans2 then transpose y else y).
  (** ops.py 259-265 *)
  Definition affine (X W : mat T) (b : list T) : result (mat T) :=
    let* Y := gemm X W false true in miadd Y (as_row b).
  (** [m.sum(axis=0)] *)
  Definition sum0 (m : mat T) : list T := map (fun j => nsum (col (nZ 0) j (m_rows m))) (seq 0 (m_cols m)).
  (** An elementwise operation on two 2d arrays, with broadcasting *)
  Definition mbin (f : T -> T -> T) (a b : mat T) : result (mat T) :=
    if mshape_eq a b
    then Ok (mkM (m_cols a) (map (fun p => vmap2 f (fst p) (snd p)) (combine (m_rows a) (m_rows b))))
    else match bdim (length (m_rows a)) (length (m_rows b)), bdim (m_cols a) (m_cols b) with
         | Some r, Some c => Ok (mkM c (map (fun i => map (fun j => f (bget a i j) (bget b i j)) (seq 0 c)) (seq 0 r)))
         | _, _ => Err ValueError
         end.
  Definition mmap (f : T -> T) (m : mat T) : mat T := mkM (m_cols m) (map (map f) (m_rows m)).

  (** ** linear.py 35-46 *)
  Definition Linear (nO nI wo bo : nat) : layer T := fun _ theta X =>
    let* W := get_param2 theta wo nO nI in
    let* b := get_param1 theta bo nO in
    let* X := as_mat X in
    let* Y := gemm X W false true in
    let* Y := miadd Y (as_row b) in
    Ok (Arr2 Y, fun dY g =>
      let* dY := as_mat dY in
      let* g := inc_grad g bo (sum0 dY) in
      let* dW := gemm dY X true false in
      let* g := inc_grad g wo (concat (m_rows dW)) in
      let* dX := gemm dY W false false in
      Ok (Arr2 dX, g)).

  (** ** relu.py *)

  (** ops.py 899-912: a comparison counts as 0 or 1 in a product *)
  Definition op_relu (m : mat T) : mat T := mmap (fun x => x * (if nZ 0 <? x then nZ 1 else nZ 0)) m.
  Definition op_backprop_relu (dY Y : mat T) : result (mat T) := mbin (fun d y => d * (if nZ 0 <? y then nZ 1 else nZ 0)) dY Y.
  (** numpy_ops.pyx 128-157 with cpu_kernels.hh 341-352: elements that are not positive become 0. NaN is not modelled. *)
  Definition np_relu (m : mat T) : mat T := mmap (fun x => if nZ 0 <? x then x else nZ 0) m.
  Definition np_backprop_relu (dY Y : mat T) : result (mat T) :=
    if mshape_eq dY Y then mbin (fun d y => if nZ 0 <? y then d else nZ 0) dY Y else Err ValueError.
  (** 44-56; [numpy] says which backend *)
  Definition Relu (numpy : bool) (nO nI wo bo : nat) : layer T := fun _ theta X =>
    let* W := get_param2 theta wo nO nI in
    let* b := get_param1 theta bo nO in
    let* X := as_mat X in
    let* Y := affine X W b in
    let Y := if numpy then np_relu Y else op_relu Y in
    Ok (Arr2 Y, fun dY g =>
      let* dY := as_mat dY in
      let* dY := if numpy then np_backprop_relu dY Y else op_backprop_relu dY Y in
      let* g := inc_grad g bo (sum0 dY) in
      let* dW := gemm dY X true false in
      let* g := inc_grad g wo (concat (m_rows dW)) in
      let* dX := gemm dY W false false in
      Ok (Arr2 dX, g)).

  (** ** clipped_linear.py *)

  (** [xp.clip]: the maximum with the lower bound, then the minimum with the upper bound *)
  Definition clip (lo hi x : T) : T := let y := if x <? lo then lo else x in if hi <? y then hi else y.
  (** ops.py 914-928 *)
  Definition clipped_linear (slope offset min_val max_val x : T) : T := clip min_val max_val (x * slope + offset).
  (** ops.py 930-948. A slope of 0 divides by zero. *)
  Definition backprop_clipped_linear (slope offset min_val max_val d x : T) : T :=
    let low := (min_val - offset) / slope in
    let high := (max_val - offset) / slope in
    d * (if (low <? x) && (x <? high) then slope else nZ 0).
  (** 52-74; [low] and [high] are computed before the arrays are looked at *)
  Definition ClippedLinear (slope offset min_val max_val : T) (nO nI wo bo : nat) : layer T := fun _ theta X =>
    let* W := get_param2 theta wo nO nI in
    let* b := get_param1 theta bo nO in
    let* X := as_mat X in
    let* Y_preact := affine X W b in
    Ok (Arr2 (mmap (clipped_linear slope offset min_val max_val) Y_preact), fun dY g =>
      let* dY := as_mat dY in
      if slope =? nZ 0 then Err ZeroDivisionError else
      let* dY := mbin (backprop_clipped_linear slope offset min_val max_val) dY Y_preact in
      let* g := inc_grad g bo (sum0 dY) in
      let* dW := gemm dY X true false in
      let* g := inc_grad g wo (concat (m_rows dW)) in
      let* dX := gemm dY W false false in
      Ok (Arr2 dX, g)).

  (** ** maxout.py 45-66 *)

  (** [reshape3f] and [reshape2f] between N x (nO nP) and N x nO x nP: the elements stay in row-major order *)
  Definition reshape3 (m : mat T) (nO nP : nat) : arr3 T :=
    mk3 (length (m_rows m)) nO nP (cells_of nP (length (m_rows m) * nO) (concat (m_rows m))).
  Definition reshape2 (a : arr3 T) (c : nat) : mat T := mkM c (cells_of c (t_b a) (concat (t_cells a))).
  (** The bias of shape (nO, nP) and the weights of shape (nO, nP, nI) are stored in row-major order, so their
      reshaped forms are the same segments. [numpy] says which backend computes maxout. *)
  Definition Maxout (numpy : bool) (nO nP nI wo bo : nat) : layer T := fun _ theta X =>
    let* b := get_param1 theta bo (nO * nP) in
    let* W := get_param2 theta wo (nO * nP) nI in
    let* X := as_mat X in
    let* Y := gemm X W false true in
    let* Y := miadd Y (as_row b) in
    let* best_which := (if numpy then np_maxout else op_maxout) (reshape3 Y nO nP) in
    Ok (Arr2 (fst best_which), fun d_best g =>
      let* d_best := as_mat d_best in
      let* dZ := (if numpy then np_backprop_maxout else op_backprop_maxout) d_best (snd best_which) (Z.of_nat nP) in
      let dY := reshape2 dZ (nO * nP) in
      let* g := inc_grad g bo (sum0 dY) in
      let* dW := gemm dY X true false in
      let* g := inc_grad g wo (concat (m_rows dW)) in
      let* dX := gemm dY W false false in
      Ok (Arr2 dX, g)).

  (** ** layernorm.py *)

  (** [m.mean(axis=1, keepdims=True)] and [m.sum(axis=1, keepdims=True)] *)
  Definition mean1 (m : mat T) : mat T := mkM 1 (map (fun r => [nsum r / nnat (m_cols m)]) (m_rows m)).
  Definition sum1 (m : mat T) : mat T := mkM 1 (map (fun r => [nsum r]) (m_rows m)).
  (** [m.var(axis=1, keepdims=True)]: the mean of the squared distances from the mean *)
  Definition var1 (m : mat T) : result (mat T) :=
    let* d := mbin nsub m (mean1 m) in let* q := mbin nmul d d in Ok (mean1 q).
  (** 72-76: mu and var, which is increased by 1e-8; N is the number of columns *)
  Definition get_moments (X : mat T) : result (mat T * mat T) :=
    let mu := mean1 X in
    let* var := var1 X in
    Ok (mu, mmap (fun v => v + nZ 1 / nZ 100000000) var).
  (** 79-87 *)
  Definition get_d_moments (dy X mu : mat T) : result (mat T * mat T * mat T) :=
    let* dist := mbin nsub X mu in
    let sum_dy := sum1 dy in
    let* dd := mbin nmul dy dist in
    Ok (dist, sum_dy, sum1 dd).
  (** [v ** (-1.0 / 2.0)] and [v ** (-1.0)] for positive v *)
  Definition inv_sqrt (v : T) : T := nZ 1 / nsqrt v.
  Definition inv (v : T) : T := nZ 1 / v.
  (** 23-36 and 58-69 *)
  Definition LayerNorm (nI go bo : nat) : layer T := fun _ theta X =>
    let* X := as_mat X in
    let* mv := get_moments X in
    let mu := fst mv in
    let var := snd mv in
    let* centred := mbin nsub X mu in
    let* Xhat := mbin nmul centred (mmap inv_sqrt var) in
    let* G := get_param1 theta go nI in
    let* b := get_param1 theta bo nI in
    let* Y := mbin nmul Xhat (as_row G) in
    let* Y := miadd Y (as_row b) in
    Ok (Arr2 Y, fun dY g =>
      let* dY := as_mat dY in
      let* g := inc_grad g bo (sum0 dY) in
      let* dG := mbin nmul dY Xhat in
      let* g := inc_grad g go (sum0 dG) in
      let* dY := mbin nmul dY (as_row G) in
      let* dm := get_d_moments dY X mu in
      let dist := fst (fst dm) in
      let sum_dy := snd (fst dm) in
      let sum_dy_dist := snd dm in
      let n := nnat (m_cols X) in
      let* t := mbin nsub (mmap (fun d => n * d) dY) sum_dy in
      let* u := mbin nmul dist (mmap inv var) in
      let* u := mbin nmul u sum_dy_dist in
      let* d_xhat := mbin nsub t u in
      let* d_xhat := mbin nmul d_xhat (mmap inv_sqrt var) in
      Ok (Arr2 (mmap (fun d => d / n) d_xhat), g)).
End Dense.
