(** C83: floating point. *)
From Coq Require Import ZArith List Lia.
From Verif Require Import FloatModel FloatSpec FloatIntProofs FloatProofs FloatSubProofs FloatMaxProofs FloatTables DenseModel KernelModel ReduceModel CudaActModel OptModel ScalerModel.
From Coq.Floats Require Import SpecFloat.
Import ListNotations.
Local Open Scope Z_scope.

(** Sums of integers are exact while the absolute values add up to at most 2^prec. *)
Theorem C83_integer_sum : forall prec emax, format prec emax -> forall l, fold_right (fun z a => Z.abs z + a) 0 l <= 2 ^ prec ->
  @nsum _ (num_sf prec emax) (map (@nZ _ (num_sf prec emax)) l) = @nZ _ (num_sf prec emax) (fold_right Z.add 0 l).
Proof. exact @integer_sum. Qed.
Print Assumptions C83_integer_sum.
Example C83_integer_sum_ex : format 24 128 /\ fold_right (fun z a => Z.abs z + a) 0 [16777000; -5; 200] <= 2 ^ 24 /\
  @nsum _ f32 (map (@nZ _ f32) [16777000; -5; 200]) = @nZ _ f32 16777195.
Proof. unfold format. vm_compute. repeat split; congruence. Qed.

(** Subtraction is the addition of the opposite, for all floats; of integers it is exact up to 2^prec. *)
Theorem C83_sub : forall prec emax (x y : spec_float),
  @nsub _ (num_sf prec emax) x y = @nadd _ (num_sf prec emax) x (@nopp _ (num_sf prec emax) y).
Proof. exact sub_opp. Qed.
Print Assumptions C83_sub.
Example C83_sub_ex : @nsub _ f32 f_inf f_inf = S754_nan /\ @nsub _ f32 (q32 1 3) (q32 1 3) = S754_zero false /\ @nsub _ f32 (@nZ _ f32 0) f_inf = S754_infinity true.
Proof. vm_compute. repeat split. Qed.
Theorem C83_integer_sub : forall prec emax, format prec emax -> forall a b, Z.abs a <= 2 ^ prec -> Z.abs b <= 2 ^ prec -> Z.abs (a - b) <= 2 ^ prec ->
  @nsub _ (num_sf prec emax) (@nZ _ (num_sf prec emax) a) (@nZ _ (num_sf prec emax) b) = @nZ _ (num_sf prec emax) (a - b).
Proof. exact integer_sub. Qed.
Print Assumptions C83_integer_sub.
Example C83_integer_sub_ex : format 24 128 /\ Z.abs (16777216 - 5) <= 2 ^ 24 /\ @nsub _ f32 (@nZ _ f32 16777216) (@nZ _ f32 5) = @nZ _ f32 16777211.
Proof. unfold format. vm_compute. repeat split; congruence. Qed.

(** Counting by adding ones stops at 2^prec: 16777216 in float32, 2048 in float16. *)
Theorem C83_count : forall prec emax, format prec emax -> forall n,
  @nsum _ (num_sf prec emax) (repeat (@nZ _ (num_sf prec emax) 1) n) = @nZ _ (num_sf prec emax) (Z.min (Z.of_nat n) (2 ^ prec)).
Proof. exact @count. Qed.
Print Assumptions C83_count.
Example C83_count_ex : format 11 16 /\ @nsum _ f16 (repeat (@nZ _ f16 1) 2100) = @nZ _ f16 2048 /\ @nsum _ f16 (repeat (@nZ _ f16 1) 2047) = @nZ _ f16 2047.
Proof. unfold format. vm_compute. repeat split; congruence. Qed.

(** The kernel of reduce_sum: [n] rows of ones give the smaller of [n] and 2^prec in each column. *)
Theorem C83_reduce_sum : forall prec emax, format prec emax -> forall n k, (0 < n)%nat -> (0 < k)%nat ->
  @np_reduce_sum _ (num_sf prec emax) (mkM k (repeat (repeat (@nZ _ (num_sf prec emax) 1) k) n)) [Z.of_nat n] =
  Ok (mkM k [repeat (@nZ _ (num_sf prec emax) (Z.min (Z.of_nat n) (2 ^ prec))) k]).
Proof. exact @reduce_sum_ones. Qed.
Print Assumptions C83_reduce_sum.
Example C83_reduce_sum_ex : @np_reduce_sum _ f16 (mkM 2 (repeat (repeat (@nZ _ f16 1) 2) 2060)) [2060] = Ok (mkM 2 [[@nZ _ f16 2048; @nZ _ f16 2048]]).
Proof. vm_compute. reflexivity. Qed.

(** The kernel of reduce_mean adds rows scaled by a rounded 1/n: the mean of ten ones is not one. *)
Theorem C83_mean_of_ones_refuted : ~ forall n, (0 < n)%nat -> @np_reduce_mean _ f32 (mkM 1 (repeat [@nZ _ f32 1] n)) [Z.of_nat n] = Ok (mkM 1 [[@nZ _ f32 1]]).
Proof. exact mean_refuted. Qed.
Print Assumptions C83_mean_of_ones_refuted.
(** Other backends divide the sum. *)
Example C83_mean_of_ones_ex : @op_reduce_mean _ f32 (mkM 1 (repeat [@nZ _ f32 1] 10)) [10] = Ok (mkM 1 [[@nZ _ f32 1]]) /\
  @np_reduce_mean _ f32 (mkM 1 (repeat [@nZ _ f32 1] 10)) [10] = Ok (mkM 1 [[S754_finite false 8388609 (-23)]]).
Proof. vm_compute. split; reflexivity. Qed.

(** relu of NumpyOps: positive elements and NaN are kept, all others become +0. *)
Theorem C83_relu_numpy : forall prec emax X, @cpu_relu _ (num_sf prec emax) X =
  map (fun x => if positive_f x then x else match x with S754_nan => S754_nan | _ => S754_zero false end) X.
Proof. exact relu_numpy. Qed.
Print Assumptions C83_relu_numpy.
Example C83_relu_numpy_ex : @cpu_relu _ f32 [q32 (-1) 3; q32 1 3; S754_infinity true; S754_nan; S754_zero true] = [S754_zero false; q32 1 3; S754_zero false; S754_nan; S754_zero false].
Proof. vm_compute. reflexivity. Qed.

(** relu of the other backends multiplies with a comparison: negative numbers become -0, and minus infinity becomes NaN. *)
Theorem C83_relu_product : forall prec emax, format prec emax -> forall X, all_valid prec emax X ->
  @cupy_relu _ (num_sf prec emax) X = map (fun x => if positive_f x then x else times_zero x) X.
Proof. exact relu_xp. Qed.
Print Assumptions C83_relu_product.
Theorem C83_relu_rows : forall prec emax, format prec emax -> forall O rows, Forall (all_valid prec emax) rows ->
  @op_relu _ (num_sf prec emax) (mkM O rows) = mkM O (map (map (fun x => if positive_f x then x else times_zero x)) rows).
Proof. exact relu_rows. Qed.
Print Assumptions C83_relu_rows.
Example C83_relu_product_ex : all_valid 24 128 [q32 (-1) 3; q32 1 3; S754_infinity true] /\
  @cupy_relu _ f32 [q32 (-1) 3; q32 1 3; S754_infinity true] = [S754_zero true; q32 1 3; S754_nan] /\
  @op_relu _ f32 (mkM 1 [[q32 (-1) 3]; [q32 1 3]]) = mkM 1 [[S754_zero true]; [q32 1 3]].
Proof. split; [intros x [<-|[<-|[<-|[]]]]; reflexivity|]. vm_compute. split; reflexivity. Qed.

(** Without minus infinity the backends agree, up to the sign of zero. *)
Theorem C83_relu_agree : forall prec emax, format prec emax -> forall X, all_valid prec emax X -> (forall x, In x X -> x <> S754_infinity true) ->
  Forall2 (fun a b => @neqb _ (num_sf prec emax) a b = true \/ a = S754_nan /\ b = S754_nan) (@cpu_relu _ (num_sf prec emax) X) (@cupy_relu _ (num_sf prec emax) X).
Proof. exact relu_agree. Qed.
Print Assumptions C83_relu_agree.
Example C83_relu_agree_ex : all_valid 24 128 [q32 (-1) 3; f_inf; S754_nan] /\ (forall x, In x [q32 (-1) 3; f_inf; S754_nan] -> x <> S754_infinity true) /\
  @cpu_relu _ f32 [q32 (-1) 3; f_inf; S754_nan] = [S754_zero false; f_inf; S754_nan] /\ @cupy_relu _ f32 [q32 (-1) 3; f_inf; S754_nan] = [S754_zero true; f_inf; S754_nan].
Proof. split; [intros x [<-|[<-|[<-|[]]]]; reflexivity|]. split; [intros x [<-|[<-|[<-|[]]]]; discriminate|]. vm_compute. split; reflexivity. Qed.
Theorem C83_relu_agree_refuted : ~ forall X, all_valid 24 128 X -> map f_nan (@cpu_relu _ f32 X) = map f_nan (@cupy_relu _ f32 X).
Proof. exact relu_refuted. Qed.
Print Assumptions C83_relu_agree_refuted.

(** Gradients: NumpyOps keeps the gradient where the output is positive or NaN and has +0 elsewhere; the product keeps it only
    where the output is positive, and an infinite gradient becomes NaN elsewhere. *)
Theorem C83_backprop_relu_numpy : forall prec emax dY Y, @cpu_backprop_relu _ (num_sf prec emax) dY Y =
  map (fun p => if f_nan (snd p) || positive_f (snd p) then fst p else S754_zero false) (combine dY Y).
Proof. exact backprop_numpy. Qed.
Print Assumptions C83_backprop_relu_numpy.
Theorem C83_backprop_relu_product : forall prec emax, format prec emax -> forall dY Y, all_valid prec emax dY -> length dY = length Y ->
  @cupy_backprop_relu _ (num_sf prec emax) dY Y = Ok (map (fun p => if positive_f (snd p) then fst p else times_zero (fst p)) (combine dY Y)).
Proof. exact backprop_xp. Qed.
Print Assumptions C83_backprop_relu_product.
Example C83_backprop_relu_ex : all_valid 24 128 [f_inf; q32 1 3; q32 2 3] /\
  @cpu_backprop_relu _ f32 [f_inf; q32 1 3; q32 2 3] [S754_zero false; q32 1 2; S754_nan] = [S754_zero false; q32 1 3; q32 2 3] /\
  @cupy_backprop_relu _ f32 [f_inf; q32 1 3; q32 2 3] [S754_zero false; q32 1 2; S754_nan] = Ok [S754_nan; q32 1 3; S754_zero false].
Proof. split; [intros x [<-|[<-|[<-|[]]]]; reflexivity|]. vm_compute. split; reflexivity. Qed.

(** Clipping a gradient with an element whose square overflows: the norm is infinite, and every finite element becomes zero. *)
Theorem C83_clip_overflow : forall prec emax g t, no_nan g -> (exists x, In x g /\ @nmul _ (num_sf prec emax) x x = f_inf) -> f_pos t = true ->
  @fclip_gradient _ (num_sf prec emax) g t = map times_zero g.
Proof. exact clip_zero. Qed.
Print Assumptions C83_clip_overflow.
Example C83_clip_overflow_ex : no_nan [@nZ _ f32 (10 ^ 20); q32 1 3] /\ @nmul _ f32 (@nZ _ f32 (10 ^ 20)) (@nZ _ f32 (10 ^ 20)) = f_inf /\ f_pos (@nZ _ f32 1) = true /\
  @fclip_gradient _ f32 [@nZ _ f32 (10 ^ 20); q32 1 3] (@nZ _ f32 1) = [S754_zero false; S754_zero false].
Proof. split; [intros x [<-|[<-|[]]]; vm_compute; discriminate|]. vm_compute. repeat split. Qed.
(** So a finite gradient that is not zero can be clipped to zero. *)
Theorem C83_clip_not_zero_refuted : ~ forall g t, (forall x, In x g -> f_finite x = true) -> f_pos t = true -> (exists x, In x g /\ @neqb _ f32 x (@nZ _ f32 0) = false) ->
  exists x, In x (@fclip_gradient _ f32 g t) /\ @neqb _ f32 x (@nZ _ f32 0) = false.
Proof. exact clip_refuted. Qed.
Print Assumptions C83_clip_not_zero_refuted.
(** A gradient with a NaN is not clipped: the comparison with the norm fails. *)
Theorem C83_clip_nan : forall prec emax g t, In S754_nan g -> @fclip_gradient _ (num_sf prec emax) g t = g.
Proof. exact clip_nan. Qed.
Print Assumptions C83_clip_nan.
Example C83_clip_nan_ex : @fclip_gradient _ f32 [S754_nan; @nZ _ f32 1000] (@nZ _ f32 1) = [S754_nan; @nZ _ f32 1000] /\
  @fclip_gradient _ f32 [@nZ _ f32 0; @nZ _ f32 1000] (@nZ _ f32 1) <> [@nZ _ f32 0; @nZ _ f32 1000].
Proof. vm_compute. split; [reflexivity|discriminate]. Qed.

(** Adam: a gradient whose square overflows makes the second moment infinite. *)
Theorem C83_adam_overflow : forall prec emax weights gradient mom1 mom2 beta1 beta2 eps lr i g m2,
  nth_error gradient i = Some g -> nth_error mom2 i = Some m2 -> f_finite m2 = true -> f_sign m2 = false -> f_pos beta2 = true ->
  f_pos (@nsub _ (num_sf prec emax) (@nZ _ (num_sf prec emax) 1) beta2) = true -> @nmul _ (num_sf prec emax) g g = f_inf ->
  nth_error (snd (@base_adam _ (num_sf prec emax) weights gradient mom1 mom2 beta1 beta2 eps lr)) i = Some f_inf.
Proof. exact adam_poison. Qed.
Print Assumptions C83_adam_overflow.
(** From then on the second moment stays infinite and the weight does not move, whatever the gradient, while the first moment is finite. *)
Theorem C83_adam_frozen : forall prec emax, format prec emax -> forall weights gradient mom1 mom2 beta1 beta2 eps lr i w g m,
  nth_error weights i = Some w -> nth_error gradient i = Some g -> nth_error mom1 i = Some m -> nth_error mom2 i = Some f_inf ->
  f_pos beta2 = true -> f_pos (@nsub _ (num_sf prec emax) (@nZ _ (num_sf prec emax) 1) beta2) = true -> f_nan g = false -> f_finite eps = true -> f_finite lr = true ->
  f_finite (@nadd _ (num_sf prec emax) (@nmul _ (num_sf prec emax) m beta1) (@nmul _ (num_sf prec emax) g (@nsub _ (num_sf prec emax) (@nZ _ (num_sf prec emax) 1) beta1))) = true ->
  f_finite w = true -> @neqb _ (num_sf prec emax) w (@nZ _ (num_sf prec emax) 0) = false ->
  let '(weights', _, _, mom2') := @base_adam _ (num_sf prec emax) weights gradient mom1 mom2 beta1 beta2 eps lr in
  nth_error weights' i = Some w /\ nth_error mom2' i = Some f_inf.
Proof. exact adam_frozen. Qed.
Print Assumptions C83_adam_frozen.
(** Two steps with the default rates: the first with gradient 1e20, the second with gradient 1 *)
Example C83_adam_ex : let b1 := q32 9 10 in let b2 := q32 999 1000 in let eps := q32 1 100000000 in let lr := q32 1 1000 in let w := @nZ _ f32 1 in let big := @nZ _ f32 (10 ^ 20) in
  let '(w1, _, m1, v1) := @base_adam _ f32 [w] [big] [@nZ _ f32 0] [@nZ _ f32 0] b1 b2 eps lr in
  let '(w2, _, m2, v2) := @base_adam _ f32 w1 [@nZ _ f32 1] m1 v1 b1 b2 eps lr in
  f_pos b2 = true /\ f_pos (@nsub _ f32 (@nZ _ f32 1) b2) = true /\ @nmul _ f32 big big = f_inf /\
  w1 = [w] /\ v1 = [f_inf] /\ w2 = [w] /\ v2 = [f_inf] /\ forallb f_finite m2 = true.
Proof. vm_compute. repeat split. Qed.

(** maxout of NumpyOps, unrolled (2 or 3 pieces) or not: without NaN, the first of the largest candidates, exactly. *)
Theorem C83_maxout : forall prec emax P l, no_nan l -> length l = P -> (0 < P)%nat ->
  exists v i, @maxout_cell _ (num_sf prec emax) P l = Ok (v, i) /\ 0 <= i < Z.of_nat P /\ nth_error l (Z.to_nat i) = Some v /\
  (forall x, In x l -> SFltb v x = false) /\ (forall j x, (j < Z.to_nat i)%nat -> nth_error l j = Some x -> SFltb x v = true).
Proof. exact maxout_ok. Qed.
Print Assumptions C83_maxout.
Example C83_maxout_ex : no_nan [q32 1 3; S754_infinity true; q32 2 3] /\ @maxout_cell _ f32 3 [q32 1 3; S754_infinity true; q32 2 3] = Ok (q32 2 3, 2).
Proof. split; [intros x [<-|[<-|[<-|[]]]]; vm_compute; discriminate|vm_compute; reflexivity]. Qed.
(** A NaN in front is the result. *)
Theorem C83_maxout_first_nan : forall prec emax P l, length l = P -> @maxout_cell _ (num_sf prec emax) (S P) (S754_nan :: l) = Ok (S754_nan, 0).
Proof. exact maxout_first_nan. Qed.
Print Assumptions C83_maxout_first_nan.
(** With four pieces or more a later NaN is passed over. *)
Theorem C83_maxout_later_nan : forall prec emax P x l, (3 <= P)%nat -> length l = P ->
  option_map fst (match @maxout_cell _ (num_sf prec emax) (S P) (x :: l) with Ok r => Some r | Err _ => None end) =
  option_map fst (match @argmax_loop _ (num_sf prec emax) (x :: filter (fun x => negb (f_nan x)) l) with Ok r => Some r | Err _ => None end).
Proof. exact maxout_skips_nan. Qed.
Print Assumptions C83_maxout_later_nan.
Example C83_maxout_later_nan_ex : @maxout_cell _ f32 4 [@nZ _ f32 1; S754_nan; @nZ _ f32 100; @nZ _ f32 0] = Ok (@nZ _ f32 100, 2) /\
  @maxout_cell _ f32 4 [S754_nan; @nZ _ f32 1; @nZ _ f32 100; @nZ _ f32 0] = Ok (S754_nan, 0).
Proof. vm_compute. split; reflexivity. Qed.
(** With three pieces it is not: a NaN in the middle hides a larger candidate after it. *)
Theorem C83_maxout_nan_refuted : ~ forall P l v i, length l = P -> @maxout_cell _ f32 P l = Ok (v, i) -> v = S754_nan \/ forall x, In x l -> @nltb _ f32 v x = false.
Proof. exact maxout_refuted. Qed.
Print Assumptions C83_maxout_nan_refuted.
(** The maximum of the other backends is NaN if there is a NaN anywhere. *)
Theorem C83_max_nan : forall prec emax l best w i, In S754_nan (best :: l) -> fst (@xp_argmax_from _ (num_sf prec emax) best w i l) = S754_nan.
Proof. exact xp_max_nan. Qed.
Print Assumptions C83_max_nan.
Example C83_max_nan_ex : @xp_argmax_from _ f32 (@nZ _ f32 1) 0 1 [S754_nan; @nZ _ f32 100] = (S754_nan, 1) /\ @maxout_cell _ f32 3 [@nZ _ f32 1; S754_nan; @nZ _ f32 100] = Ok (@nZ _ f32 1, 0).
Proof. vm_compute. split; reflexivity. Qed.

(** Clipping to a range: between the bounds, and the value itself if it is there already; NaN stays NaN. *)
Theorem C83_clip_range : forall prec emax lo hi x, no_nan [lo; hi; x] -> SFltb hi lo = false ->
  SFltb (@clip _ (num_sf prec emax) lo hi x) lo = false /\ SFltb hi (@clip _ (num_sf prec emax) lo hi x) = false /\
  (SFltb x lo = false -> SFltb hi x = false -> @clip _ (num_sf prec emax) lo hi x = x).
Proof. exact clip_ok. Qed.
Print Assumptions C83_clip_range.
Theorem C83_clip_range_nan : forall prec emax lo hi, @clip _ (num_sf prec emax) lo hi S754_nan = S754_nan.
Proof. exact clip_nan_id. Qed.
Print Assumptions C83_clip_range_nan.
Example C83_clip_range_ex : no_nan [@nZ _ f32 0; @nZ _ f32 1; f_inf] /\ SFltb (@nZ _ f32 1) (@nZ _ f32 0) = false /\ @clip _ f32 (@nZ _ f32 0) (@nZ _ f32 1) f_inf = @nZ _ f32 1 /\
  @clip _ f32 (@nZ _ f32 0) (@nZ _ f32 1) (q32 1 3) = q32 1 3.
Proof. split; [intros x [<-|[<-|[<-|[]]]]; vm_compute; discriminate|]. vm_compute. repeat split. Qed.

(** The gradient scaler with a scale 2^k: gradients that were scaled without overflow are unscaled to exactly what they were. *)
Theorem C83_unscale_exact : forall prec emax, format prec emax -> forall (sc : scaler spec_float) k grads, sc_enabled sc = true -> sc_scale sc = pow2 prec emax k -> 0 <= k -> k <= emax - 2 ->
  Forall (Forall (fun x => valid_binary prec emax x = true)) grads ->
  Forall (Forall (fun x => f_finite (@nmul _ (num_sf prec emax) x (sc_scale sc)) = true)) grads ->
  fst (@unscale _ (num_sf prec emax) f_finite sc (map (map (fun x => @nmul _ (num_sf prec emax) x (sc_scale sc))) grads)) = (sc_found sc, grads).
Proof. exact unscale_exact. Qed.
Print Assumptions C83_unscale_exact.
(** The default scale 2^16, with a third and the smallest positive float32 *)
Example C83_unscale_exact_ex : let sc := @new_scaler spec_float true (pow2 24 128 16) (pow2 24 128 (-1)) (pow2 24 128 1) 2000 in
  Forall (Forall (fun x => valid_binary 24 128 x = true)) [[q32 1 3; S754_finite false 1 (-149)]] /\
  Forall (Forall (fun x => f_finite (@nmul _ f32 x (sc_scale sc)) = true)) [[q32 1 3; S754_finite false 1 (-149)]] /\
  @nmul _ f32 (S754_finite false 1 (-149)) (sc_scale sc) = pow2 24 128 (-133) /\ @nmul _ f32 (pow2 24 128 (-133)) (pow2 24 128 (-16)) = S754_finite false 1 (-149).
Proof. repeat split; repeat constructor. Qed.
(** With growth 2 and backoff 1/2 the scale stays a power of two, does not overflow, and is halved after an overflow. *)
Theorem C83_scale_power : forall prec emax, format prec emax -> forall (sc : scaler spec_float) k, sc_enabled sc = true -> sc_scale sc = pow2 prec emax k -> 2 - emax < k -> k < emax ->
  sc_growth sc = pow2 prec emax 1 -> sc_backoff sc = pow2 prec emax (-1) ->
  exists k', sc_scale (@update _ (num_sf prec emax) f_finite sc) = pow2 prec emax k' /\ k - 1 <= k' <= k + 1 /\ k' < emax /\ (sc_found sc = true -> k' = k - 1) /\ (sc_found sc = false -> k <= k').
Proof. exact scale_stays. Qed.
Print Assumptions C83_scale_power.
Example C83_scale_power_ex : let sc := mkScaler true (pow2 24 128 1) (pow2 24 128 (-1)) 1 0 (pow2 24 128 127) false in
  sc_scale (@update _ f32 f_finite sc) = pow2 24 128 127 /\ sc_scale (@update _ f32 f_finite (mkScaler true (pow2 24 128 1) (pow2 24 128 (-1)) 1 0 (pow2 24 128 16) true)) = pow2 24 128 15.
Proof. vm_compute. split; reflexivity. Qed.
