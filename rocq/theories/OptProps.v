(** The optimizer: C17, C18, C19, C20, C21, C22. *)
From Verif Require Import NumQ OptSpec OptProofs OptRealProofs OptRadamProofs.
Local Open Scope R_scope.

(** C17. What the optimizer returns and holds for key k depends only on the calls for k and the
    schedule events: all other calls can be removed from any history. Holds for arbitrary arithmetic
    (rounding included). Under RAdam the betas must be constant. *)
Theorem C17_per_key :
  forall (T K : Type) (NT : Num T) (EK : EqD K) adam (hp : hyper T K) (avg : bool) k es,
    (h_radam hp = true -> exists b1 b2, fixed (h_b1 hp) b1 /\ fixed (h_b2 hp) b2) ->
    let p := run_events adam hp (opt_init avg) es in
    let q := run_events adam hp (opt_init avg) (filter (concerns k) es) in
    filter (out_of k) (snd p) = snd q /\ same_key k (fst p) (fst q).
Proof. exact @per_key. Qed.
Print Assumptions C17_per_key.

Definition const {T} (x : T) : @sched T nat := fun _ _ _ => x.
Definition qhyper (radam : bool) (b1 b2 : Q) : hyper Q nat :=
  mkHyper (const (1 # 10)%Q) (const b1) (const b2) (const (1 # 100)%Q) (const 0%Q) (const 0%Q) radam false.
Definition qarr (l : list Q) : arr Q := mkArr [length l] l.
Definition ex_events : list (event Q nat) :=
  [ECall 1%nat (qarr [1; 2]%Q) (qarr [3; 4]%Q) 1%Q; ECall 2%nat (qarr [5]%Q) (qarr [6]%Q) 1%Q; EStep;
   ECall 1%nat (qarr [7; 8]%Q) (qarr [1; 1]%Q) 1%Q].
Example C17_ex :
  fixed (h_b1 (qhyper true (1 # 2) (1 # 2))) (1 # 2)%Q /\
  length (filter (concerns 1%nat) ex_events) = 3%nat /\
  nr_of (fst (run_events base_adam (qhyper true (1 # 2) (1 # 2)) (opt_init true) ex_events)) 1%nat = 2%nat /\
  nr_of (fst (run_events base_adam (qhyper true (1 # 2) (1 # 2)) (opt_init true) ex_events)) 2%nat = 1%nat.
Proof. split; [intros n k l; reflexivity|]. vm_compute. repeat split. Qed.

(** C17, finding: under RAdam with scheduled betas the step buffer is shared between keys, so another
    key's call changes the weights returned for this one. *)
Definition sched_hyper : hyper Q nat :=
  mkHyper (const (1 # 10)%Q) (fun n _ _ => if Nat.eqb n 0 then (1 # 2)%Q else (1 # 4)%Q) (const (1 # 2)%Q) (const (1 # 100)%Q)
    (const 0%Q) (const 0%Q) true false.
Definition sched_events : list (event Q nat) :=
  [ECall 1%nat (qarr [1]%Q) (qarr [1]%Q) 1%Q; EStep; ECall 2%nat (qarr [1]%Q) (qarr [1]%Q) 1%Q].
Theorem C17_radam_schedule_refuted :
  exists (hp : hyper Q nat) es k,
    filter (out_of k) (snd (run_events base_adam hp (opt_init false) es)) <>
    snd (run_events base_adam hp (opt_init false) (filter (concerns k) es)).
Proof. exists sched_hyper, sched_events, 2%nat. vm_compute. discriminate. Qed.
Print Assumptions C17_radam_schedule_refuted.

(** C18. A call with a non-empty gradient zeroes the gradient and counts one update, for its key only
    (whether or not it raises); a call with an empty gradient changes nothing. *)
Theorem C18_gradient_zeroed :
  forall (T K : Type) (NT : Num T) (EK : EqD K) adam (hp : hyper T K) st k w g sc st' w' g',
    (forall x : T, nmul x (nZ 0) = nZ 0) ->
    opt_call adam hp st k w g sc = (st', Ok (w', g')) -> (1 <= hd 0 (a_shape g))%nat ->
    (forall x, In x (a_data g') -> x = nZ 0) /\ a_shape g' = a_shape g /\ a_shape w' = a_shape w.
Proof. exact @call_gradient. Qed.
Print Assumptions C18_gradient_zeroed.
Theorem C18_counted :
  forall (T K : Type) (NT : Num T) (EK : EqD K) adam (hp : hyper T K) st k w g sc st' r,
    opt_call adam hp st k w g sc = (st', r) -> (1 <= hd 0 (a_shape g))%nat -> a_shape g <> [] ->
    nr_of st' k = (nr_of st k + 1)%nat /\ (forall j, j <> k -> nr_of st' j = nr_of st j).
Proof. exact @call_nr. Qed.
Print Assumptions C18_counted.
Theorem C18_empty_gradient :
  forall (T K : Type) (NT : Num T) (EK : EqD K) adam (hp : hyper T K) st k w g sc rest,
    a_shape g = 0%nat :: rest -> opt_call adam hp st k w g sc = (st, Ok (w, g)).
Proof. exact @call_empty. Qed.
Print Assumptions C18_empty_gradient.
Example C18_ex :
  (forall x : R, nmul x (nZ 0) = nZ 0) /\
  snd (opt_call base_adam (qhyper false 0 0) (opt_init true) 3%nat (qarr [1; 2]%Q) (qarr [5; 10]%Q) 1%Q)
    = Ok (qarr [1 # 2; 1]%Q, qarr [0; 0]%Q) /\
  snd (opt_call base_adam (qhyper false 0 0) (opt_init true) 3%nat (qarr []%Q) (qarr []%Q) 1%Q) = Ok (qarr [], qarr []).
Proof. split; [intros x; cbn; lra|]. split; vm_compute; reflexivity. Qed.

(** C19. Without momentum the new weights are w - lr_scale*lr*clip(g + L2*w), and with decoupled decay
    they are (1 - lr_scale*lr*L2) times w - lr_scale*lr*clip(g). *)
Theorem C19_sgd :
  forall (K : Type) (EK : EqD K) adam (hp : hyper R K) st k w g sc,
    h_radam hp = false -> (1 <= hd 0 (a_shape g))%nat -> length (a_data w) = length (a_data g) ->
    h_b2 hp (o_step st) k (o_last st) <= 0 ->
    let L2 := h_L2 hp (o_step st) k (o_last st) in
    let lr := h_lr hp (o_step st) k (o_last st) in
    let clip := h_clip hp (o_step st) k (o_last st) in
    let reg := if h_decay hp then a_data g else map (fun i => nth i (a_data g) 0 + L2 * nth i (a_data w) 0) (seq 0 (length (a_data g))) in
    let grad := if Req_EM_T clip 0 then reg else clip_gradient reg clip in
    exists st' w' g', opt_call adam hp st k w g sc = (st', Ok (w', g')) /\ length (a_data w') = length (a_data w) /\
      forall i, (i < length (a_data w))%nat ->
        nth i (a_data w') 0 = (if h_decay hp then 1 - sc * lr * L2 else 1) * (nth i (a_data w) 0 - sc * lr * nth i grad 0).
Proof. exact @sgd_real. Qed.
Print Assumptions C19_sgd.
Theorem C19_momentum_without_beta1 :
  forall (K : Type) (EK : EqD K) adam (hp : hyper R K) st k w g sc,
    h_radam hp = false -> (1 <= hd 0 (a_shape g))%nat ->
    0 < h_b2 hp (o_step st) k (o_last st) -> h_b1 hp (o_step st) k (o_last st) <= 0 ->
    snd (opt_call adam hp st k w g sc) = Err NotImplementedError.
Proof. exact @momentum_only_real. Qed.
Print Assumptions C19_momentum_without_beta1.
Definition q_l2 (decay : bool) : hyper Q nat :=
  mkHyper (const (1 # 10)%Q) (const 0%Q) (const 0%Q) (const (1 # 100)%Q) (const (1 # 2)%Q) (const 0%Q) false decay.
Example C19_ex :
  snd (opt_call base_adam (q_l2 false) (opt_init true) 3%nat (qarr [1; 2]%Q) (qarr [5; 10]%Q) 1%Q)
    = Ok (qarr [9 # 20; 9 # 10]%Q, qarr [0; 0]%Q) /\
  snd (opt_call base_adam (q_l2 true) (opt_init true) 3%nat (qarr [1; 2]%Q) (qarr [5; 10]%Q) 1%Q)
    = Ok (qarr [19 # 40; 19 # 20]%Q, qarr [0; 0]%Q).
Proof. split; vm_compute; reflexivity. Qed.

(** C20. After any history the moments of k are the exponential averages (1-b) * sum b^(n-i) g_i of the
    gradients seen by the update rule (RAdam included). *)
Theorem C20_moments :
  forall (K : Type) (EK : EqD K) adam (hp : hyper R K) b1 b2 sz k es avg,
    adam = base_adam \/ adam = numpy_adam ->
    fixed (h_b1 hp) b1 -> fixed (h_b2 hp) b2 -> 0 < b1 < 1 -> 0 < b2 < 1 -> Forall (sized k sz) es ->
    let st := fst (run_events adam hp (opt_init avg) es) in
    let tr := eff_trace adam hp (opt_init avg) k es in
    nr_of st k = length tr /\
    length (mom_of (o_mom1 st) k sz) = sz /\ length (mom_of (o_mom2 st) k sz) = sz /\
    forall i, (i < sz)%nat ->
      nth i (mom_of (o_mom1 st) k sz) 0 = ema b1 (column i tr) /\
      nth i (mom_of (o_mom2 st) k sz) 0 = ema b2 (map (fun x => x ^ 2) (column i tr)).
Proof. exact @adam_history. Qed.
Print Assumptions C20_moments.

(** C20. The n-th call is the textbook Adam step with epsilon divided by sqrt(1 - b2^n). *)
Theorem C20_adam_step :
  forall (K : Type) (EK : EqD K) adam (hp : hyper R K) b1 b2 sz k es avg w g sc,
    adam = base_adam \/ adam = numpy_adam ->
    h_radam hp = false ->
    fixed (h_b1 hp) b1 -> fixed (h_b2 hp) b2 -> 0 < b1 < 1 -> 0 < b2 < 1 -> Forall (sized k sz) es ->
    length (a_data w) = sz -> length (a_data g) = sz -> (1 <= hd 0 (a_shape g))%nat ->
    let st := fst (run_events adam hp (opt_init avg) es) in
    let tr := (eff_trace adam hp (opt_init avg) k es ++ [eff_grad hp st k (a_data w) (a_data g)])%list in
    let n := length tr in
    let lr := h_lr hp (o_step st) k (o_last st) in
    let L2 := h_L2 hp (o_step st) k (o_last st) in
    let eps := h_eps hp (o_step st) k (o_last st) in
    0 < eps ->
    exists st' w' g', opt_call adam hp st k w g sc = (st', Ok (w', g')) /\ length (a_data w') = sz /\
      forall i, (i < sz)%nat ->
        let mhat := ema b1 (column i tr) / (1 - b1 ^ n) in
        let vhat := ema b2 (map (fun x => x ^ 2) (column i tr)) / (1 - b2 ^ n) in
        nth i (a_data w') 0 =
          (if h_decay hp then 1 - sc * lr * L2 else 1) *
          (nth i (a_data w) 0 - lr * sc * (mhat / (sqrt vhat + eps / sqrt (1 - b2 ^ n)))).
Proof. exact @adam_step. Qed.
Print Assumptions C20_adam_step.

(** C20. The bias-corrected average of numbers in [lo, hi] is in [lo, hi]. *)
Theorem C20_bias_corrected_convex :
  forall b xs lo hi, 0 <= b < 1 -> xs <> [] -> (forall x, In x xs -> lo <= x <= hi) ->
    lo <= ema b xs / (1 - b ^ length xs) <= hi.
Proof. exact corrected_convex. Qed.
Print Assumptions C20_bias_corrected_convex.

(** C20. The C loop over blocks of 64 computes the elementwise update for every array length. *)
Theorem C20_blocked_loop :
  forall (T : Type) (NT : Num T) (g m v : list T) b1 b2 e, length m = length g -> length v = length g ->
    let '(g', m', v') := adam_momentum g m v b1 b2 e in
    length g' = length g /\ length m' = length g /\ length v' = length g /\
    forall i gi mi vi, nth_error g i = Some gi -> nth_error m i = Some mi -> nth_error v i = Some vi ->
      let mi' := ((nZ 1 - b1) * gi + b1 * mi)%num in
      let vi' := (b2 * vi + (nZ 1 - b2) * (gi * (gi * nZ 1)))%num in
      nth_error m' i = Some mi' /\ nth_error v' i = Some vi' /\ nth_error g' i = Some (mi' / (nsqrt vi' + e))%num.
Proof. exact @momentum_elementwise. Qed.
Print Assumptions C20_blocked_loop.
(** C20. The compiled CPU kernel and the generic one agree. *)
Theorem C20_kernels_agree :
  forall (w g m v : list R) b1 b2 e lr, length g = length w -> length m = length w -> length v = length w ->
    let '(w1, _, m1, v1) := base_adam w g m v b1 b2 e lr in
    let '(w2, _, m2, v2) := numpy_adam w g m v b1 b2 e lr in
    w1 = w2 /\ m1 = m2 /\ v1 = v2.
Proof. exact kernels_agree. Qed.
Print Assumptions C20_kernels_agree.
Example C20_ex :
  Forall (sized 1%nat 2) ex_events /\
  ema (1 / 2) [2; 4] = 5 / 2 /\
  eff_trace base_adam (qhyper false (1 # 2) (1 # 2)) (opt_init true) 1%nat ex_events = [[3; 4]%Q; [1; 1]%Q] /\
  adam_momentum (repeat 1%Q 70) (repeat 0%Q 70) (repeat 0%Q 70) (1 # 2)%Q (1 # 2)%Q 0%Q
    = (repeat 1%Q 70, repeat (1 # 2)%Q 70, repeat (1 # 2)%Q 70).
Proof.
  split; [repeat constructor; discriminate || (intros ?; vm_compute; auto)|].
  split; [unfold ema, Rsum; cbn; lra|]. split; vm_compute; reflexivity.
Qed.

(** C20, finding: RAdam corrects the bias of the n-th update with exponent n+1: the first step with
    b1 = b2 = 1/2 moves a weight by 2/3 of lr*g instead of lr*g. *)
Theorem C20_radam_bias_refuted :
  exists (hp : hyper Q nat) w g, h_lr hp 0%nat 1%nat None = (1 # 10)%Q /\
    snd (opt_call base_adam hp (opt_init false) 1%nat (qarr [w]) (qarr [g]) 1%Q) = Ok (qarr [w - (1 # 15) * g]%Q, qarr [0]%Q) /\
    h_b1 hp 0%nat 1%nat None = (1 # 2)%Q /\ ~ (w - (1 # 15) * g == w - (1 # 10) * g)%Q.
Proof. exists (qhyper true (1 # 2) (1 # 2)), 1%Q, 1%Q. vm_compute. repeat split. discriminate. Qed.
Print Assumptions C20_radam_bias_refuted.
(** C20. Apart from this exponent, RAdam's step is that of the paper: rectified when the average is long enough, and else
    without the variance. *)
Theorem C20_radam_step :
  forall (K : Type) (EK : EqD K) adam (hp : hyper R K) b1 b2 sz k es avg w g sc,
    adam = base_adam \/ adam = numpy_adam ->
    h_radam hp = true ->
    fixed (h_b1 hp) b1 -> fixed (h_b2 hp) b2 -> 0 < b1 < 1 -> 0 < b2 < 1 -> Forall (sized k sz) es ->
    length (a_data w) = sz -> length (a_data g) = sz -> (1 <= hd 0 (a_shape g))%nat ->
    let st := fst (run_events adam hp (opt_init avg) es) in
    let tr := (eff_trace adam hp (opt_init avg) k es ++ [eff_grad hp st k (a_data w) (a_data g)])%list in
    let t := S (length tr) in
    let lr := h_lr hp (o_step st) k (o_last st) in
    let L2 := h_L2 hp (o_step st) k (o_last st) in
    let eps := h_eps hp (o_step st) k (o_last st) in
    exists st' w' g', opt_call adam hp st k w g sc = (st', Ok (w', g')) /\ length (a_data w') = sz /\
      forall i, (i < sz)%nat ->
        let m := ema b1 (column i tr) in
        let v := ema b2 (map (fun x => x ^ 2) (column i tr)) in
        nth i (a_data w') 0 =
          (if h_decay hp then 1 - sc * lr * L2 else 1) *
          (nth i (a_data w) 0 - lr * (if Rle_dec 5 (rho b2 t) then rect b2 t * sqrt (1 - b2 ^ t) / (1 - b1 ^ t) * (m / (sqrt v + eps)) else m / (1 - b1 ^ t))).
Proof. exact @radam_step. Qed.
Print Assumptions C20_radam_step.
Example C20_radam_step_ex : rho (9 / 10) 2 <= 5 /\ rho_inf (9 / 10) = 19.
Proof. unfold rho, rho_inf. cbn. split; lra. Qed.
(** C20, finding: RAdam ignores lr_scale. *)
Theorem C20_radam_lr_scale_refuted :
  forall (T K : Type) (NT : Num T) (EK : EqD K) adam (hp : hyper T K) st k w g sc sc',
    h_radam hp = true -> h_decay hp = false -> opt_call adam hp st k w g sc = opt_call adam hp st k w g sc'.
Proof. exact @radam_ignores_lr_scale. Qed.
Print Assumptions C20_radam_lr_scale_refuted.

(** C21. Clipping returns a non-negative multiple of the gradient with norm at most the threshold
    (exactly the threshold if it was reached), and the gradient itself if its norm was not above it. *)
Theorem C21_clip_gradient :
  forall (g : list R) thr, 0 < thr ->
    (exists c, 0 <= c /\ clip_gradient g thr = map (fun x => c * x) g) /\
    norm (clip_gradient g thr) <= thr /\
    (norm g <= thr -> clip_gradient g thr = g) /\
    (thr <= norm g -> norm (clip_gradient g thr) = thr).
Proof. exact clip_ok. Qed.
Print Assumptions C21_clip_gradient.
Example C21_ex : clip_gradient [3; 4] 1 = [3 * (1 / 5); 4 * (1 / 5)].
Proof.
  unfold clip_gradient, norm, nsum. cbn [map fold_left nsqrt nadd nmul ndiv nltb nZ num_R].
  replace (0 + 3 * 3 + 4 * 4) with (5 * 5) by lra. rewrite sqrt_square by lra.
  destruct (Rlt_dec 5 1); [lra|]. reflexivity.
Qed.

(** C22. Each counted call moves the average of its key to decay*avg + (1-decay)*weights with
    decay = min((1+t)/(10+t), 0.9999), which is in (0,1). *)
Theorem C22_average_step :
  forall (K : Type) (EK : EqD K) adam (hp : hyper R K) st k w g sc st' w' g' a,
    opt_call adam hp st k w g sc = (st', Ok (w', g')) -> (1 <= hd 0 (a_shape g))%nat -> o_avg st = Some a ->
    length (avg_of st k (length (a_data w'))) = length (a_data w') ->
    exists a' e', o_avg st' = Some a' /\ dget k a' = Some e' /\ length e' = length (a_data w') /\
      forall i, (i < length (a_data w'))%nat ->
        let t := INR (nr_of st k + 1) in
        let decay := Rmin ((1 + t) / (10 + t)) (9999 / 10000) in
        nth i e' 0 = decay * nth i (avg_of st k (length (a_data w'))) 0 + (1 - decay) * nth i (a_data w') 0.
Proof. exact @call_avg_step. Qed.
Print Assumptions C22_average_step.
Theorem C22_decay :
  forall t, 0 < (avg_decay t : R) < 1 /\ (avg_decay t : R) = Rmin ((1 + INR t) / (10 + INR t)) (9999 / 10000).
Proof. exact decay_bounds. Qed.
Print Assumptions C22_decay.
(** C22. Averages stay between the bounds of zero and all weights returned. *)
Theorem C22_average_bounds :
  forall (K : Type) (EK : EqD K) adam (hp : hyper R K) k i lo hi es, lo <= 0 <= hi ->
    let p := run_events adam hp (opt_init true) es in
    (forall w g, In (k, Ok (w, g)) (snd p) -> lo <= nth i (a_data w) 0 <= hi) ->
    forall a e, o_avg (fst p) = Some a -> dget k a = Some e -> lo <= nth i e 0 <= hi.
Proof. exact @averages_history. Qed.
Print Assumptions C22_average_bounds.
Example C22_ex :
  option_map (dget 3%nat) (o_avg (fst (opt_call base_adam (qhyper false 0 0) (opt_init true) 3%nat (qarr [1; 2]%Q) (qarr [5; 10]%Q) 1%Q)))
    = Some (Some [9 # 22; 9 # 11]%Q).
Proof. vm_compute. reflexivity. Qed.
