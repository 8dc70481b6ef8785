(** The optimizer (thinc/optimizers.py 108-395; thinc/backends/ops.py 1172-1213;
    thinc/backends/numpy_ops.pyx 521-535, 598-633). No proofs here.
    In-place array updates are modelled by returning the new contents. *)
From Verif Require Export NumModel DictModel.

(** An array: its shape and its elements in row-major order. *)
Record arr (T : Type) := mkArr { a_shape : list nat; a_data : list T }.
Arguments mkArr {T}. Arguments a_shape {T}. Arguments a_data {T}.

Section Opt.
  Context {T K : Type} `{Num T} `{EqD K}.
  Local Open Scope num_scope.

  (** Hyperparameters: the value of each schedule at (step, key, last_score). Stateful schedules
      return the same value when queried again at the same step (C23, C25), so they are functions here. *)
  Definition sched := nat -> K -> option (nat * T) -> T.
  Record hyper := mkHyper {
    h_lr : sched; h_b1 : sched; h_b2 : sched; h_eps : sched; h_L2 : sched; h_clip : sched;
    h_radam : bool;                       (* use_radam *)
    h_decay : bool                        (* L2_is_weight_decay *)
  }.

  (** One slot of [_radam_buffer]: step, N_sma, step_size; [None] before first use. *)
  Local Notation slot := (option (nat * T * T)) (only parsing).

  Record opt := mkOpt {
    o_step : nat;
    o_last : option (nat * T);            (* _last_score *)
    o_mom1 : dict K (list T);
    o_mom2 : dict K (list T);
    o_avg : option (dict K (list T));     (* None: averages are off *)
    o_nr : dict K nat;                    (* nr_update, a defaultdict *)
    o_buf : list slot
  }.

  (** thinc/optimizers.py 148-193 [__init__] *)
  Definition opt_init (use_averages : bool) : opt :=
    mkOpt 0 None [] [] (if use_averages then Some [] else None) [] (repeat None 10).

  Definition nr_of (st : opt) (k : K) : nat := match dget k (o_nr st) with Some n => n | None => 0 end.

  Definition with_nr (st : opt) d := mkOpt (o_step st) (o_last st) (o_mom1 st) (o_mom2 st) (o_avg st) d (o_buf st).
  Definition with_moms (st : opt) m1 m2 := mkOpt (o_step st) (o_last st) m1 m2 (o_avg st) (o_nr st) (o_buf st).
  Definition with_avg (st : opt) d := mkOpt (o_step st) (o_last st) (o_mom1 st) (o_mom2 st) d (o_nr st) (o_buf st).
  Definition with_buf (st : opt) b := mkOpt (o_step st) (o_last st) (o_mom1 st) (o_mom2 st) (o_avg st) (o_nr st) b.

  (** thinc/backends/ops.py 1207-1213 [clip_gradient] *)
  Definition norm (g : list T) : T := nsqrt (nsum (map (fun x => x * x) g)).
  Definition clip_gradient (g : list T) (threshold : T) : list T :=
    let grad_norm := norm g in
    if negb (grad_norm <? threshold) then map (fun x => x * (threshold / grad_norm)) g else g.

  (** thinc/backends/ops.py 1172-1179 [update_averages], with max_decay = 0.9999 *)
  Definition max_decay : T := nZ 9999 / nZ 10000.
  Definition avg_decay (t : nat) : T :=
    let decay := (nZ 1 + nnat t) / (nZ 10 + nnat t) in
    if max_decay <? decay then max_decay else decay.
  Definition update_averages (ema weights : list T) (t : nat) : list T :=
    vmap2 (fun e w => e - (nZ 1 - avg_decay t) * (e - w)) ema weights.

  (** thinc/backends/ops.py 1181-1205 [Ops.adam] *)
  Definition ops_adam (weights gradient mom1 mom2 : list T) (beta1 beta2 eps lr mod_rate : T)
    : list T * list T * list T * list T :=
    let mom1 := map (fun m => m * beta1) mom1 in
    let mom2 := map (fun m => m * beta2) mom2 in
    let mom1 := vmap2 (fun m g => m + g * (nZ 1 - beta1)) mom1 gradient in
    let mom2 := vmap2 (fun m g => m + g * g * (nZ 1 - beta2)) mom2 gradient in
    let weights := vmap2 (fun w p => w - lr * p) weights
                     (vmap2 (fun m1 m2 => m1 / (mod_rate * nsqrt m2 + eps)) mom1 mom2) in
    (weights, gradient, mom1, mom2).

  (** [_adam] leaves [mod_rate] at its default 1.0 (optimizers.py 382-392). *)
  Definition base_adam weights gradient mom1 mom2 beta1 beta2 eps lr :=
    ops_adam weights gradient mom1 mom2 beta1 beta2 eps lr (nZ 1).

  (** thinc/backends/numpy_ops.pyx 613-633: one block of [_adam_momentum] (BLAS calls elementwise). *)
  Definition adam_block (gradient mom1 mom2 : list T) (beta1 beta2 eps : T) : list T * list T * list T :=
    let mom1 := map (fun m => beta1 * m) mom1 in                                             (* sscal *)
    let mom1 := vmap2 (fun m g => (nZ 1 - beta1) * g + m) mom1 gradient in                   (* saxpy *)
    let mom2 := map (fun m => beta2 * m) mom2 in
    let mom2 := vmap2 (fun m g => m + (nZ 1 - beta2) * npow g 2) mom2 gradient in
    let buff := map nsqrt mom2 in
    let buff := map (fun b => b + eps) buff in
    let buff := vmap2 (fun m b => m / b) mom1 buff in
    (buff, mom1, mom2).

  (** thinc/backends/numpy_ops.pyx 598-633 [_adam_momentum]: blocks of at most 64 elements, pointers
      advanced after each; [steps] is the number of blocks. *)
  Fixpoint adam_blocks (steps : nat) (gradient mom1 mom2 : list T) (beta1 beta2 eps : T) : list T * list T * list T :=
    match steps with
    | O => (gradient, mom1, mom2)
    | S steps' =>
      let '(g, m1, m2) := adam_block (firstn 64 gradient) (firstn 64 mom1) (firstn 64 mom2) beta1 beta2 eps in
      let '(g', m1', m2') := adam_blocks steps' (skipn 64 gradient) (skipn 64 mom1) (skipn 64 mom2) beta1 beta2 eps in
      (g ++ g', m1 ++ m1', m2 ++ m2')
    end.
  Definition adam_momentum (gradient mom1 mom2 : list T) (beta1 beta2 eps : T) : list T * list T * list T :=
    let nr_weight := length gradient in
    let steps := (nr_weight / 64)%nat in
    let steps := if (steps * 64 <? nr_weight)%nat then S steps else steps in
    adam_blocks steps gradient mom1 mom2 beta1 beta2 eps.

  (** thinc/backends/numpy_ops.pyx 521-535 [NumpyOps.adam] *)
  Definition numpy_adam (weights gradient mom1 mom2 : list T) (beta1 beta2 eps lr : T)
    : list T * list T * list T * list T :=
    let '(g, mom1, mom2) := adam_momentum gradient mom1 mom2 beta1 beta2 eps in
    let weights := vmap2 (fun w p => (- lr) * p + w) weights g in                            (* saxpy *)
    (weights, map (fun _ => nZ 0) g, mom1, mom2).

  (** thinc/optimizers.py 372-375, 286-289: [ops.alloc1f(weights.size)] when the key is new *)
  Definition mom_of (d : dict K (list T)) (k : K) (size : nat) : list T :=
    match dget k d with Some m => m | None => repeat (nZ 0) size end.

  (** thinc/optimizers.py 368-395 [_adam]; [adam] is the backend's kernel. *)
  Definition opt_adam (adam : list T -> list T -> list T -> list T -> T -> T -> T -> T -> list T * list T * list T * list T)
    (hp : hyper) (st : opt) (weights gradient : list T) (lr_scale : T) (key : K) (nr_upd : nat)
    : opt * (list T * list T) :=
    let mom1 := mom_of (o_mom1 st) key (length weights) in
    let mom2 := mom_of (o_mom2 st) key (length weights) in
    let b1 := h_b1 hp (o_step st) key (o_last st) in
    let b2 := h_b2 hp (o_step st) key (o_last st) in
    let fix1 := nZ 1 - npow b1 nr_upd in
    let fix2 := nZ 1 - npow b2 nr_upd in
    let lr := h_lr hp (o_step st) key (o_last st) * nsqrt fix2 / fix1 in
    let eps := h_eps hp (o_step st) key (o_last st) in
    let '(w, g, m1, m2) := adam weights gradient mom1 mom2 b1 b2 eps (lr * lr_scale) in
    (with_moms st (dset key m1 (o_mom1 st)) (dset key m2 (o_mom2 st)), (w, g)).

  (** thinc/optimizers.py 326-350: N_sma and step_size for a step number *)
  Definition radam_values (beta1 beta2 : T) (step : nat) : T * T :=
    let beta2_t := npow beta2 step in
    let N_sma_max := nZ 2 / (nZ 1 - beta2) - nZ 1 in
    let N_sma := N_sma_max - nZ 2 * nnat step * beta2_t / (nZ 1 - beta2_t) in
    let step_size :=
      if negb (N_sma <? nZ 5)
      then nsqrt ((nZ 1 - beta2_t) * (N_sma - nZ 4) / (N_sma_max - nZ 4) * (N_sma - nZ 2) / N_sma * N_sma_max
                  / (N_sma_max - nZ 2)) / (nZ 1 - npow beta1 step)
      else nZ 1 / (nZ 1 - npow beta1 step) in
    (N_sma, step_size).

  (** thinc/optimizers.py 320-350: look up or fill the slot of the shared buffer *)
  Definition radam_lookup (buf : list slot) (beta1 beta2 : T) (step : nat) : list slot * (T * T) :=
    let fresh := let '(n, s) := radam_values beta1 beta2 step in (set_nth (step mod 10) (Some (step, n, s)) buf, (n, s)) in
    match nth_error buf (step mod 10) with
    | Some (Some (s0, n, sz)) => if Nat.eqb step s0 then (buf, (n, sz)) else fresh
    | _ => fresh
    end.

  (** thinc/optimizers.py 285-366 [_radam] (weight_decay is 0.0; [lr_scale] is not used) *)
  Definition opt_radam (hp : hyper) (st : opt) (weights grad : list T) (lr_scale : T) (key : K) (nr_upd : nat)
    : opt * (list T * list T) :=
    let exp_avg := mom_of (o_mom1 st) key (length weights) in
    let exp_avg_sq := mom_of (o_mom2 st) key (length weights) in
    let lr := h_lr hp (o_step st) key (o_last st) in
    let beta1 := h_b1 hp (o_step st) key (o_last st) in
    let beta2 := h_b2 hp (o_step st) key (o_last st) in
    let eps := h_eps hp (o_step st) key (o_last st) in
    let exp_avg_sq := vmap2 (fun m g => m + (nZ 1 - beta2) * npow g 2) (map (fun m => m * beta2) exp_avg_sq) grad in
    let exp_avg := vmap2 (fun m g => m + (nZ 1 - beta1) * g) (map (fun m => m * beta1) exp_avg) grad in
    let step := (nr_of st key + 1)%nat in
    let '(buf, (N_sma, step_size)) := radam_lookup (o_buf st) beta1 beta2 step in
    let weights :=
      if negb (N_sma <? nZ 5)
      then vmap2 (fun w p => w + (- step_size) * lr * p) weights
             (vmap2 (fun a q => a / (nsqrt q + eps)) exp_avg exp_avg_sq)
      else if nZ 0 <? step_size then vmap2 (fun w a => w + (- step_size) * lr * a) weights exp_avg
      else weights in
    (with_buf (with_moms st (dset key exp_avg (o_mom1 st)) (dset key exp_avg_sq (o_mom2 st))) buf, (weights, grad)).

  (** thinc/optimizers.py 230-283 [__call__]. *)
  Definition opt_call (adam : list T -> list T -> list T -> list T -> T -> T -> T -> T -> list T * list T * list T * list T)
    (hp : hyper) (st : opt) (key : K) (weights gradient : arr T) (lr_scale : T) : opt * result (arr T * arr T) :=
    match a_shape gradient with
    | [] => (st, Err TypeError)                          (* len() of a 0-d array *)
    | len :: _ =>
      if (len <? 1)%nat then (st, Ok (weights, gradient))
      else
        let nr_upd := (nr_of st key + 1)%nat in
        let st := with_nr st (dset key nr_upd (o_nr st)) in
        let L2 := h_L2 hp (o_step st) key (o_last st) in
        let clip := h_clip hp (o_step st) key (o_last st) in
        let lr := h_lr hp (o_step st) key (o_last st) in
        let w := a_data weights in
        let g := a_data gradient in
        let g := if negb (L2 =? nZ 0) && negb (h_decay hp) then vmap2 (fun g w => g + L2 * w) g w else g in
        let g := if negb (clip =? nZ 0) then clip_gradient g clip else g in
        let upd :=
          if h_radam hp then Ok (opt_radam hp st w g lr_scale key nr_upd)
          else if (nZ 0 <? h_b1 hp (o_step st) key (o_last st)) && (nZ 0 <? h_b2 hp (o_step st) key (o_last st))
          then Ok (opt_adam adam hp st w g lr_scale key nr_upd)
          else if nZ 0 <? h_b2 hp (o_step st) key (o_last st) then Err NotImplementedError
          else Ok (st, (vmap2 (fun w g => w - lr_scale * lr * g) w g, g)) in
        match upd with
        | Err e => (st, Err e)
        | Ok (st, (w, g)) =>
          let g := map (fun x => x * nZ 0) g in
          let w := if negb (L2 =? nZ 0) && h_decay hp then map (fun x => x - lr_scale * lr * L2 * x) w else w in
          let st := match o_avg st with
                    | None => st
                    | Some avg =>
                      let ema := match dget key avg with Some e => e | None => repeat (nZ 0) (length w) end in
                      with_avg st (Some (dset key (update_averages ema w nr_upd) avg))
                    end in
          (st, Ok (mkArr (a_shape weights) w, mkArr (a_shape gradient) g))
        end
    end.

  (** thinc/optimizers.py 209-218: the other things that change an optimizer *)
  Definition step_schedules (st : opt) : opt :=
    mkOpt (S (o_step st)) (o_last st) (o_mom1 st) (o_mom2 st) (o_avg st) (o_nr st) (o_buf st).
  Definition set_last_score (st : opt) (score : T) : opt :=
    mkOpt (o_step st) (Some (o_step st, score)) (o_mom1 st) (o_mom2 st) (o_avg st) (o_nr st) (o_buf st).

  (** A history of an optimizer. *)
  Inductive event :=
  | ECall (key : K) (weights gradient : arr T) (lr_scale : T)
  | EStep
  | EScore (score : T).

  Definition run_event adam (hp : hyper) (st : opt) (e : event) : opt * list (K * result (arr T * arr T)) :=
    match e with
    | ECall k w g s => let (st, r) := opt_call adam hp st k w g s in (st, [(k, r)])
    | EStep => (step_schedules st, [])
    | EScore s => (set_last_score st s, [])
    end.
  Fixpoint run_events adam (hp : hyper) (st : opt) (es : list event) : opt * list (K * result (arr T * arr T)) :=
    match es with
    | [] => (st, [])
    | e :: es' =>
      let (st1, out1) := run_event adam hp st e in
      let (st2, out2) := run_events adam hp st1 es' in
      (st2, out1 ++ out2)
    end.
End Opt.
Arguments hyper : clear implicits.
Arguments opt : clear implicits.
Arguments event : clear implicits.
