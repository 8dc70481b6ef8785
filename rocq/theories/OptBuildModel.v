(** Building optimizers, and calling them with their schedule objects: thinc/optimizers.py 12-207 and 230-283. No proofs here.
    Here every use of a hyperparameter is a call of its schedule, which may change it or raise; OptModel.v has the values. A
    generator passed for two hyperparameters is not shared in the model. *)
From Coq Require Import String ZArith List Bool.
From Verif Require Export OptModel SchedModel.
Import ListNotations.

Section Build.
  Context {T K : Type} `{Num T} `{NumX T} `{EqD K}.
  Local Open Scope num_scope.

  (** A value passed for a hyperparameter: a float, int or bool; a list; a generator, by the values it will yield; a
      schedule; or anything else, such as None or a tuple. *)
  Inductive arg :=
  | ANum (value : T)
  | AList (values : list T)
  | AGen (values : nat -> option T)
  | ASched (s : schedule T)
  | AOther.

  (** 195-207 [_set_attr_or_schedule] *)
  Definition to_schedule (value : arg) : result (schedule T) :=
    match value with
    | ANum c => Ok (Constant c)
    | AList l => wrap_generator (fun i => nth_error l i)
    | AGen seq => wrap_generator seq
    | ASched s => Ok s
    | AOther => Err ValueError
    end.

  (** An [Optimizer]: its state (OptModel.v) and its schedules. *)
  Record optimizer := mkOptimizer {
    z_opt : opt T K;
    z_clip : schedule T; z_lr : schedule T; z_b1 : schedule T; z_b2 : schedule T; z_eps : schedule T; z_L2 : schedule T;
    z_radam : bool;
    z_decay : bool
  }.

  (** 12-30 [SGD_DEFAULTS], [ADAM_DEFAULTS] *)
  Definition default_L2 : T := nZ 0.
  Definition default_decay : bool := true.
  Definition default_clip : T := nZ 1.
  Definition default_lr : T := nZ 1 / nZ 1000.
  Definition default_beta1 : T := nZ 9 / nZ 10.
  Definition default_beta2 : T := nZ 999 / nZ 1000.
  Definition default_eps : T := nZ 1 / nZ 100000000.

  (** 142-193 [Optimizer.__init__], all arguments given; the schedules are set in this order *)
  Definition Optimizer (learn_rate L2 beta1 beta2 eps grad_clip : arg) (use_averages use_radam L2_is_weight_decay : bool) : result optimizer :=
    let* grad_clip := to_schedule grad_clip in
    let* learn_rate := to_schedule learn_rate in
    let* b1 := to_schedule beta1 in
    let* b2 := to_schedule beta2 in
    let* eps := to_schedule eps in
    let* L2 := to_schedule L2 in
    Ok (mkOptimizer (opt_init use_averages) grad_clip learn_rate b1 b2 eps L2 use_radam L2_is_weight_decay).

  (** The arguments of a call; [None] where none is given. *)
  Record kwargs := mkKw {
    w_lr : option arg; w_L2 : option arg; w_beta1 : option arg; w_beta2 : option arg; w_eps : option arg; w_clip : option arg;
    w_decay : option bool; w_averages : option bool
  }.
  Definition kw (o : option arg) (d : T) : arg := match o with Some a => a | None => ANum d end.
  Definition kwb (o : option bool) (d : bool) : bool := match o with Some b => b | None => d end.

  (** 33-56 [RAdam] *)
  Definition RAdam (k : kwargs) : result optimizer :=
    Optimizer (kw (w_lr k) default_lr) (kw (w_L2 k) default_L2) (kw (w_beta1 k) default_beta1) (kw (w_beta2 k) default_beta2)
      (kw (w_eps k) default_eps) (kw (w_clip k) default_clip) (kwb (w_averages k) true) true (kwb (w_decay k) default_decay).
  (** 59-82 [Adam] *)
  Definition Adam (k : kwargs) : result optimizer :=
    Optimizer (kw (w_lr k) default_lr) (kw (w_L2 k) default_L2) (kw (w_beta1 k) default_beta1) (kw (w_beta2 k) default_beta2)
      (kw (w_eps k) default_eps) (kw (w_clip k) default_clip) (kwb (w_averages k) true) false (kwb (w_decay k) default_decay).
  (** 85-105 [SGD]: [learn_rate] has no default, and [beta1], [beta2] and [eps] are no parameters *)
  Definition SGD (k : kwargs) : result optimizer :=
    match w_lr k, w_beta1 k, w_beta2 k, w_eps k with
    | Some lr, None, None, None =>
      Optimizer lr (kw (w_L2 k) default_L2) (ANum (nZ 0)) (ANum (nZ 0)) (ANum default_eps) (kw (w_clip k) default_clip)
        (kwb (w_averages k) true) false (kwb (w_decay k) default_decay)
    | _, _, _, _ => Err TypeError
    end.

  (** Statements that may raise, having changed the optimizer. *)
  Definition M (A : Type) : Type := optimizer -> optimizer * result A.
  Definition ret {A} (a : A) : M A := fun z => (z, Ok a).
  Definition raise {A} (e : err) : M A := fun z => (z, Err e).
  Definition mbind {A B} (m : M A) (f : A -> M B) : M B := fun z => match m z with (z, Ok a) => f a z | (z, Err e) => (z, Err e) end.
  Definition get_opt : M (opt T K) := fun z => (z, Ok (z_opt z)).
  Definition put_opt (o : opt T K) : M unit :=
    fun z => (mkOptimizer o (z_clip z) (z_lr z) (z_b1 z) (z_b2 z) (z_eps z) (z_L2 z) (z_radam z) (z_decay z), Ok tt).

  Inductive field := Fclip | Flr | Fb1 | Fb2 | Feps | FL2.
  Definition get_field (f : field) (z : optimizer) : schedule T :=
    match f with Fclip => z_clip z | Flr => z_lr z | Fb1 => z_b1 z | Fb2 => z_b2 z | Feps => z_eps z | FL2 => z_L2 z end.
  Definition set_field (f : field) (s : schedule T) (z : optimizer) : optimizer :=
    match f with
    | Fclip => mkOptimizer (z_opt z) s (z_lr z) (z_b1 z) (z_b2 z) (z_eps z) (z_L2 z) (z_radam z) (z_decay z)
    | Flr => mkOptimizer (z_opt z) (z_clip z) s (z_b1 z) (z_b2 z) (z_eps z) (z_L2 z) (z_radam z) (z_decay z)
    | Fb1 => mkOptimizer (z_opt z) (z_clip z) (z_lr z) s (z_b2 z) (z_eps z) (z_L2 z) (z_radam z) (z_decay z)
    | Fb2 => mkOptimizer (z_opt z) (z_clip z) (z_lr z) (z_b1 z) s (z_eps z) (z_L2 z) (z_radam z) (z_decay z)
    | Feps => mkOptimizer (z_opt z) (z_clip z) (z_lr z) (z_b1 z) (z_b2 z) s (z_L2 z) (z_radam z) (z_decay z)
    | FL2 => mkOptimizer (z_opt z) (z_clip z) (z_lr z) (z_b1 z) (z_b2 z) (z_eps z) s (z_radam z) (z_decay z)
    end.
  (** [self.f(self.step, key=key, last_score=self.last_score)] (224-228) *)
  Definition query (f : field) : M T := fun z =>
    let (s, r) := sched_call (get_field f z) (Z.of_nat (o_step (z_opt z)))
                    (match o_last (z_opt z) with Some (n, x) => Some (Z.of_nat n, x) | None => None end) in
    (set_field f s z, r).

  (** The numbers a call has obtained, for the arithmetic of OptModel.v. *)
  Definition fixed (lr b1 b2 eps : T) : hyper T K :=
    mkHyper (fun _ _ _ => lr) (fun _ _ _ => b1) (fun _ _ _ => b2) (fun _ _ _ => eps) (fun _ _ _ => nZ 0) (fun _ _ _ => nZ 0) false false.
  (** 286-289, 372-375: new momenta are stored before any schedule is called *)
  Definition alloc_moms (key : K) (size : nat) : M unit :=
    mbind get_opt (fun st =>
      let m1 := if dmem key (o_mom1 st) then o_mom1 st else dset key (repeat (nZ 0) size) (o_mom1 st) in
      let m2 := if dmem key (o_mom2 st) then o_mom2 st else dset key (repeat (nZ 0) size) (o_mom2 st) in
      put_opt (with_moms st m1 m2)).
  (** 285-366 [_radam] *)
  Definition call_radam (weights grad : list T) (lr_scale : T) (key : K) (nr_upd : nat) : M (list T * list T) :=
    mbind (alloc_moms key (length weights)) (fun _ =>
    mbind (query Flr) (fun lr => mbind (query Fb1) (fun b1 => mbind (query Fb2) (fun b2 => mbind (query Feps) (fun eps =>
    mbind get_opt (fun st =>
      let '(st, wg) := opt_radam (fixed lr b1 b2 eps) st weights grad lr_scale key nr_upd in
      mbind (put_opt st) (fun _ => ret wg))))))).
  (** 368-395 [_adam] *)
  Definition call_adam (adam : list T -> list T -> list T -> list T -> T -> T -> T -> T -> list T * list T * list T * list T)
    (weights gradient : list T) (lr_scale : T) (key : K) (nr_upd : nat) : M (list T * list T) :=
    mbind (alloc_moms key (length weights)) (fun _ =>
    mbind (query Fb1) (fun b1 => mbind (query Fb2) (fun b2 => mbind (query Flr) (fun lr => mbind (query Feps) (fun eps =>
    mbind get_opt (fun st =>
      let '(st, wg) := opt_adam adam (fixed lr b1 b2 eps) st weights gradient lr_scale key nr_upd in
      mbind (put_opt st) (fun _ => ret wg))))))).

  (** 230-283 [__call__] *)
  Definition call (adam : list T -> list T -> list T -> list T -> T -> T -> T -> T -> list T * list T * list T * list T)
    (key : K) (weights gradient : arr T) (lr_scale : T) : M (arr T * arr T) := fun z =>
    match a_shape gradient with
    | [] => raise TypeError z
    | len :: _ =>
      if Nat.ltb len 1 then ret (weights, gradient) z
      else
       (mbind get_opt (fun st =>
        let nr_upd := (nr_of st key + 1)%nat in
        mbind (put_opt (with_nr st (dset key nr_upd (o_nr st)))) (fun _ =>
        let w := a_data weights in
        let g := a_data gradient in
        mbind (query FL2) (fun L2 =>
        mbind (if negb (L2 =? nZ 0) && negb (z_decay z)
               then mbind (query FL2) (fun L2 => ret (vmap2 (fun g w => g + L2 * w) g w)) else ret g) (fun g =>
        mbind (query Fclip) (fun clip =>
        mbind (if negb (clip =? nZ 0) then mbind (query Fclip) (fun clip => ret (clip_gradient g clip)) else ret g) (fun g =>
        mbind (if z_radam z then call_radam w g lr_scale key nr_upd
               else mbind (query Fb1) (fun b1 =>
                    mbind (if nZ 0 <? b1 then mbind (query Fb2) (fun b2 => ret (nZ 0 <? b2)) else ret false) (fun both =>
                    if both then call_adam adam w g lr_scale key nr_upd
                    else mbind (query Fb2) (fun b2 =>
                         if nZ 0 <? b2 then raise NotImplementedError
                         else mbind (query Flr) (fun lr => ret (vmap2 (fun w g => w - lr_scale * lr * g) w g, g)))))) (fun '(w, g) =>
        let g := map (fun x => x * nZ 0) g in
        mbind (query FL2) (fun L2 =>
        mbind (if negb (L2 =? nZ 0) && z_decay z
               then mbind (query Flr) (fun lr => mbind (query FL2) (fun L2 => ret (map (fun x => x - lr_scale * lr * L2 * x) w))) else ret w) (fun w =>
        mbind get_opt (fun st =>
        let st := match o_avg st with
                  | None => st
                  | Some avg =>
                    let ema := match dget key avg with Some e => e | None => repeat (nZ 0) (length w) end in
                    with_avg st (Some (dset key (update_averages ema w nr_upd) avg))
                  end in
        mbind (put_opt st) (fun _ => ret (mkArr (a_shape weights) w, mkArr (a_shape gradient) g))))))))))))) z
    end.

  (** A history of an optimizer: calls, [step_schedules()] and [last_score = score] (209-218). *)
  Definition handle adam (z : optimizer) (e : event T K) : optimizer * list (K * result (arr T * arr T)) :=
    match e with
    | ECall k w g s => let (z, r) := call adam k w g s z in (z, [(k, r)])
    | EStep => (fst (put_opt (step_schedules (z_opt z)) z), [])
    | EScore s => (fst (put_opt (set_last_score (z_opt z) s) z), [])
    end.
  Fixpoint handle_all adam (z : optimizer) (es : list (event T K)) : optimizer * list (K * result (arr T * arr T)) :=
    match es with
    | [] => (z, [])
    | e :: es =>
      let (z1, out1) := handle adam z e in
      let (z2, out2) := handle_all adam z1 es in
      (z2, (out1 ++ out2)%list)
    end.
End Build.
Arguments arg : clear implicits.
Arguments optimizer : clear implicits.
Arguments kwargs : clear implicits.
