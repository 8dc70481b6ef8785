(** Vocabulary of the optimizer theorems. *)
From Coq Require Import Reals.
From Verif Require Export OptModel NumR.

Section Spec.
  Context {T K : Type} `{Num T} `{EqD K}.
  Local Open Scope num_scope.

  Definition eqk (j k : K) : bool := if eqd j k then true else false.

  (** Does the event concern key k (its own calls, and the schedule events)? *)
  Definition concerns (k : K) (e : event T K) : bool :=
    match e with ECall j _ _ _ => eqk j k | _ => true end.
  Definition out_of (k : K) (p : K * result (arr T * arr T)) : bool := eqk (fst p) k.

  (** Everything the optimizer holds for key k is the same in both states. *)
  Definition same_key (k : K) (s t : opt T K) : Prop :=
    dget k (o_nr s) = dget k (o_nr t) /\ dget k (o_mom1 s) = dget k (o_mom1 t) /\
    dget k (o_mom2 s) = dget k (o_mom2 t) /\ option_map (dget k) (o_avg s) = option_map (dget k) (o_avg t).

  Definition fixed (s : sched (T := T) (K := K)) (x : T) : Prop := forall n k l, s n k l = x.

  (** The gradient the update rule sees: L2 added and clipped, as the hyperparameters say. *)
  Definition eff_grad (hp : hyper T K) (st : opt T K) (k : K) (w g : list T) : list T :=
    let L2 := h_L2 hp (o_step st) k (o_last st) in
    let clip := h_clip hp (o_step st) k (o_last st) in
    let g1 := if h_decay hp then g else if L2 =? nZ 0 then g else vmap2 (fun g w => g + L2 * w) g w in
    if clip =? nZ 0 then g1 else clip_gradient g1 clip.

  (** The effective gradients of the calls made for k in a history, oldest first. *)
  Definition grad_of_event (hp : hyper T K) (st : opt T K) (k : K) (e : event T K) : list (list T) :=
    match e with
    | ECall j w g _ => if eqk j k && (1 <=? hd 0 (a_shape g))%nat then [eff_grad hp st k (a_data w) (a_data g)] else []
    | _ => []
    end.
  Fixpoint eff_trace adam (hp : hyper T K) (st : opt T K) (k : K) (es : list (event T K)) : list (list T) :=
    match es with
    | [] => []
    | e :: es' => grad_of_event hp st k e ++ eff_trace adam hp (fst (run_event adam hp st e)) k es'
    end.

  (** Every call for k passes arrays with [size] elements. *)
  Definition sized (k : K) (size : nat) (e : event T K) : Prop :=
    match e with
    | ECall j w g _ => j = k -> length (a_data w) = size /\ length (a_data g) = size
    | _ => True
    end.
End Spec.

Local Open Scope R_scope.
Definition Rsum (l : list R) : R := fold_right Rplus 0 l.

(** The exponential moving average of [xs] (oldest first), starting at 0. *)
Definition ema (b : R) (xs : list R) : R :=
  (1 - b) * Rsum (map (fun t => b ^ (length xs - 1 - t) * nth t xs 0) (seq 0 (length xs))).

(** The i-th elements of a list of arrays. *)
Definition column (i : nat) (gs : list (list R)) : list R := map (fun g => nth i g 0) gs.

(** The running average of k's weights, zeros if there is none yet. *)
Definition avg_of {K} `{EqD K} (st : opt R K) (k : K) (size : nat) : list R :=
  match o_avg st with Some a => match dget k a with Some e => e | None => repeat 0 size end | None => [] end.

(** The quantities of the RAdam paper: the length of the average, and the rectification of the variance at step [t]. *)
Definition rho_inf (b2 : R) : R := 2 / (1 - b2) - 1.
Definition rho (b2 : R) (t : nat) : R := rho_inf b2 - 2 * INR t * b2 ^ t / (1 - b2 ^ t).
Definition rect (b2 : R) (t : nat) : R := sqrt ((rho b2 t - 4) * (rho b2 t - 2) * rho_inf b2 / ((rho_inf b2 - 4) * (rho_inf b2 - 2) * rho b2 t)).
