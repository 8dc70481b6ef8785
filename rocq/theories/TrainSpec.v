(** Vocabulary of the theorems about training steps. *)
From Coq Require Import Reals.
From Verif Require Export TrainModel OptSpec CombSpec DenseSpec LossSpec.
Local Open Scope R_scope.

(** The same optimizer with another, constant learning rate. *)
Definition with_rate {K} (hp : hyper R K) (eta : R) : hyper R K :=
  mkHyper (fun _ _ _ => eta) (h_b1 hp) (h_b2 hp) (h_eps hp) (h_L2 hp) (h_clip hp) (h_radam hp) (h_decay hp).
(** No regularization; gradients may be clipped. *)
Definition unregularized {K} (hp : hyper R K) : Prop := h_radam hp = false /\ forall n k l, h_L2 hp n k l = 0 /\ 0 <= h_clip hp n k l.
(** Plain gradient descent. *)
Definition sgd {K} (hp : hyper R K) : Prop := unregularized hp /\ forall n k l, h_b2 hp n k l <= 0.
(** Adam, with betas and epsilon that may change. *)
Definition adam_hyper {K} (hp : hyper R K) : Prop := unregularized hp /\
  forall n k l, 0 < h_b1 hp n k l < 1 /\ 0 < h_b2 hp n k l < 1 /\ 0 < h_eps hp n k l.
(** The optimizer has not seen the parameters before. *)
Definition unseen {K} `{EqD K} (st : opt R K) (k : K) : Prop := dget k (o_nr st) = None /\ dget k (o_mom1 st) = None /\ dget k (o_mom2 st) = None.
(** The parameters fill the vector. *)
Definition layout {K} (ps : list (K * list nat)) (theta : list R) : Prop :=
  Forall (fun p => snd p <> []) ps /\ length theta = list_sum (map (fun p => size_of (snd p)) ps).
(** A loss on matrices of the shape of [Y], with its gradient there up to a positive factor. *)
Definition loss_at (loss : mat R -> result R) (Y d : mat R) : Prop :=
  CombSpec.like (Arr2 d) (Arr2 Y) /\ (exists c, 0 < c /\ loss_gradient loss c Y d) /\
  forall Y', CombSpec.like (Arr2 Y') (Arr2 Y) -> exists x, loss Y' = Ok x.
(** For every small enough learning rate the step succeeds and lowers the objective. *)
Definition lowers {K} (step : hyper R K -> opt R K * result (list R)) (hp : hyper R K) (objective : list R -> R -> Prop) (x : R) : Prop :=
  exists eta0, 0 < eta0 /\ forall eta, 0 < eta < eta0 ->
    exists theta' x', snd (step (with_rate hp eta)) = Ok theta' /\ objective theta' x' /\ x' < x.
(** The loss of a network at given parameters. *)
Definition network_loss (net : layer R) (X : value R) (loss : mat R -> result R) (theta : list R) (x : R) : Prop :=
  exists Y b, net true theta X = Ok (Arr2 Y, b) /\ loss Y = Ok x.
(** The (weighted) cross-entropy of the outputs of a network to integer labels. *)
Definition network_cross_entropy (net : layer R) (X : value R) (c : cc_t R) (nO : nat) (l : list Z) (theta : list R) (x : R) : Prop :=
  exists Y b, net true theta X = Ok (Arr2 Y, b) /\
    x = weighted_cross_entropy (label_weights (normalize c) (missing_value c) l) (label_target (label_smoothing c) nO l) Y.
(** The gradient of the parameters that a step computes. *)
Definition step_gradient (net : layer R) (X : value R) (get_grad : mat R -> result (mat R)) (theta g : list R) : Prop :=
  exists Y b d dX, net true theta X = Ok (Arr2 Y, b) /\ get_grad Y = Ok d /\ b (Arr2 d) (repeat 0 (length theta)) = Ok (dX, g).
(** The optimizers for which the loss is shown to go down: gradient descent in any state, and the first step of Adam. *)
Definition descending {K} `{EqD K} (adam : list R -> list R -> list R -> list R -> R -> R -> R -> R -> list R * list R * list R * list R) (hp : hyper R K) (st : opt R K) (ps : list (K * list nat)) : Prop :=
  sgd hp \/ ((adam = base_adam \/ adam = numpy_adam) /\ adam_hyper hp /\ NoDup (map fst ps) /\ Forall (fun p => unseen st (fst p)) ps).
