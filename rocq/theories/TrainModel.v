(** One step of training: thinc/model.py 318-349 ([begin_update] and [finish_update]) with thinc/optimizers.py 230-283, for a layer
    of CombModel.v. No proofs here. *)
From Verif Require Export OptModel CombModel.

Section Train.
  Context {T K : Type} `{Num T} `{EqD K}.

  (** The parameters of the model in the order [finish_update] visits them: the key and the shape of each. Their values one after
      the other are the vector [theta] of CombModel.v. *)
  Definition params_t : Type := list (K * list nat).
  Definition size_of (shape : list nat) : nat := fold_right Nat.mul 1 shape.

  (** model.py 343-349. A parameter whose gradient was never incremented is skipped by the code ([has_grad]); here it is passed with
      a gradient of zeros, which is the same unless the optimizer has momentum or regularization for it. The second loop over the shims is in ScalerModel.v. *)
  Fixpoint finish_flat adam (hp : hyper T K) (st : opt T K) (ps : params_t) (theta g : list T) : opt T K * result (list T) :=
    match ps with
    | [] => (st, Ok theta)
    | (key, shape) :: ps =>
        let n := size_of shape in
        let (st, r) := opt_call adam hp st key (mkArr shape (firstn n theta)) (mkArr shape (firstn n g)) (nZ 1) in
        match r with
        | Err e => (st, Err e)
        | Ok (param, _) =>
            let (st, r) := finish_flat adam hp st ps (skipn n theta) (skipn n g) in
            (st, let* rest := r in Ok (a_data param ++ rest))
        end
    end.

  (** model.py 318-326, the gradient of a loss on a 2d output, the callback on gradients that are zero, 336-349 *)
  Definition train_step adam (hp : hyper T K) (st : opt T K) (ps : params_t) (net : layer T) (get_grad : mat T -> result (mat T))
    (X : value T) (theta : list T) : opt T K * result (list T) :=
    match (let* (Y, backprop) := net true theta X in
           match Y with
           | Arr2 Y => let* dY := get_grad Y in
                       let* (_, g) := backprop (Arr2 dY) (repeat (nZ 0) (length theta)) in Ok g
           | _ => Err TypeError
           end) with
    | Err e => (st, Err e)
    | Ok g => finish_flat adam hp st ps theta g
    end.
End Train.
