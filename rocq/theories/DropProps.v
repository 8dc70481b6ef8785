(** C43: dropout is the identity at prediction time and consistent in training. [flips] are the draws of the random
    generator, of which number [pos] is the next. *)
From Coq Require Import QArith.
From Coq Require Import Reals Lra.
From Verif Require Import NumQ CombModel CombSpec DropModel DropSpec DropProofs.
Local Open Scope R_scope.

Definition ex_flips (k : nat) : Q := nth k [1#10; 9#10; 3#4; 1#2; 1#4]%Q 0%Q.
Definition run_drop (rate : option Q) (X dY : value Q) : result (value Q * value Q * nat) :=
  let* r := dropout ex_flips 0 rate true true X in let* dX := snd (fst r) dY in Ok (fst (fst r), dX, snd r).

(** With the rate 0, disabled, or outside training: the input itself, the identity callback, no draws. *)
Theorem C43_off :
  forall {T} `{Num T} (flips : nat -> T) pos rate enabled tr X,
    (exists r, rate = Some r /\ neqb r (nZ 0) = true) \/ enabled = false \/ tr = false ->
    exists b, dropout flips pos rate enabled tr X = Ok (X, b, pos) /\ forall dY, b dY = Ok dY.
Proof. exact @dropout_off. Qed.
Print Assumptions C43_off.
Example C43_off_ex : run_drop (Some 0%Q) (PyTup [Sc 1%Q]) (Sc 2%Q) = Ok (PyTup [Sc 1%Q], Sc 2%Q, 0%nat). Proof. reflexivity. Qed.

(** In training: the output has the shape of the input, element [k] of all its scalars is that of the input times the
    factor of draw [pos + k], and the callback applies the same factors to the gradient. *)
Theorem C43_training :
  forall rate (flips : nat -> R) pos X, droppable X -> wfv X -> (forall r, rate = Some r -> r <> 0) ->
    exists Y b, dropout flips pos rate true true X = Ok (Y, b, (pos + draws rate (length (leaves X)))%nat) /\
      like Y (listed X) /\ masked rate flips pos (leaves X) (leaves Y) /\
      forall dY, like dY Y -> exists dX, b dY = Ok dX /\ like dX dY /\ masked rate flips pos (leaves dY) (leaves dX).
Proof. exact dropout_train. Qed.
Print Assumptions C43_training.
Example C43_training_ex :
  run_drop (Some (1#2)) (Arr2 (mkM 2 [[1; 2]; [3; 4]]%Q)) (Arr2 (mkM 2 [[5; 6]; [7; 8]]%Q)) = Ok (Arr2 (mkM 2 [[0; 4]; [6; 8]]%Q), Arr2 (mkM 2 [[0; 12]; [14; 16]]%Q), 4%nat) /\
  run_drop (Some (1#2)) (PyList [Arr1 [1; 2]; Arr1 [3; 4]]%Q) (PyList [Arr1 [1; 1]; Arr1 [1; 1]]%Q) = Ok (PyList [Arr1 [0; 4]; Arr1 [6; 8]]%Q, PyList [Arr1 [0; 2]; Arr1 [2; 2]]%Q, 4%nat) /\
  run_drop (Some (1#2)) (Pad 1 [[[1]; [2]]; [[3]]]%Q [2; 1]%nat [2; 1]%nat [0; 1]%nat) (Pad 1 [[[1]; [1]]; [[1]]]%Q [2; 1]%nat [2; 1]%nat [0; 1]%nat) =
    Ok (Pad 1 [[[0]; [4]]; [[6]]]%Q [2; 1]%nat [2; 1]%nat [0; 1]%nat, Pad 1 [[[0]; [2]]; [[2]]]%Q [2; 1]%nat [2; 1]%nat [0; 1]%nat, 3%nat).
Proof. vm_compute. repeat split. Qed.
Example C43_training_hyp : droppable (PyList [Arr1 [1]; Arr2 (mkM 1 [[2]; [3]])]) /\ wfv (PyList [Arr1 [1]; Arr2 (mkM 1 [[2]; [3]])]).
Proof. repeat constructor. Qed.

(** The factors. *)
Theorem C43_factors : forall d flip, 0 < d < 1 -> (d <= flip -> keep (Some d) flip = 1 / (1 - d)) /\ (flip < d -> keep (Some d) flip = 0).
Proof. exact keep_range. Qed.
Print Assumptions C43_factors.
Theorem C43_extreme_rates : forall flip, keep None flip = 1 /\ (forall d, d <= 0 -> keep (Some d) flip = 1) /\ (forall d, 1 <= d -> keep (Some d) flip = 0).
Proof. exact keep_edge. Qed.
Print Assumptions C43_extreme_rates.
Example C43_factors_ex : run_drop (Some 2%Q) (Arr1 [7]%Q) (Arr1 [1]%Q) = Ok (Arr1 [0]%Q, Arr1 [0]%Q, 0%nat) /\
  run_drop (Some (-1)%Q) (Arr1 [7]%Q) (Arr1 [1]%Q) = Ok (Arr1 [7]%Q, Arr1 [1]%Q, 0%nat) /\ run_drop None (Arr1 [7]%Q) (Arr1 [1]%Q) = Ok (Arr1 [7]%Q, Arr1 [1]%Q, 0%nat).
Proof. vm_compute. repeat split. Qed.

(** For fixed draws, dropout is differentiated correctly. *)
Theorem C43_gradient :
  forall rate (flips : nat -> R) pos theta X, droppable X -> listed X = X -> wfv X -> (forall r, rate = Some r -> r <> 0) ->
    exists Y, differentiates (Dropout flips pos rate true) true theta X Y /\ masked rate flips pos (leaves X) (leaves Y).
Proof. exact dropout_diff_train. Qed.
Print Assumptions C43_gradient.
Example C43_gradient_hyp : droppable (Rag (mkM 1 [[2]; [3]]) 1 [2%Z]) /\ listed (Rag (mkM 1 [[2]; [3]]) 1 [2%Z]) = Rag (mkM 1 [[2]; [3]]) 1 [2%Z] /\ wfv (Rag (mkM 1 [[2]; [3]]) 1 [2%Z]).
Proof. repeat split; [discriminate|repeat constructor]. Qed.

(** Values without a shape. *)
Theorem C43_no_shape :
  forall {T} `{Num T} (flips : nat -> T) pos rate X, (forall r, rate = Some r -> neqb r (nZ 0) = false) ->
    (forall x, X = Sc x -> dropout flips pos rate true true X = Err AttributeError) /\
    (forall l, X = PyList l \/ X = PyTup l -> ~ Forall is_array l -> dropout flips pos rate true true X = Err AttributeError).
Proof. exact @drop_errors. Qed.
Print Assumptions C43_no_shape.
Theorem C43_list_gradient :
  forall {T} `{Num T} (flips : nat -> T) pos rate Xs Y b p, (forall r, rate = Some r -> neqb r (nZ 0) = false) -> dropout flips pos rate true true (PyList Xs) = Ok (Y, b, p) ->
    forall dY, (exists x, dY = Sc x) -> b dY = Err TypeError.
Proof. exact @drop_list_gradient. Qed.
Print Assumptions C43_list_gradient.
Example C43_no_shape_ex : run_drop (Some (1#2)) (PyList [Arr1 [1]; Sc 1]%Q) (Sc 1%Q) = Err AttributeError. Proof. reflexivity. Qed.

(** A gradient list that is too short is cut off without an error: the last arrays get no gradient. *)
Theorem C43_short_gradient_refuted :
  exists Y b p, dropout (fun _ => 1) 0 (Some (1/2)) true true (PyList [Arr1 [1]; Arr1 [1]]) = Ok (Y, b, p) /\ exists x, b (PyList [Arr1 [1]]) = Ok (PyList [Arr1 [x]]).
Proof. exact drop_short. Qed.
Print Assumptions C43_short_gradient_refuted.
(** A Ragged batch without elements loses its width in training. *)
Theorem C43_empty_ragged_refuted :
  exists b p, dropout (fun _ => 1) 0 (Some (1/2)) true true (Rag (mkM 0 []) 5 [0%Z]) = Ok (Rag (mkM 0 []) 0 [0%Z], b, p).
Proof. exact drop_empty_ragged. Qed.
Print Assumptions C43_empty_ragged_refuted.
