(** Vocabulary of the theorems about TensorFlow and MXNet models. *)
From Coq Require Import String Reals.
From Verif Require Export NumR ForeignModel.

Section Spec.
  Context {T : Type}.
  Definition names (m : keras T) : list string := map w_name (concat m).
  Definition whole (a : arr T) : Prop := length (a_data a) = fold_right Nat.mul 1 (a_shape a).
  (** The same weights, except for their values *)
  Definition same_weight (v w : weight T) : Prop := w_name v = w_name w /\ w_trainable v = w_trainable w /\ a_shape (w_value v) = a_shape (w_value w).
  Definition same_form (m n : keras T) : Prop := Forall2 (Forall2 same_weight) m n.
  (** ... and of the values only those of trainable ones differ *)
  Definition same_fixed (m n : keras T) : Prop := Forall2 (Forall2 (fun v w => same_weight v w /\ (w_trainable v = false -> v = w))) m n.
  (** The values of the trainable weights, in order *)
  Definition trained (m : keras T) : list (arr T) := map w_value (filter w_trainable (concat m)).
  (** A model with other values, by name *)
  Definition with_values (val : string -> arr T) (m : keras T) : keras T := map (map (fun w => mkWeight (w_name w) (w_trainable w) (val (w_name w)))) m.
End Spec.
(** Running the callbacks of several steps, each with its tape *)
Definition callbacks {T} `{Num T} (tapes : list (wrt -> option (arr T))) (nv : nat) (gradients : option (list (arr T))) : option (list (arr T)) :=
  fold_left (fun g tape => fst (tf_backprop tape 1 0 nv g)) tapes gradients.
