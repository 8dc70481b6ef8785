(** C52: bidirectional. Two findings: the right-to-left layer reads the sequence from left to right, and both
    layers get the first half of the gradient. *)
From Coq Require Import QArith.
From Verif Require Import NumQ NumR BidiSpec BidiProofs.
Local Open Scope nat_scope.

(** The output is the left-to-right output next to what the right-to-left layer gives on the sequence itself. *)
Theorem C52_forward_unreversed :
  forall (T : Type) (N : Num T) (l r : layer T) tr theta X Y1 b1 Y2 b2, is_pad X -> l tr theta X = Ok (Y1, b1) -> r tr theta X = Ok (Y2, b2) ->
    same_steps Y1 Y2 -> exists Z b, bidirectional l r tr theta X = Ok (Z, b) /\ side_by_side Y1 Y2 Z.
Proof. exact @forward_unreversed. Qed.
Print Assumptions C52_forward_unreversed.
Definition exX : value Q := Pad 1 [[[1]; [2]]; [[3]; [4]]]%Q [2; 2] [2; 2] [0; 1].
Example C52_forward_ex : is_pad exX /\
  exists b, bidirectional noop noop true [] exX = Ok (Pad 2 [[[1; 1]; [2; 2]]; [[3; 3]; [4; 4]]]%Q [2; 2] [2; 2] [0; 1], b) /\
    backwards exX = Pad 1 [[[3]; [4]]; [[1]; [2]]]%Q [2; 2] [2; 2] [0; 1].
Proof. split; [exact I|]. eexists. split; reflexivity. Qed.
(** Hence the output is not the one for the reversed sequence. *)
Theorem C52_reversed_input_refuted :
  exists (X Z : value Q) b, bidirectional noop noop true [] X = Ok (Z, b) /\ ~ side_by_side X (backwards X) Z.
Proof. exact bidi_not_reversed. Qed.
Print Assumptions C52_reversed_input_refuted.

(** Both callbacks are given the first half of the columns of the gradient. *)
Theorem C52_backward_first_half :
  forall (T : Type) (N : Num T) (l r : layer T) tr theta X Z b, bidirectional l r tr theta X = Ok (Z, b) ->
    exists Y1 b1 Y2 b2, l tr theta X = Ok (Y1, b1) /\ r tr theta X = Ok (Y2, b2) /\
    forall dZ g x1 g1 x2 g2 dX, is_pad dZ -> b1 (first_columns (Nat.div (width_of dZ) 2) dZ) g = Ok (x1, g1) ->
      b2 (first_columns (Nat.div (width_of dZ) 2) dZ) g1 = Ok (x2, g2) -> sum_padded x1 x2 = Ok dX -> b dZ g = Ok (dX, g2).
Proof. exact @backward_first_half. Qed.
Print Assumptions C52_backward_first_half.
(** Two gradients that differ only in the half of the right-to-left layer give the same result. *)
Theorem C52_second_half_ignored :
  forall (T : Type) (N : Num T) (l r : layer T) tr theta X Z b, bidirectional l r tr theta X = Ok (Z, b) ->
    forall dZ dZ' g, is_pad dZ -> is_pad dZ' -> width_of dZ' = width_of dZ ->
      first_columns (Nat.div (width_of dZ) 2) dZ' = first_columns (Nat.div (width_of dZ) 2) dZ -> b dZ' g = b dZ g.
Proof. exact @backward_ignores. Qed.
Print Assumptions C52_second_half_ignored.
Example C52_backward_ex :
  exists Z b, bidirectional noop noop true [] exX = Ok (Z, b) /\
    b (Pad 2 [[[10; 1]; [20; 2]]; [[30; 3]; [40; 4]]]%Q [2; 2] [2; 2] [0; 1]) [] = Ok (Pad 1 [[[20]; [40]]; [[60]; [80]]]%Q [2; 2] [2; 2] [0; 1], []).
Proof. eexists _, _. split; reflexivity. Qed.
(** So the callback is not the derivative of what the forward pass computes, even for layers that do nothing. *)
Theorem C52_gradient_refuted :
  ~ differentiates (bidirectional noop noop) true [] (one_step 0%R) (Pad 2 [[[0%R; 0%R]]] [1] [1] [0]).
Proof. exact bidi_noop_wrong. Qed.
Print Assumptions C52_gradient_refuted.

(** Errors: everything must be Padded. *)
Theorem C52_errors :
  forall (T : Type) (N : Num T) (l r : layer T) tr theta X,
    (~ is_pad X -> bidirectional l r tr theta X = Err AttributeError) /\
    forall Z b, bidirectional l r tr theta X = Ok (Z, b) ->
      (forall dZ g, ~ is_pad dZ -> b dZ g = Err AttributeError) /\
      exists Y1 b1 Y2 b2, l tr theta X = Ok (Y1, b1) /\ r tr theta X = Ok (Y2, b2) /\
      forall dZ g x1 g1 x2 g2, is_pad dZ -> b1 (first_columns (Nat.div (width_of dZ) 2) dZ) g = Ok (x1, g1) ->
        b2 (first_columns (Nat.div (width_of dZ) 2) dZ) g1 = Ok (x2, g2) -> ~ is_pad x1 \/ ~ is_pad x2 -> b dZ g = Err AttributeError.
Proof. exact @bidi_errors. Qed.
Print Assumptions C52_errors.
Example C52_errors_ex : bidirectional noop noop true [] (Arr1 [1%Q]) = Err AttributeError /\
  (let* r := bidirectional noop (fun _ _ X => Ok (X, fun _ g => Ok (Sc 1%Q, g))) true [] exX in snd r exX []) = Err AttributeError.
Proof. split; reflexivity. Qed.
