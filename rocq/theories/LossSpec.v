(** Vocabulary of the theorems about to_categorical and the losses. *)
From Coq Require Import String Reals.
From Verif Require Export SoftSpec LossModel.
Local Open Scope R_scope.

(** The probability of class [j] in the smoothed distribution for class [k] out of [n]. *)
Definition smoothed (s : R) (n k j : nat) : R := if Nat.eqb j k then 1 - s else s / (INR n - 1).
Definition one_hot_row (s : R) (n k : nat) : list R := map (smoothed s n k) (seq 0 n).
(** The smoothing parameters to_categorical accepts for [n] classes. *)
Definition valid_smoothing (s : R) (n : Z) : Prop := (1 <= n)%Z /\ (s = 0 \/ (0 < s < IZR (n - 1) / IZR n /\ (1 < n)%Z)).
(** The class a label stands for: negative labels count from the end, as in numpy. *)
Definition class_of (n : nat) (y : Z) : nat := Z.to_nat (if (y <? 0)%Z then y + Z.of_nat n else y).
Definition in_classes (n : nat) (y : Z) : Prop := (- Z.of_nat n <= y < Z.of_nat n)%Z.

(** ** The losses *)

(** What an annotation says about its row: nothing, that the class is [k], or that it is not [k]. *)
Inductive note := Absent | Is (k : nat) | IsNot (k : nat).
Local Open Scope string_scope.
Inductive annotates (c : cc_t R) (ns : list string) : option string -> note -> Prop :=
| annotates_none : missing_value c = NoMissing -> annotates c ns None Absent
| annotates_missing s : missing_value c = MissingStr s -> annotates c ns (Some s) Absent
| annotates_not p name k : neg_prefix c = Some p -> p <> "" -> missing_value c <> MissingStr (p ++ name) ->
    nth_error ns k = Some name -> annotates c ns (Some (p ++ name)) (IsNot k)
| annotates_is s k : missing_value c <> MissingStr s ->
    (forall p, neg_prefix c = Some p -> p <> "" -> s <> "" -> String.prefix p s = false) ->
    nth_error ns k = Some s -> annotates c ns (Some s) (Is k).
Local Close Scope string_scope.
Definition label_note (m : missing_t) (n : nat) (y : Z) : note := if is_missing_int m y then Absent else Is (class_of n y).
(** The gradient for one row of guesses: the difference to the smoothed distribution; for a negated class the guess itself, at
    that class only. *)
Definition note_grad (s : R) (n : nat) (a : note) (g : list R) : list R :=
  map (fun j => match a with
                | Absent => 0
                | Is k => nth j g 0 - smoothed s n k j
                | IsNot k => if Nat.eqb j k then nth j g 0 else 0
                end) (seq 0 n).
(** The factor of the normalization for [r] rows. *)
Definition normed (normalize : bool) (r : nat) (x : R) : R := if normalize then x / INR r else x.
(** The gradient for rows of guesses. *)
Definition grad_of (normalize : bool) (s : R) (n : nat) (notes : list note) (guesses : mat R) : mat R :=
  mkM n (map (fun p => map (normed normalize (length (m_rows guesses))) (note_grad s n (fst p) (snd p))) (combine notes (m_rows guesses))).
Definition probabilities (m : mat R) : Prop := Forall (Forall (fun x => 0 <= x <= 1)) (m_rows m).
(** The names leave all rows alone: there are none, or one per class. *)
Definition plain_names (names : option (list string)) (n : nat) : Prop := match names with None | Some [] => True | Some ns => length ns = n end.
(** The targets of integer labels, and the weights of their rows. *)
Definition label_target (s : R) (n : nat) (l : list Z) : mat R := mkM n (map (fun y => one_hot_row s n (class_of n y)) l).
Definition label_weights (normalize : bool) (m : missing_t) (l : list Z) : list R :=
  map (fun y => if is_missing_int m y then 0 else normed normalize (length l) 1) l.
(** [grad] is the derivative of [loss] at the guesses [G], times [factor]: along every smooth curve of guesses. *)
Definition loss_gradient (loss : mat R -> result R) (factor : R) (G grad : mat R) : Prop :=
  forall (K : value jet) (Ls : R -> R), vmap (at_time 0) K = Arr2 G -> Forall smooth (leaves K) ->
    (forall s, exists m, vmap (at_time s) K = Arr2 m /\ loss m = Ok (Ls s)) ->
    derivable_pt_lim Ls 0 (factor * inner (Arr2 grad) (vmap velocity K)).
Definition sum_sq (m : mat R) : R := msum (map (fun x => x * x) (concat (m_rows m))).
(** A row of a 2d target counts as missing if its largest element is at the missing class. *)
Definition float_missing (m : missing_t) (t : list R) : bool := match m with MissingInt z => (Z.of_nat (argmax t) =? z)%Z | _ => false end.
