(** C46: to_categorical makes one-hot or smoothed distributions. *)
From Coq Require Import QArith.
From Coq Require Import Reals Lra Lia.
From Verif Require Import NumQ LossModel LossSpec CatProofs.
Local Open Scope R_scope.

(** Every accepted smoothing, every class count and all labels in range: row by row the distribution for the class. *)
Theorem C46_rows :
  forall Y (n : nat) s, valid_smoothing s (Z.of_nat n) -> Forall (in_classes n) Y ->
    to_categorical Y (Some (Z.of_nat n)) s = Ok (mkM n (map (fun y => one_hot_row s n (class_of n y)) Y)).
Proof. exact cat_ok. Qed.
Print Assumptions C46_rows.
Theorem C46_distribution :
  forall s (n k : nat), valid_smoothing s (Z.of_nat n) -> (k < n)%nat ->
    msum (one_hot_row s n k) = 1 /\ Forall (fun p => 0 <= p <= 1) (one_hot_row s n k) /\
    forall j, (j < n)%nat -> j <> k -> nth j (one_hot_row s n k) 0 < nth k (one_hot_row s n k) 0.
Proof. exact one_hot_dist. Qed.
Print Assumptions C46_distribution.
(** Without a class count it is one more than the largest label *)
Theorem C46_default :
  forall Y s m, In m Y -> (forall y, In y Y -> (0 <= y <= m)%Z) -> valid_smoothing s (m + 1) ->
    to_categorical Y None s = Ok (mkM (Z.to_nat (m + 1)) (map (fun y => one_hot_row s (Z.to_nat (m + 1)) (Z.to_nat y)) Y)).
Proof. exact cat_none_ok. Qed.
Print Assumptions C46_default.
Example C46_hyp : valid_smoothing (1 / 2) 4 /\ valid_smoothing 0 1 /\ ~ valid_smoothing (1 / 2) 2 /\ Forall (in_classes 4) [3; 0; -1]%Z.
Proof.
  split; [|split; [|split]].
  - split; [lia|]. right. split; [|lia]. simpl (IZR (4 - 1)). lra.
  - split; [lia|now left].
  - intros [_ [H|[H _]]]; [lra|]. simpl (IZR (2 - 1)) in H. lra.
  - repeat constructor; lia.
Qed.
Example C46_ex :
  match to_categorical [1; 0]%Z None (1#4)%Q with Ok m => Ok (map (map Qred) (m_rows m)) | Err e => Err e end = Ok [[1#4; 3#4]; [3#4; 1#4]]%Q /\
  match to_categorical [1; -1]%Z (Some 3%Z) (1#4)%Q with Ok m => Ok (map (map Qred) (m_rows m)) | Err e => Err e end = Ok [[1#8; 3#4; 1#8]; [1#8; 1#8; 3#4]]%Q.
Proof. split; vm_compute; reflexivity. Qed.

(** Errors. Everything else raises ValueError, whatever the labels; labels out of range raise IndexError. *)
Theorem C46_invalid : forall Y n s, ~ valid_smoothing s n -> to_categorical Y (Some n) s = Err ValueError.
Proof. exact cat_invalid. Qed.
Print Assumptions C46_invalid.
Theorem C46_label_range :
  forall Y (n : nat) s, valid_smoothing s (Z.of_nat n) -> ~ Forall (in_classes n) Y -> to_categorical Y (Some (Z.of_nat n)) s = Err IndexError.
Proof. exact cat_index. Qed.
Print Assumptions C46_label_range.
Theorem C46_no_classes : forall s : R, to_categorical [] None s = Err ValueError.
Proof. exact (fun s => cat_none [] s). Qed.
Print Assumptions C46_no_classes.
Example C46_errors_ex :
  to_categorical [0]%Z (Some 2%Z) (1#2)%Q = Err ValueError /\ to_categorical [0]%Z (Some 1%Z) (1#2)%Q = Err ValueError /\
  to_categorical [0]%Z (Some 2%Z) (-1#2)%Q = Err ValueError /\ to_categorical [0]%Z (Some (-3)%Z) 0%Q = Err ValueError /\
  to_categorical [3]%Z (Some 3%Z) 0%Q = Err IndexError.
Proof. repeat split. Qed.
