(** Vocabulary of the theorems about optimizer keys. *)
From Coq Require Import String.
From Coq Require Import QArith.
From Verif Require Export IdModel OptSpec.
From Verif Require Import NumQ.
Local Open Scope nat_scope.

Notation key := (Z * string)%type.

(** A history of training steps in which every call of the optimizer is tagged with the position of the owner that makes it *)
Definition tagged (T : Type) : Type := list (nat * event T key).
(** The owner at position i calls the optimizer with its own keys only. *)
Definition honest {T} (os : list owner) (p : nat * event T key) : Prop :=
  match snd p with
  | ECall k _ _ _ => exists o, nth_error os (fst p) = Some o /\ In k (keys_of o)
  | _ => True
  end.
(** What remains of the history when only the owner at position i is trained *)
Definition mine {T} (i : nat) (p : nat * event T key) : bool :=
  match snd p with ECall _ _ _ _ => fst p =? i | _ => true end.
Definition alone {T} (i : nat) (es : tagged T) : tagged T := filter (mine i) es.

(** No other owner has the key. *)
Definition private (os : list owner) (i : nat) (k : key) : Prop :=
  forall j o, nth_error os j = Some o -> In k (keys_of o) -> j = i.

Definition is_copy (o : id_op) : bool := match o with CopyShim _ => true | _ => false end.

(** Examples *)
Definition kconst {T} (x : T) : @sched T key := fun _ _ _ => x.
Definition sgd_hyper : hyper Q key :=
  mkHyper (kconst (1 # 10)%Q) (kconst 0%Q) (kconst 0%Q) (kconst (1 # 100)%Q) (kconst 0%Q) (kconst 0%Q) false false.
Definition one_array (x : Q) : arr Q := mkArr [1] [x].
(** A node and a PyTorch module with a parameter W, and a copy of the module; the node is trained twice, the module once between *)
Definition two_owners : list id_op := [NewNode ["W"%string; "b"%string]; NewShim ["W"%string]; CopyShim 1].
Definition two_steps : tagged Q :=
  [(0, ECall (1%Z, "W"%string) (one_array 1) (one_array 1) 1%Q);
   (1, ECall (1%Z, "W"%string) (one_array 50) (one_array 1) 1%Q);
   (0, ECall (1%Z, "b"%string) (one_array 3) (one_array 1) 1%Q)].
(** The same module, trained in the original and in its copy *)
Definition copy_steps : tagged Q :=
  [(1, ECall (1%Z, "W"%string) (one_array 1) (one_array 1) 1%Q);
   (2, ECall (1%Z, "W"%string) (one_array 50) (one_array 1) 1%Q)].
