(** Gradient accumulation: C05. *)
From Coq Require Import String.
From Verif Require Import NodeModel GradModel GradSpec GradProofs.
Open Scope string_scope.

(** C05. Over any history of the caller creating and overwriting arrays, [inc_grad] and [set_grad]
    (where an array handed to [set_grad] is not used again), every call has the result of the
    value-level specification, [get_grad] is the elementwise sum of the last set value and the
    increments since, with their values at the time of the call, and KeyError if there were none. *)
Theorem C05_gradients_accumulate :
  forall (E : Type) (add : E -> E -> E) (ops : list (grad_op E)), handed_over ops ->
    snd (grad_run add grad_init ops) = snd (spec_run spec_init ops) /\
    (forall name, read_grad (fst (grad_run add grad_init ops)) name =
       match total add (contributions (fst (spec_run spec_init ops)) name) with
       | Some v => Ok v | None => Err KeyError end) /\
    (forall u, never_set ops u ->
       read_user (fst (grad_run add grad_init ops)) u = nth_error (sp_user (fst (spec_run spec_init ops))) u).
Proof. exact (fun E => @grad_refines E). Qed.
Print Assumptions C05_gradients_accumulate.

(** C05. The caller's arrays (other than those given to [set_grad]) hold exactly what the caller
    wrote: no increment ever modifies them. *)
Theorem C05_increments_not_modified :
  forall (E : Type) (add : E -> E -> E) (ops : list (grad_op E)) (u : nat),
    handed_over ops -> never_set ops u ->
    read_user (fst (grad_run add grad_init ops)) u =
    nth_error (fold_left (fun us o => match o with UNew v => (us ++ [v])%list | UWrite x v => set_nth x v us | _ => us end)
                 ops []) u.
Proof. exact (fun E => @grad_user_own E). Qed.
Print Assumptions C05_increments_not_modified.

Definition ex_ops : list (grad_op nat) :=
  [UNew [1; 2]; UNew [10; 20]; GInc "W" 0; GInc "W" 1; UWrite 0 [5; 5]; GInc "b" 0; GInc "W" 0;
   UNew [7]; GInc "W" 2; GSet "b" 2; GInc "W" 1].
Example C05_ex :
  handed_over ex_ops /\ never_set ex_ops 0 /\
  read_grad (fst (grad_run Nat.add grad_init ex_ops)) "W" = Ok [26; 47] /\
  read_grad (fst (grad_run Nat.add grad_init ex_ops)) "b" = Ok [7] /\
  read_user (fst (grad_run Nat.add grad_init ex_ops)) 0 = Some [5; 5] /\
  nth_error (snd (grad_run Nat.add grad_init ex_ops)) 8 = Some (Err ValueError).
Proof.
  split; [|split].
  - cbn. repeat split. intros o' [<-|[]]. discriminate.
  - intros nm. cbn. intuition congruence.
  - vm_compute. repeat split; reflexivity.
Qed.

(** C05, the discipline is needed: [set_grad] stores the caller's array object, so a later
    increment changes it. *)
Theorem C05_set_grad_aliases_refuted :
  exists (ops : list (grad_op nat)) u v,
    In (UNew v) ops /\ (forall w, ~ In (UWrite u w) ops) /\ u = 0 /\ hd_error ops = Some (UNew v) /\
    read_user (fst (grad_run Nat.add grad_init ops)) u <> Some v.
Proof. exact set_grad_alias_witness. Qed.
Print Assumptions C05_set_grad_aliases_refuted.
