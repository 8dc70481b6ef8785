(** Optimizers and their schedules: C70. *)
From Coq Require Import Reals ZArith List QArith Qround.
From Verif Require Import NumR NumQ SchedSpec OptBuildModel OptBuildSpec OptBuildProofs.
Import ListNotations.
Local Open Scope nat_scope.

(** C70. The optimizer keeps its hyperparameters as schedules, asks each of them several times in one call, and shares them between all keys. If each
    argument has a value at every step, the optimizer behaves in every history of calls, steps and scores exactly as the one of C17 to C22 whose
    hyperparameters are those values: same results, same errors, same momenta, counts and averages. *)
Theorem C70_schedules :
  forall (T K : Type) (NT : Num T) (NX : NumX T) (EK : EqD K) lr L2 b1 b2 eps clip flr fL2 fb1 fb2 feps fclip avg radam decay,
    arg_values lr flr -> arg_values L2 fL2 -> arg_values b1 fb1 -> arg_values b2 fb2 -> arg_values eps feps -> arg_values clip fclip ->
    acts_as (Optimizer (K := K) lr L2 b1 b2 eps clip avg radam decay) (of_step flr fb1 fb2 feps fL2 fclip radam decay) avg.
Proof. exact @optimizer_refines. Qed.
Print Assumptions C70_schedules.

(** Schedules without state have a value at every step; so does one that is constant at first. *)
Theorem C70_stateless :
  forall (T : Type) (NT : Num T) (NX : NumX T) (f : nat -> T) s,
    (forall step ls, sched_call s (Z.of_nat step) ls = (s, Ok (f step))) -> arg_values (ASched s) f.
Proof. exact @follows_stateless. Qed.
Print Assumptions C70_stateless.
Theorem C70_constant_then :
  forall (T : Type) (NT : Num T) (NX : NumX T) (f : nat -> T) rate steps s,
    arg_values (ASched s) f -> arg_values (ASched (ConstantThen rate steps s)) (fun n => if Z.ltb (Z.of_nat n) steps then rate else f n).
Proof. exact @then_follows. Qed.
Print Assumptions C70_constant_then.

(** An optimizer is refused with ValueError exactly when an argument is an empty list, an empty generator, or of another type. *)
Theorem C70_arguments :
  forall (T K : Type) (lr L2 b1 b2 eps clip : arg T) avg radam decay,
    match Optimizer (K := K) lr L2 b1 b2 eps clip avg radam decay with
    | Ok _ => ~ bad_arg lr /\ ~ bad_arg L2 /\ ~ bad_arg b1 /\ ~ bad_arg b2 /\ ~ bad_arg eps /\ ~ bad_arg clip
    | Err e => e = ValueError /\ (bad_arg lr \/ bad_arg L2 \/ bad_arg b1 \/ bad_arg b2 \/ bad_arg eps \/ bad_arg clip)
    end.
Proof. exact @optimizer_errors. Qed.
Print Assumptions C70_arguments.

(** [Adam], [RAdam] and [SGD]: which hyperparameters they pass on, and the defaults. *)
Theorem C70_adam :
  forall (T K : Type) (NT : Num T) (NX : NumX T) (EK : EqD K) (k : kwargs T) flr fL2 fb1 fb2 feps fclip,
    kw_values (w_lr k) (nZ 1 / nZ 1000)%num flr -> kw_values (w_L2 k) (nZ 0) fL2 -> kw_values (w_beta1 k) (nZ 9 / nZ 10)%num fb1 ->
    kw_values (w_beta2 k) (nZ 999 / nZ 1000)%num fb2 -> kw_values (w_eps k) (nZ 1 / nZ 100000000)%num feps -> kw_values (w_clip k) (nZ 1) fclip ->
    let decay := match w_decay k with Some b => b | None => true end in
    let avg := match w_averages k with Some b => b | None => true end in
    acts_as (Adam (K := K) k) (of_step flr fb1 fb2 feps fL2 fclip false decay) avg /\
    acts_as (RAdam (K := K) k) (of_step flr fb1 fb2 feps fL2 fclip true decay) avg.
Proof. exact @adam_acts. Qed.
Print Assumptions C70_adam.
Theorem C70_sgd :
  forall (T K : Type) (NT : Num T) (NX : NumX T) (EK : EqD K) (k : kwargs T) lr flr fL2 fclip,
    w_lr k = Some lr -> w_beta1 k = None -> w_beta2 k = None -> w_eps k = None ->
    arg_values lr flr -> kw_values (w_L2 k) (nZ 0) fL2 -> kw_values (w_clip k) (nZ 1) fclip ->
    let decay := match w_decay k with Some b => b | None => true end in
    let avg := match w_averages k with Some b => b | None => true end in
    acts_as (SGD (K := K) k) (of_step flr (fun _ => nZ 0) (fun _ => nZ 0) (fun _ => nZ 1 / nZ 100000000)%num fL2 fclip false decay) avg.
Proof. exact @sgd_acts. Qed.
Print Assumptions C70_sgd.
Theorem C70_sgd_arguments :
  forall (T K : Type) (NT : Num T) (k : kwargs T),
    w_lr k = None \/ w_beta1 k <> None \/ w_beta2 k <> None \/ w_eps k <> None -> SGD (K := K) k = Err TypeError.
Proof. exact @sgd_type_error. Qed.
Print Assumptions C70_sgd_arguments.
(** An SGD optimizer never raises when its gradients have a dimension. *)
Theorem C70_sgd_total :
  forall (K : Type) (EK : EqD K) (k : kwargs R) lr flr fL2 fclip,
    w_lr k = Some lr -> w_beta1 k = None -> w_beta2 k = None -> w_eps k = None ->
    arg_values lr flr -> kw_values (w_L2 k) 0%R fL2 -> kw_values (w_clip k) 1%R fclip ->
    exists z : optimizer R K, SGD k = Ok z /\
      forall adam es, (forall key w g s, In (ECall key w g s) es -> a_shape g <> []) ->
        forall key r, In (key, r) (snd (handle_all adam z es)) -> exists wg, r = Ok wg.
Proof. exact @sgd_total. Qed.
Print Assumptions C70_sgd_total.

#[local] Instance numx_Q : NumX Q :=
  { nrpow := fun a b => Qred (Qpower a (Qfloor b)); nfloor := fun x => inject_Z (Qfloor x) }.
Definition plain : kwargs Q := mkKw (Some (AList [1 # 2; 1 # 4; 1 # 8]%Q)) None None None None (Some (ANum 0%Q)) None None.
Definition row (l : list Q) : arr Q := mkArr [length l] l.
(** The learn rate is a list, shared by the two keys. *)
Example C70_list_ex :
  arg_values (AList [1 # 2; 1 # 4; 1 # 8]%Q) (fun n => nth (Nat.min n 2) [1 # 2; 1 # 4; 1 # 8]%Q 0%Q) /\
  match SGD plain with
  | Ok z => map snd (snd (handle_all base_adam z
              [ECall 1 (row [1; 2]%Q) (row [1; 1]%Q) 1%Q; ECall 2 (row [4]%Q) (row [1]%Q) 1%Q; EStep; ECall 2 (row [4]%Q) (row [1]%Q) 1%Q;
               EStep; EStep; EStep; ECall 1 (row [1; 2]%Q) (row [1; 1]%Q) 1%Q]))
            = [Ok (row [1 # 2; 3 # 2]%Q, row [0; 0]%Q); Ok (row [7 # 2]%Q, row [0]%Q); Ok (row [15 # 4]%Q, row [0]%Q);
               Ok (row [7 # 8; 15 # 8]%Q, row [0; 0]%Q)]
  | Err _ => False
  end.
Proof. split; [split; [discriminate|]; intros [|[|[|n]]]; cbn; reflexivity|]. vm_compute. reflexivity. Qed.
Example C70_arguments_ex :
  Optimizer (K := nat) (ANum 1%Q) (ANum 0%Q) (AList []) (ANum 0%Q) (ANum 1%Q) (ANum 0%Q) true false true = Err ValueError /\
  Adam (K := nat) (mkKw (Some AOther) None None None None None None None : kwargs Q) = Err ValueError /\
  SGD (K := nat) (mkKw (Some (ANum 1%Q)) None (Some (ANum 0%Q)) None None None None None) = Err TypeError.
Proof. repeat split. Qed.

(** C70, finding: a call that raises has counted an update, so trying again gives other results. *)
Definition late : kwargs Q := mkKw (Some (ANum 1%Q)) None (Some (AList [0; 1 # 2]%Q)) (Some (ANum (1 # 2)%Q)) None (Some (ANum 0%Q)) None None.
Theorem C70_failed_call_refuted :
  exists (k : kwargs Q) z z', Adam k = Ok z /\ call base_adam 1 (row [1]%Q) (row [1]%Q) 1%Q z = (z', Err NotImplementedError) /\
    nr_of (z_opt z) 1 = 0 /\ nr_of (z_opt z') 1 = 1.
Proof. exists late. eexists. eexists. split; [reflexivity|]. split; [vm_compute; reflexivity|]. split; reflexivity. Qed.
Print Assumptions C70_failed_call_refuted.
