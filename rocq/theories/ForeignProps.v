(** C66: TensorFlow and MXNet models as layers. *)
From Coq Require Import String Reals Lra Lia QArith Qreduction.
From Verif Require Import ForeignModel ForeignSpec ForeignProofs NumQ.
Local Open Scope string_scope.
Local Open Scope nat_scope.

(** Updating a TensorFlow model: one call of the optimizer with all trainable variables and all gradients, flat and in order; every
    variable gets its part of the result in its own shape, others and the form of the model do not change, and the gradients are
    forgotten. *)
Theorem C66_tf_finish_update : forall T S (optimizer : list T -> list T -> S -> S * result (list T * list T)) (m : keras T) gs s s' flat extra, (forall w, In w (concat m) -> whole (w_value w)) -> length gs = length (trained m) -> trained m <> [] ->
  optimizer (concat (map a_data (trained m))) (concat (map a_data gs)) s = (s', Ok (flat, extra)) -> length flat = length (concat (map a_data (trained m))) ->
  exists m', tf_finish_update optimizer m (Some gs) s = (s', Ok (m', None)) /\ same_fixed m m' /\ concat (map a_data (trained m')) = flat.
Proof. exact @tf_finish_ok. Qed.
Print Assumptions C66_tf_finish_update.
(** Without gradients, with another number of them, and without variables it raises and does not call the optimizer. *)
Theorem C66_tf_finish_update_errors : forall T S (optimizer : list T -> list T -> S -> S * result (list T * list T)) (m : keras T) s,
  tf_finish_update optimizer m None s = (s, Err ValueError) /\
  (forall gs, length gs <> length (trained m) -> tf_finish_update optimizer m (Some gs) s = (s, Err AssertionError)) /\
  (trained m = [] -> tf_finish_update optimizer m (Some []) s = (s, Err IndexError)).
Proof. exact @tf_finish_errors. Qed.
Print Assumptions C66_tf_finish_update_errors.

(** The callbacks of several steps with one argument add up the gradients of every trainable variable; each gives back the
    gradient of its argument. *)
Theorem C66_tf_accumulate : forall (tapes : list (wrt -> option (arr R))) nv (shape : nat -> list nat) (size : nat -> nat) (g : nat -> nat -> list R), tapes <> [] ->
  (forall k tape, nth_error tapes k = Some tape -> forall i, (i < nv)%nat -> tape (WVar i) = Some (mkArr (shape i) (g k i)) /\ length (g k i) = size i) ->
  exists total, callbacks tapes nv None = Some (map (fun i => mkArr (shape i) (total i)) (seq 0 nv)) /\
    forall i j, (i < nv)%nat -> length (total i) = size i /\ nth j (total i) 0%R = fold_right Rplus 0%R (map (fun k => nth j (g k i) 0%R) (seq 0 (length tapes))).
Proof. exact callbacks_sum. Qed.
Print Assumptions C66_tf_accumulate.
Theorem C66_tf_backprop : forall (tape : wrt -> option (arr R)) rows nv (shape : nat -> list nat) (g : nat -> list R) acc, (forall i, (i < nv)%nat -> tape (WVar i) = Some (mkArr (shape i) (g i))) ->
  tf_backprop tape 1 rows nv None = (Some (map (fun i => mkArr (shape i) (g i)) (seq 0 nv)), Ok [tape (WArg 0)]) /\
  tf_backprop tape 1 rows nv (Some (map (fun i => mkArr (shape i) (acc i)) (seq 0 nv))) = (Some (map (fun i => mkArr (shape i) (vmap2 Rplus (acc i) (g i))) (seq 0 nv)), Ok [tape (WArg 0)]).
Proof. exact backprop_one. Qed.
Print Assumptions C66_tf_backprop.
(** Finding: for several arguments the callback takes the rows of the first for the arguments: it gives back gradients of rows, and
    keeps gradients of rows along with those of the variables, so that the update raises. *)
Theorem C66_tf_arguments_refuted : forall (tape : wrt -> option (arr R)) n rows nv gs dX, (2 <= n)%nat -> (n <= rows)%nat -> tf_backprop tape n rows nv None = (Some gs, Ok dX) ->
  dX = map (fun i => tape (WRow i)) (seq 0 n) /\ length gs = (rows - 1 + nv)%nat.
Proof. exact backprop_many. Qed.
Print Assumptions C66_tf_arguments_refuted.
Theorem C66_tf_arguments_finish_refuted : forall (tape : wrt -> option (arr R)) (S : Type) (optimizer : list R -> list R -> S -> S * result (list R * list R)) n rows (m : keras R) gs dX s, (2 <= n)%nat -> (n <= rows)%nat -> tf_backprop tape n rows (length (trained m)) None = (Some gs, Ok dX) ->
  tf_finish_update optimizer m (Some gs) s = (s, Err AssertionError).
Proof. exact many_finish. Qed.
Print Assumptions C66_tf_arguments_finish_refuted.
(** Finding: without positional arguments (the input was a dict) the callback raises. *)
Theorem C66_tf_keywords_refuted : forall (tape : wrt -> option (arr R)) rows nv gs, tf_backprop tape 0 rows nv gs = (gs, Err IndexError).
Proof. exact @backprop_none. Qed.
Print Assumptions C66_tf_keywords_refuted.

(** [use_params] of a TensorFlow model, when weights have distinct names and all of them are given: the block sees the given values;
    after it the model is as before. *)
Theorem C66_tf_use_params : forall T X prefix params (body : keras T -> keras T * result X) m (val : string -> arr T) n x,
  NoDup (names m) -> own_params prefix params <> [] -> (forall w, In w (concat m) -> lookup_name (rev (own_params prefix params)) (w_name w) = Ok (val (w_name w)) /\ a_shape (val (w_name w)) = a_shape (w_value w)) ->
  body (with_values val m) = (n, Ok x) -> same_form m n -> use_params prefix params body m = (m, Ok x).
Proof. exact @use_params_ok. Qed.
Print Assumptions C66_tf_use_params.
(** Finding: when the block raises, the model keeps the values of the block. *)
Theorem C66_tf_use_params_raise_refuted : forall T X prefix params (body : keras T -> keras T * result X) m (val : string -> arr T) n e,
  own_params prefix params <> [] -> (forall w, In w (concat m) -> lookup_name (rev (own_params prefix params)) (w_name w) = Ok (val (w_name w)) /\ a_shape (val (w_name w)) = a_shape (w_value w)) ->
  body (with_values val m) = (n, Err e) -> use_params prefix params body m = (n, Err e).
Proof. exact @use_params_raise. Qed.
Print Assumptions C66_tf_use_params_raise_refuted.
(** Finding: the averages of an optimizer have pairs as keys, and are ignored. *)
Theorem C66_tf_averages_refuted : forall T X prefix params (body : keras T -> keras T * result X) m, (forall k a, In (k, a) params -> exists i s, k = KPair i s) -> use_params prefix params body m = body m.
Proof. exact @use_params_pairs. Qed.
Print Assumptions C66_tf_averages_refuted.

(** Finding: moving a model to a device, and copying it, make a model from the configuration and load into it its own new weights:
    the values of the model are lost. Copying also takes the model from the original, which then cannot be called. *)
Theorem C66_tf_clone_refuted : forall T (from_json : keras T -> keras T) m, NoDup (names (from_json m)) -> tf_clone from_json m = (from_json m, Ok tt).
Proof. exact @clone_fresh. Qed.
Print Assumptions C66_tf_clone_refuted.
Theorem C66_tf_copy_refuted : forall T (from_json : keras T -> keras T) m g, NoDup (names (from_json m)) ->
  tf_copy from_json (mkTf (Some m) g) = (mkTf None g, Ok (mkTf (Some (from_json m)) g)) /\
  forall X (f : keras T -> result X), tf_call (fst (tf_copy from_json (mkTf (Some m) g))) f = Err TypeError.
Proof. exact @copy_fresh. Qed.
Print Assumptions C66_tf_copy_refuted.

(** Loading the weights of a model into one of the same form gives it back; finding: without a model, loading raises. *)
Theorem C66_tf_from_weights : forall T (m n : keras T) g, same_form m n -> tf_from_weights (mkTf (Some n) g) (map w_value (concat m)) = (mkTf (Some m) g, Ok tt).
Proof. exact @from_weights_ok. Qed.
Print Assumptions C66_tf_from_weights.
(** A weight of another shape is an error. *)
Theorem C66_tf_load_shape : forall T (d : list (string * arr T)) (m : keras T) l w a, lookup_name d (w_name w) = Ok a -> a_shape a <> a_shape (w_value w) ->
  load_weights d (([w] :: l) ++ m)%list = ([w] :: l ++ m, Err ValueError)%list.
Proof. exact load_shape. Qed.
Print Assumptions C66_tf_load_shape.
Theorem C66_tf_from_weights_refuted : forall T g (ws : list (arr T)), tf_from_weights (mkTf None g) ws = (mkTf None g, Err AttributeError).
Proof. exact @from_weights_none. Qed.
Print Assumptions C66_tf_from_weights_refuted.
(** Finding: the callback of a prediction raises NameError. *)
Theorem C66_tf_predict_refuted : forall X Y D (begin_update : X -> result (Y * (D -> result X))) predict x y, predict x = Ok y ->
  exists bp, tf_forward begin_update predict false x = Ok (y, bp) /\ forall d, bp d = Err NameError.
Proof. exact @predict_callback. Qed.
Print Assumptions C66_tf_predict_refuted.

(** Updating an MXNet model: the same, with gradients set to zero; without parameters nothing happens. *)
Theorem C66_mx_finish_update : forall T (H : Num T) S (optimizer : list T -> list T -> S -> S * result (list T * list T)) (params : list (weight T * arr T)) s s' flat extra, (forall w g, In (w, g) params -> whole (w_value w)) -> params <> [] ->
  optimizer (concat (map (fun p => a_data (w_value (fst p))) params)) (concat (map (fun p => a_data (snd p)) params)) s = (s', Ok (flat, extra)) -> length flat = length (concat (map (fun p => a_data (w_value (fst p))) params)) ->
  exists params', mx_finish_update optimizer params s = (s', Ok params') /\
    Forall2 (fun p q => same_weight (fst p) (fst q) /\ a_shape (snd q) = a_shape (snd p) /\ a_data (snd q) = repeat (nZ 0) (length (a_data (snd p)))) params params' /\
    concat (map (fun p => a_data (w_value (fst p))) params') = flat.
Proof. exact @mx_finish_ok. Qed.
Print Assumptions C66_mx_finish_update.
(** Predicting with MXNet runs the block in evaluation mode without recording, and leaves the framework in training mode, or in
    evaluation mode when the block raises. A training step records until its callback runs. *)
Theorem C66_mx_modes : forall Y D X (block : mx_flags -> result Y) (backward : D -> result X) f,
  mx_predict block f = (mkMx (match block (mkMx false false) with Ok _ => true | Err _ => false end) (m_recording f), block (mkMx false false)) /\
  (forall y, block (mkMx true true) = Ok y -> exists bp, mx_begin_update block backward f = (mkMx true true, Ok (y, bp)) /\ forall d f', bp d f' = (mkMx (m_training f') false, backward d)) /\
  (forall e, block (mkMx true true) = Err e -> mx_begin_update block backward f = (mkMx true true, Err e)).
Proof. exact @mx_modes. Qed.
Print Assumptions C66_mx_modes.
(** Finding: moving an MXNet model to a device puts a shim where the block should be; the next update, or the next move, raises. *)
Theorem C66_mx_to_device_refuted : forall B (copy_block : B -> B) b, exists m, mx_to_device copy_block "cpu" (Block b) = (m, Ok tt) /\ mx_block m = Err AttributeError /\ mx_to_device copy_block "gpu" m = (m, Err AttributeError).
Proof. exact @mx_moved. Qed.
Print Assumptions C66_mx_to_device_refuted.

(** ** Examples *)
Definition wt (n : string) (tr : bool) (sh : list nat) (d : list Z) : weight Q := mkWeight n tr (mkArr sh (map inject_Z d)).
Definition ex_m : keras Q := [[wt "w" true [2; 2] [1; 2; 3; 4]%Z; wt "c" false [1] [9]%Z]; [wt "b" true [2] [5; 6]%Z]].
Definition ex_opt (w g : list Q) (s : nat) : nat * result (list Q * list Q) := (S s, Ok (vmap2 nsub w g, g)).
Example C66_tf_finish_update_ex : (forall w, In w (concat ex_m) -> whole (w_value w)) /\ NoDup (names ex_m) /\
  tf_finish_update ex_opt ex_m (Some [mkArr [2; 2] (map inject_Z [1; 1; 1; 1]%Z); mkArr [2] (map inject_Z [5; 5]%Z)]) 0 = (1, Ok ([[wt "w" true [2; 2] [0; 1; 2; 3]%Z; wt "c" false [1] [9]%Z]; [wt "b" true [2] [0; 1]%Z]], None)).
Proof.
  split; [intros w [<- | [<- | [<- | []]]]; reflexivity|]. split; [repeat constructor; cbn; intuition discriminate | vm_compute; reflexivity].
Qed.
Definition ex_tape (k : Z) (w : wrt) : option (arr R) := match w with WVar 0 => Some (mkArr [2] [IZR k; 1%R]) | WArg 0 => Some (mkArr [1] [IZR k]) | _ => None end.
Example C66_tf_accumulate_ex : exists total, callbacks [ex_tape 3; ex_tape 4] 1 None = Some (map (fun i => mkArr [2] (total i)) (seq 0 1)) /\ nth 0 (total 0) 0%R = 7%R.
Proof.
  destruct (C66_tf_accumulate [ex_tape 3; ex_tape 4] 1 (fun _ => [2]) (fun _ => 2) (fun k _ => [IZR (Z.of_nat (3 + k)); 1%R])) as [total [E1 E2]]; [discriminate | |].
  - intros [|[|[|k]]] tape E; try discriminate; injection E as <-; intros [|i] Hi; try lia; split; reflexivity.
  - exists total. split; [exact E1|]. destruct (E2 0 0 ltac:(lia)) as [_ ->]. cbn. lra.
Qed.
Definition ex_params : list (pkey * arr Q) := [(KStr "tensorflow_7_w", mkArr [2; 2] (map inject_Z [0; 0; 0; 0]%Z)); (KPair 7 "tensorflow-shim", mkArr [1] []); (KStr "tensorflow_7_b", mkArr [2] (map inject_Z [0; 0]%Z)); (KStr "tensorflow_7_c", mkArr [1] (map inject_Z [0]%Z))].
Example C66_tf_use_params_ex : use_params "tensorflow_7_" ex_params (fun m => (m, Ok (map (fun w => a_data (w_value w)) (concat m)))) ex_m = (ex_m, Ok [map inject_Z [0; 0; 0; 0]%Z; map inject_Z [0]%Z; map inject_Z [0; 0]%Z]) /\
  (exists m', use_params "tensorflow_7_" (firstn 1 ex_params) (fun m => (m, Ok tt)) ex_m = (m', Err KeyError)).
Proof. split; [vm_compute; reflexivity|]. eexists. vm_compute. reflexivity. Qed.
(** Finding: with two weights of the same name, [use_params] does not restore the first: it gets the value of the second. *)
Theorem C66_tf_names_refuted : exists m m' : keras Q, m = [[wt "w" true [1] [1]%Z]; [wt "w" true [1] [2]%Z]] /\ use_params "t_" [(KStr "t_w", mkArr [1] (map inject_Z [0]%Z))] (fun m => (m, Ok tt)) m = (m', Ok tt) /\ m' = [[wt "w" true [1] [2]%Z]; [wt "w" true [1] [2]%Z]].
Proof. do 2 eexists. split; [reflexivity|]. split; [vm_compute; reflexivity | reflexivity]. Qed.
Print Assumptions C66_tf_names_refuted.
Example C66_tf_copy_ex : let fresh := map (map (fun w : weight Q => mkWeight (w_name w) (w_trainable w) (mkArr (a_shape (w_value w)) (map (fun _ => inject_Z 0) (a_data (w_value w)))))) in
  exists c, snd (tf_copy fresh (mkTf (Some ex_m) None)) = Ok (mkTf (Some c) None) /\ c <> ex_m.
Proof. eexists. split; [vm_compute; reflexivity | discriminate]. Qed.
Example C66_mx_finish_update_ex : mx_finish_update ex_opt [(wt "w" true [2] [1; 2]%Z, mkArr [2] (map inject_Z [1; 1]%Z)); (wt "b" true [1] [3]%Z, mkArr [1] (map inject_Z [3]%Z))] 0 =
  (1, Ok [(wt "w" true [2] [0; 1]%Z, mkArr [2] (map inject_Z [0; 0]%Z)); (wt "b" true [1] [0]%Z, mkArr [1] (map inject_Z [0]%Z))]).
Proof. vm_compute. reflexivity. Qed.
Example C66_tf_arguments_ex : exists gs dX, tf_backprop (fun w => Some (mkArr [1] [match w with WRow i => INR i | WArg _ => 10%R | WVar _ => 20%R end])) 2 3 1 None = (Some gs, Ok dX) /\ dX = [Some (mkArr [1] [INR 0]); Some (mkArr [1] [INR 1])].
Proof. do 2 eexists. split; reflexivity. Qed.
