(** C57: a training step with a small enough learning rate lowers the loss. *)
From Coq Require Import QArith Reals Lra Lia.
From Verif Require Import NumQ TrainModel TrainSpec DenseModel SoftModel LossModel DenseProofs TrainProofs.
Local Open Scope list_scope.
Local Open Scope R_scope.

(** Gradient descent (clipped or not) in any state of the optimizer, and the first step of Adam, on any network whose callbacks are
    right, with any loss whose gradient is right up to a positive factor, unless the gradient of all parameters is zero. *)
Theorem C57_step :
  forall (K : Type) (EK : EqD K) adam (hp : hyper R K) st ps net X theta Y get_grad loss d g x,
    descending adam hp st ps -> layout ps theta -> differentiates net true theta X (Arr2 Y) -> get_grad Y = Ok d -> loss_at loss Y d -> loss Y = Ok x ->
    step_gradient net X get_grad theta g -> ~ Forall (eq 0) g ->
    lowers (fun hp => train_step adam hp st ps net get_grad X theta) hp (network_loss net X loss) x.
Proof. exact @loss_lowers. Qed.
Print Assumptions C57_step.
(** L2Distance *)
Theorem C57_L2 :
  forall (K : Type) (EK : EqD K) adam (hp : hyper R K) st ps net X theta b n Y T g x,
    descending adam hp st ps -> layout ps theta -> differentiates net true theta X (Arr2 Y) ->
    input_of n Y -> input_of n T -> length (m_rows T) = length (m_rows Y) -> m_rows Y <> [] ->
    l2_get_loss b Y T = Ok x -> step_gradient net X (fun Y => l2_get_grad b Y T) theta g -> ~ Forall (eq 0) g ->
    lowers (fun hp => train_step adam hp st ps net (fun Y => l2_get_grad b Y T) X theta) hp (network_loss net X (fun Y => l2_get_loss b Y T)) x.
Proof. exact @l2_lowers. Qed.
Print Assumptions C57_L2.
(** CosineDistance *)
Theorem C57_cosine :
  forall (K : Type) (EK : EqD K) adam (hp : hyper R K) st ps net X theta (b iz : bool) n Y T g x,
    descending adam hp st ps -> layout ps theta -> differentiates net true theta X (Arr2 Y) ->
    input_of n Y -> input_of n T -> length (m_rows T) = length (m_rows Y) ->
    Forall (Exists (fun x => x <> - (1 / 100000000))) (m_rows Y) ->
    Forall (fun t => (iz = true /\ Forall (fun x => x = 0) t) \/ Exists (fun x => x <> - (1 / 100000000)) t) (m_rows T) ->
    cosine_get_loss b iz Y T = Ok x -> step_gradient net X (fun Y => cosine_get_grad b iz Y T) theta g -> ~ Forall (eq 0) g ->
    lowers (fun hp => train_step adam hp st ps net (fun Y => cosine_get_grad b iz Y T) X theta) hp (network_loss net X (fun Y => cosine_get_loss b iz Y T)) x.
Proof. exact @cosine_lowers. Qed.
Print Assumptions C57_cosine.
(** CategoricalCrossentropy on the Softmax of any network: the cross-entropy to the (smoothed) labels goes down, although the number
    get_loss returns is another one. *)
Theorem C57_cross_entropy :
  forall (K : Type) (EK : EqD K) adam (hp : hyper R K) st ps theta h nrm t nO nI wo bo c l tr X Xh g x,
    let net := chain [h; Softmax nrm t nO nI wo bo] in
    descending adam hp st ps -> layout ps theta -> tr = ListInts l \/ tr = ArrInts l -> differentiates h true theta X (Arr2 Xh) ->
    0 < t -> nO <> 0%nat -> input_of nI Xh -> room wo (nO * nI) theta -> room bo nO theta ->
    length l = length (m_rows Xh) -> plain_names (names c) nO -> valid_smoothing (label_smoothing c) (Z.of_nat nO) -> Forall (in_classes nO) l ->
    step_gradient net X (fun Y => get_grad c Y tr) theta g -> ~ Forall (eq 0) g -> network_cross_entropy net X c nO l theta x ->
    lowers (fun hp => train_step adam hp st ps net (fun Y => get_grad c Y tr) X theta) hp (network_cross_entropy net X c nO l) x.
Proof. exact @cross_entropy_lowers. Qed.
Print Assumptions C57_cross_entropy.

(** The hypotheses: one Linear layer at zero, input 1, target 1; and the step on it with rational numbers. *)
Definition ex_params : list (nat * list nat) := [(0%nat, [1; 1]%nat); (1%nat, [1]%nat)].
Definition ex_hyper {T} (r b1 b2 e z : T) : hyper T nat := mkHyper (fun _ _ _ => r) (fun _ _ _ => b1) (fun _ _ _ => b2) (fun _ _ _ => e) (fun _ _ _ => z) (fun _ _ _ => z) false false.
Example C57_hyp :
  descending base_adam (ex_hyper 1 0 0 0 0) (opt_init true) ex_params /\ descending numpy_adam (ex_hyper 1 (9/10) (999/1000) (1/100) 0) (opt_init true) ex_params /\
  layout ex_params [0; 0] /\
  differentiates (Linear 1 1 0 1) true [0; 0] (Arr2 (mkM 1 [[1]])) (Arr2 (mkM 1 [[0]])) /\
  exists g, step_gradient (Linear 1 1 0 1) (Arr2 (mkM 1 [[1]])) (fun Y => l2_get_grad false Y (mkM 1 [[1]])) [0; 0] g /\ ~ Forall (eq 0) g.
Proof.
  split; [|split; [|split; [|split]]].
  - left. repeat split; intros; cbn; lra.
  - right. split; [now right|]. split; [repeat split; intros; cbn; lra|]. split; [repeat constructor; cbn; intuition discriminate|repeat constructor].
  - split; [repeat constructor; discriminate|reflexivity].
  - replace (mkM 1 [[0]]) with (by_row 1 (affine_at [0; 0] 0 1 1) (mkM 1 [[1]])) by (unfold by_row, affine_at; cbn; do 3 f_equal; unfold dot; cbn; lra).
    apply linear_diff; [split; [repeat constructor|reflexivity]|unfold room; cbn; lia|unfold room; cbn; lia].
  - eexists. split.
    + unfold step_gradient. do 4 eexists. split; [reflexivity|]. split; [reflexivity|]. reflexivity.
    + intros F. cbn in F. inversion F as [|? ? F1 F2]. lra.
Qed.
Example C57_ex :
  snd (train_step base_adam (ex_hyper (1#4) 0 0 0 0)%Q (opt_init true) ex_params (Linear 1 1 0 1) (fun Y => l2_get_grad false Y (mkM 1 [[1]])) (Arr2 (mkM 1 [[1]])) [0; 0])%Q
    = Ok [1#4; 1#4]%Q /\
  snd (train_step base_adam (ex_hyper (1#4) 0 0 0 0)%Q (opt_init true) ex_params (Linear 1 1 0 1) (fun Y => l2_get_grad false Y (mkM 1 [[1]; [2]])) (Arr2 (mkM 1 [[1]])) [0; 0])%Q
    = Err ValueError.
Proof. split; vm_compute; reflexivity. Qed.
