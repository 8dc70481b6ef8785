(** C47: the losses and their gradients. *)
From Coq Require Import String.
From Coq Require Import QArith.
From Coq Require Import Reals Lra Lia.
From Verif Require Import NumQ CombModel CombSpec DenseModel DenseSpec SoftModel SoftSpec LossModel LossSpec LossProofs CosineProofs.
Local Open Scope list_scope.
Local Open Scope R_scope.

(** ** CategoricalCrossentropy *)

(** Integer labels, as a list or an array, with any smoothing to_categorical accepts: guess minus (smoothed) one-hot vector, zero
    in the rows whose label is the missing value, divided by the number of rows if normalized. *)
Theorem C47_labels :
  forall c l n G tr, tr = ListInts l \/ tr = ArrInts l -> input_of n G -> length l = length (m_rows G) -> probabilities G -> plain_names (names c) n ->
    valid_smoothing (label_smoothing c) (Z.of_nat n) -> Forall (in_classes n) l ->
    get_grad c G tr = Ok (grad_of (normalize c) (label_smoothing c) n (map (label_note (missing_value c) n) l) G).
Proof. exact labels_grad. Qed.
Print Assumptions C47_labels.
(** Lists of strings, with missing values and negated names. *)
Theorem C47_strings :
  forall c ns vs notes n G, names c = Some ns -> ns <> [] -> NoDup ns -> length ns = n -> Forall2 (annotates c ns) vs notes -> length vs = length (m_rows G) ->
    valid_smoothing (label_smoothing c) (Z.of_nat n) -> input_of n G -> probabilities G ->
    label_smoothing c = 0 \/ Forall (fun a => forall k, a <> IsNot k) notes ->
    get_grad c G (ListStrs vs) = Ok (grad_of (normalize c) (label_smoothing c) n notes G).
Proof. exact strings_grad. Qed.
Print Assumptions C47_strings.
(** 2d targets *)
Theorem C47_floats :
  forall c n G T, input_of n G -> input_of n T -> length (m_rows T) = length (m_rows G) -> n <> 0%nat -> probabilities G -> probabilities T ->
    plain_names (names c) n -> label_smoothing c = 0 ->
    get_grad c G (ArrFloats T) = Ok (mkM n (map (fun p => map (fun q => normed (normalize c) (length (m_rows G)) (if float_missing (missing_value c) (snd p) then 0 else fst q - snd q)) (combine (fst p) (snd p))) (combine (m_rows G) (m_rows T)))).
Proof. exact floats_grad. Qed.
Print Assumptions C47_floats.
(** In these a row is missing if the missing value is the class of its first largest element. *)
Theorem C47_float_missing :
  forall z (t : list R), t <> [] -> float_missing (MissingInt z) t = true <->
    exists k, z = Z.of_nat k /\ (k < length t)%nat /\ (forall j, (j < length t)%nat -> nth j t 0 <= nth k t 0) /\ (forall j, (j < k)%nat -> nth j t 0 < nth k t 0).
Proof. exact float_missing_iff. Qed.
Print Assumptions C47_float_missing.
Definition ex_cc : cc_t R := {| normalize := true; names := Some ["a"; "b"]%string; missing_value := MissingStr "?"; neg_prefix := Some "!"%string; label_smoothing := 0 |}.
Example C47_hyp : Forall2 (annotates ex_cc ["a"; "b"]%string) [Some "b"; Some "!a"; Some "?"]%string [Is 1; IsNot 0; Absent] /\
  probabilities (mkM 2 [[1/4; 3/4]; [1; 0]; [0; 1]]) /\ valid_smoothing 0 2 /\ NoDup ["a"; "b"]%string.
Proof.
  repeat split; try lia.
  - constructor; [apply annotates_is; [discriminate| |reflexivity]|constructor; [apply (annotates_not ex_cc _ "!" "a"); try reflexivity; discriminate|constructor; [now apply annotates_missing|constructor]]].
    intros p E _ _. cbn in E. injection E as <-. reflexivity.
  - unfold probabilities. cbn [m_rows]. repeat constructor; lra.
  - now left.
  - repeat constructor; cbn; intuition discriminate.
Qed.
Definition ex_q : cc_t Q := {| normalize := true; names := Some ["a"; "b"]%string; missing_value := MissingStr "?"; neg_prefix := Some "!"%string; label_smoothing := 0%Q |}.
Example C47_ex :
  match get_grad ex_q (mkM 2 [[1#4; 3#4]; [1; 0]; [1#2; 1#2]]%Q) (ListStrs [Some "b"; Some "!a"; Some "?"]%string) with Ok m => Ok (map (map Qred) (m_rows m)) | Err e => Err e end
    = Ok [[1#12; -1#12]; [1#3; 0]; [0; 0]]%Q /\
  match get_grad ex_q (mkM 2 [[1#4; 3#4]; [1; 0]; [1#2; 1#2]]%Q) (ListInts [1; 0; 0]%Z) with Ok m => Ok (map (map Qred) (m_rows m)) | Err e => Err e end
    = Ok [[1#12; -1#12]; [0; 0]; [-1#6; 1#6]]%Q.
Proof. split; vm_compute; reflexivity. Qed.

(** The loss is the sum of the squares of the gradient. *)
Theorem C47_loss_value :
  forall c (G : mat R) tr, get_loss c G tr = match get_grad c G tr with Ok d => Ok (sum_sq d) | Err e => Err e end.
Proof. exact loss_value. Qed.
Print Assumptions C47_loss_value.
(** Composed with the Softmax layer: the callback of the layer, given this gradient, returns the gradient of the (weighted)
    cross-entropy of its outputs to the targets, with respect to its input and all parameters. *)
Theorem C47_softmax :
  forall c l tr nrm t nO nI wo bo is_train theta X, tr = ListInts l \/ tr = ArrInts l ->
    0 < t -> nO <> 0%nat -> (nrm || is_train)%bool = true -> input_of nI X -> room wo (nO * nI) theta -> room bo nO theta ->
    length l = length (m_rows X) -> plain_names (names c) nO -> valid_smoothing (label_smoothing c) (Z.of_nat nO) -> Forall (in_classes nO) l ->
    exists Y b dY, Softmax nrm t nO nI wo bo is_train theta (Arr2 X) = Ok (Arr2 Y, b) /\ get_grad c Y tr = Ok dY /\
    forall g, length g = length theta ->
    exists dX g', b (Arr2 dY) g = Ok (dX, g') /\ CombSpec.like dX (Arr2 X) /\ length g' = length theta /\
    forall (P : list jet) (K : value jet) (Ys : R -> mat R),
      map (at_time 0) P = theta -> vmap (at_time 0) K = Arr2 X -> Forall smooth P -> Forall smooth (leaves K) ->
      (forall s, exists b', Softmax nrm t nO nI wo bo is_train (map (at_time s) P) (vmap (at_time s) K) = Ok (Arr2 (Ys s), b')) ->
      derivable_pt_lim (fun s => weighted_cross_entropy (label_weights (normalize c) (missing_value c) l) (label_target (label_smoothing c) nO l) (Ys s)) 0
        (inner dX (vmap velocity K) + (dot g' (map velocity P) - dot g (map velocity P))).
Proof. exact labels_softmax. Qed.
Print Assumptions C47_softmax.

(** Errors *)
Theorem C47_errors :
  forall c (G : mat R) tr t m, convert_truths c tr G = Ok (t, m) ->
    (length (m_rows G) <> length (m_rows t) \/ m_cols G <> m_cols t) \/ outside G = true \/ outside t = true -> get_grad c G tr = Err ValueError.
Proof. exact cc_errors. Qed.
Print Assumptions C47_errors.
Theorem C47_no_names : forall c vs (G : mat R), vs <> [] -> names c = None -> get_grad c G (ListStrs vs) = Err ValueError.
Proof. exact strings_no_names. Qed.
Print Assumptions C47_no_names.
Example C47_errors_ex :
  get_grad ex_q (mkM 2 [[1#4; 3#4]]%Q) (ListStrs [Some "c"]%string) = Err KeyError /\
  get_grad ex_q (mkM 2 [[1#4; 3#4]]%Q) (ListStrs [Some "!c"]%string) = Err KeyError /\
  get_grad ex_q (mkM 2 [[1#4; 5#4]]%Q) (ListStrs [Some "a"]%string) = Err ValueError /\
  get_grad ex_q (mkM 2 [[1#4; 3#4]]%Q) (ListInts [2]%Z) = Err IndexError /\
  get_grad ex_q (mkM 2 [[1#4; 3#4]]%Q) (ListInts [0; 0]%Z) = Err ValueError.
Proof. repeat split; vm_compute; reflexivity. Qed.
(** Finding: label smoothing and a negated name in the same batch raise ValueError: the target of the negated class is
    [-(1 - smoothing)], which the code does not recognise as its own mark [-1]. *)
Theorem C47_smoothed_negatives_refuted :
  forall c ns vs notes n G k, names c = Some ns -> ns <> [] -> NoDup ns -> length ns = n -> Forall2 (annotates c ns) vs notes -> length vs = length (m_rows G) ->
    valid_smoothing (label_smoothing c) (Z.of_nat n) -> input_of n G -> label_smoothing c <> 0 -> In (IsNot k) notes ->
    get_grad c G (ListStrs vs) = Err ValueError.
Proof. exact strings_smoothed. Qed.
Print Assumptions C47_smoothed_negatives_refuted.

(** ** SequenceCategoricalCrossentropy *)

(** The gradients are those of the sequences, and the loss is the sum of their losses, divided by the number of sequences (squared
    in the loss). *)
Theorem C47_sequences :
  forall c Gs Ts ds, length Gs = length Ts -> mapM (fun p => get_grad (seq_cc c) (fst p) (snd p)) (combine Gs Ts) = Ok ds ->
    seq_get_grad c Gs Ts = Ok (map (mmap (normed (normalize c) (length Gs))) ds) /\
    seq_get_loss c Gs Ts = Ok (msum (map (fun d => sum_sq d / (if normalize c then INR (length Gs) * INR (length Gs) else 1)) ds)).
Proof. exact seq_grad. Qed.
Print Assumptions C47_sequences.
Theorem C47_sequences_errors :
  forall (c : cc_t R) Gs Ts, length Gs <> length Ts -> seq_get_grad c Gs Ts = Err ValueError /\ seq_get_loss c Gs Ts = Err ValueError.
Proof. exact seq_errors. Qed.
Print Assumptions C47_sequences_errors.
Example C47_sequences_ex :
  match seq_get_loss ex_q [mkM 2 [[1#4; 3#4]]; mkM 2 [[1; 0]; [1; 0]]]%Q [ListStrs [Some "b"]%string; ListInts [0; 1]%Z] with Ok m => Ok (Qred m) | Err e => Err e end = Ok (17#32)%Q.
Proof. vm_compute. reflexivity. Qed.

(** ** L2Distance *)

(** The derivative of the loss is the gradient times 2 (times [2 / rows] if normalized). *)
Theorem C47_L2 :
  forall b n G T, input_of n G -> input_of n T -> length (m_rows T) = length (m_rows G) ->
    exists D, l2_get_grad b G T = Ok D /\ l2_get_loss b G T = Ok (sum_sq D) /\
      D = mkM n (map (fun p => map (fun q => normed b (length (m_rows G)) (fst q - snd q)) (combine (fst p) (snd p))) (combine (m_rows G) (m_rows T))) /\
      loss_gradient (fun g => l2_get_loss b g T) (normed b (length (m_rows G)) 2) G D.
Proof. exact l2_ok. Qed.
Print Assumptions C47_L2.
Theorem C47_L2_errors :
  forall b (G T : mat R), length (m_rows G) <> length (m_rows T) \/ m_cols G <> m_cols T -> l2_get_grad b G T = Err ValueError /\ l2_get_loss b G T = Err ValueError.
Proof. exact l2_errors. Qed.
Print Assumptions C47_L2_errors.
Example C47_L2_ex : match l2_get_loss true (mkM 2 [[1; 2]; [8; 9]]%Q) (mkM 2 [[1; 2]; [10; 5]]%Q) with Ok m => Ok (Qred m) | Err e => Err e end = Ok 5%Q.
Proof. vm_compute. reflexivity. Qed.

(** ** CosineDistance *)

(** The loss is always defined and not negative; the gradient is its derivative, for all rows that are not constantly [-1e-8]
    (the constant the code adds to avoid zero vectors), where the code divides by zero. *)
Theorem C47_cosine :
  forall (b iz : bool) n G T, input_of n G -> input_of n T -> length (m_rows T) = length (m_rows G) ->
    Forall (Exists (fun x => x <> - (1 / 100000000))) (m_rows G) ->
    Forall (fun t => (iz = true /\ Forall (fun x => x = 0) t) \/ Exists (fun x => x <> - (1 / 100000000)) t) (m_rows T) ->
    exists D, cosine_get_grad b iz G T = Ok D /\ input_of n D /\ length (m_rows D) = length (m_rows G) /\ loss_gradient (fun g => cosine_get_loss b iz g T) 1 G D.
Proof. exact cosine_ok. Qed.
Print Assumptions C47_cosine.
Theorem C47_cosine_value :
  forall (b iz : bool) n G T, input_of n G -> input_of n T -> length (m_rows T) = length (m_rows G) -> exists x, cosine_get_loss b iz G T = Ok x /\ 0 <= x.
Proof. exact cosine_value. Qed.
Print Assumptions C47_cosine_value.
Theorem C47_cosine_errors :
  forall (b iz : bool) (G T : mat R), length (m_rows G) <> length (m_rows T) \/ m_cols G <> m_cols T -> cosine_get_grad b iz G T = Err ValueError /\ cosine_get_loss b iz G T = Err ValueError.
Proof. exact cosine_errors. Qed.
Print Assumptions C47_cosine_errors.
Example C47_cosine_hyp : Forall (Exists (fun x => x <> - (1 / 100000000))) [[1; 2]; [0; 0]].
Proof. constructor; [|constructor; [|constructor]]; apply Exists_cons_hd; lra. Qed.

(** The loss of each sequence is not normalized by its length; the other settings are those of the loss of the sequences. *)
Theorem C47_sequences_config : forall {T} (c : cc_t T),
  normalize (seq_cc c) = false /\ names (seq_cc c) = names c /\ missing_value (seq_cc c) = missing_value c
  /\ neg_prefix (seq_cc c) = neg_prefix c /\ label_smoothing (seq_cc c) = label_smoothing c.
Proof. exact @seq_config. Qed.
Print Assumptions C47_sequences_config.
