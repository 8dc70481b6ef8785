(** C36: maxout. Candidate vectors and matrix elements are numbered in row-major order.
    [first_max l w m]: position [w] of [l] holds the maximum [m] and no earlier position does. *)
From Coq Require Import QArith.
From Verif Require Import NumQ KernelSpec KernelProofs.
Local Open Scope nat_scope.

(** The unrolled kernels (2 and 3 pieces), the loop and the generic backend return, for every candidate vector,
    the maximum and the position of its first occurrence. *)
Theorem C36_maxout :
  forall X : arr3 R, wf3 X -> t_o X <> 0 -> t_p X <> 0 ->
    exists best which, np_maxout X = Ok (best, which) /\ op_maxout X = Ok (best, which) /\
      m_cols best = t_o X /\ m_len best = t_b X /\ wf_mat best /\ positions_in (Z.of_nat (t_p X)) which best /\
      forall i c, nth_error (t_cells X) i = Some c ->
        exists w m, nth_error (concat which) i = Some w /\ nth_error (concat (m_rows best)) i = Some m /\ first_max c w m.
Proof. exact maxout_ok. Qed.
Print Assumptions C36_maxout.
Definition exX : arr3 Q := mk3 2 2 3 [[1; 3; 3]; [5; 4; 5]; [0; 0; 0]; [1; 2; 3]]%Q.
Example C36_maxout_ex : np_maxout exX = Ok (mkM 2 [[3; 5]; [0; 3]]%Q, [[1; 0]; [0; 2]]%Z) /\
  np_maxout (mk3 1 2 2 [[1; 1]; [1; 2]]%Q) = Ok (mkM 2 [[1; 2]]%Q, [[0; 1]]%Z) /\
  np_maxout (mk3 1 1 5 [[1; 4; 2; 4; 3]]%Q) = Ok (mkM 1 [[4]]%Q, [[1]]%Z).
Proof. vm_compute. repeat split. Qed.
Example C36_wf_ex : wf3 exX. Proof. split; repeat constructor. Qed.
(** The compiled kernels refuse arrays without outputs or pieces. *)
Theorem C36_empty_axes :
  forall X : arr3 R, wf3 X -> t_b X <> 0 -> (t_o X = 0 \/ t_p X = 0) -> np_maxout X = Err IndexError.
Proof. exact maxout_errors. Qed.
Print Assumptions C36_empty_axes.
Example C36_empty_axes_ex : np_maxout (mk3 1 1 0 [[]] : arr3 Q) = Err IndexError. Proof. reflexivity. Qed.

(** backprop puts each gradient element at the recorded position and zero elsewhere, in both backends. *)
Theorem C36_backprop :
  forall (T : Type) (N : Num T) (dY : mat T) which P, wf_mat dY -> m_len dY <> 0 -> m_cols dY <> 0 -> positions_in P which dY ->
    exists dX, np_backprop_maxout dY which P = Ok dX /\ op_backprop_maxout dY which P = Ok dX /\
      t_b dX = m_len dY /\ t_o dX = m_cols dY /\ Z.of_nat (t_p dX) = P /\ wf3 dX /\
      forall i w d, nth_error (concat which) i = Some w -> nth_error (concat (m_rows dY)) i = Some d -> nth_error (t_cells dX) i = Some (only_at (t_p dX) w d).
Proof. exact @maxout_back. Qed.
Print Assumptions C36_backprop.
Example C36_backprop_ex : np_backprop_maxout (mkM 2 [[7; 8]; [9; 10]]%Q) [[1; 0]; [0; 2]]%Z 3 =
  Ok (mk3 2 2 3 [[0; 7; 0]; [8; 0; 0]; [9; 0; 0]; [0; 0; 10]]%Q).
Proof. reflexivity. Qed.
(** Forward followed by backward: the gradient of the selected maxima. *)
Theorem C36_adjoint :
  forall (X : arr3 R) (dY : mat R) best which, wf3 X -> t_b X <> 0 -> t_o X <> 0 -> t_p X <> 0 -> np_maxout X = Ok (best, which) ->
    wf_mat dY -> m_len dY = t_b X -> m_cols dY = t_o X ->
    exists dX, np_backprop_maxout dY which (Z.of_nat (t_p X)) = Ok dX /\ mdot (t_cells dX) (t_cells X) = mdot (m_rows dY) (m_rows best).
Proof. exact maxout_adjoint. Qed.
Print Assumptions C36_adjoint.
(** A position that is too large raises. *)
Theorem C36_position_checked :
  forall (T : Type) (N : Num T) (dY : mat T) which P, wf_mat dY -> (0 <= P)%Z -> length which = m_len dY -> Forall (fun w => length w = m_cols dY) which ->
    Forall (Forall (fun k => (0 <= k)%Z)) which -> ~ Forall (Forall (fun k => (k < P)%Z)) which -> np_backprop_maxout dY which P = Err IndexError.
Proof. exact @maxout_back_bad. Qed.
Print Assumptions C36_position_checked.
Example C36_position_ex : np_backprop_maxout (mkM 2 [[7; 8]]%Q) [[1; 3]]%Z 3 = Err IndexError. Proof. reflexivity. Qed.
(** Finding: a negative position passes the kernel's check. The gradient overwrites the previous candidate vector,
    or memory before the array, where the generic backend counts from the end. *)
Theorem C36_negative_position_refuted :
  forall (T : Type) (N : Num T) (d e : T),
    np_backprop_maxout (mkM 2 [[d; e]]) [[0; -1]]%Z 2 = Ok (mk3 1 2 2 [[d; e]; [nZ 0; nZ 0]]) /\
    np_backprop_maxout (mkM 1 [[d]]) [[-1]]%Z 2 = Err MemFault /\
    op_backprop_maxout (mkM 2 [[d; e]]) [[0; -1]]%Z 2 = Ok (mk3 1 2 2 [[d; nZ 0]; [nZ 0; e]]).
Proof. exact @maxout_negative. Qed.
Print Assumptions C36_negative_position_refuted.
(** Finding: the compiled backward function raises on an empty batch, which the forward function and the generic
    backend accept. *)
Theorem C36_empty_batch_refuted :
  forall (T : Type) (N : Num T) O P, (0 <= P)%Z ->
    np_backprop_maxout (mkM O []) [] P = Err IndexError /\ op_backprop_maxout (mkM O []) [] P = Ok (mk3 0 O (Z.to_nat P) []).
Proof. exact @maxout_empty. Qed.
Print Assumptions C36_empty_batch_refuted.
