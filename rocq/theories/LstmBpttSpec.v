(** Vocabulary of the theorems about back-propagation through time. *)
From Coq Require Import Reals.
From Verif Require Export LstmKernelSpec MatSpec.
Local Open Scope R_scope.

(** [v] is a curve of lists of [n] numbers that moves at 0 with the velocity [dv] *)
Definition moves (n : nat) (v : R -> list R) (dv : list R) : Prop :=
  length dv = n /\ (forall s, length (v s) = n) /\ forall i, (i < n)%nat -> derivable_pt_lim (fun s => nth i (v s) 0) 0 (nth i dv 0).
(** The same for [r] rows of [c] numbers *)
Definition moves2 (r c : nat) (m : R -> list (list R)) (dm : list (list R)) : Prop :=
  length dm = r /\ (forall s, length (m s) = r) /\ forall i, (i < r)%nat -> moves c (fun s => nth i (m s) []) (nth i dm []).
(** The gates that the kernel computes from the equations' pre-activations *)
Definition gates_of (nO : nat) (w : triple R) (x y : list R) : list R := lstm_activate_fwd nO (map (preact w x y) (seq 0 (4 * nO))).
Definition hid_weights (w : triple R) : list (list R) := m_rows (snd (fst w)).
Definition in_weights (w : triple R) : list (list R) := m_rows (fst (fst w)).
(** The backward recursion for one sequence: from the inputs and the gradients of the hiddens of all steps, and the gradients of the
    last hidden and the last cell, the gradients of the initial hidden and cell and of the gates of all steps *)
Fixpoint back_run (nO : nat) (w : triple R) (y c : list R) (steps : list (list R * list R)) (ey ec : list R) : list R * list R * list (list R) :=
  match steps with
  | [] => (ey, ec, [])
  | (x, dy) :: steps =>
      let r := lstm_step nO w x y c in
      let e := back_run nO w (fst r) (snd r) steps ey ec in
      let b := lstm_gates_bwd nO (row_add dy (fst (fst e))) (snd (fst e)) (gates_of nO w x y) (snd r) c in
      (times_t nO (hid_weights w) (fst b), snd b, fst b :: snd e)
  end.
(** The gradients of the gates, without gradients of the last hidden and cell *)
Definition gate_grads (nO : nat) (w : triple R) (y c : list R) (xs dys : list (list R)) : list (list R) :=
  snd (back_run nO w y c (combine xs dys) (zeros nO) (zeros nO)).
(** The hidden before each step *)
Definition before (y : list R) (hs : list (list R)) : list (list R) := removelast (y :: hs).
(** What the kernel keeps of them: the first step of the sequence is left out, as if the state after it were given *)
Definition kept_grads (nO : nat) (w : triple R) (y c : list R) (xs dys : list (list R)) : list (list R) :=
  match xs, dys with
  | x :: xs, _ :: dys => let r := lstm_step nO w x y c in zeros (4 * nO) :: gate_grads nO w (fst r) (snd r) xs dys
  | _, _ => []
  end.
(** The first step of the second direction is the last one of the sequence *)
Definition dir_grads (d nO : nat) (w : triple R) (y c : list R) (xs dys : list (list R)) : list (list R) :=
  match d with 0%nat => kept_grads nO w y c xs dys | S _ => rev (kept_grads nO w y c (rev xs) (rev dys)) end.
(** The lengths do not grow, as in every Padded *)
Fixpoint falling (lengths : list nat) : Prop := match lengths with a :: ((b :: _) as l) => (b <= a)%nat /\ falling l | _ => True end.
(** A layer of one number whose hidden after the first step is 0, with the hidden weight [s] of the candidate gate *)
Definition hid_params (s : R) : list R := [0; 0; 0; 1; 0; 0; 0; 0; 0; 0; 0; s; 0; 0; 0; 0].
Definition hid_X : mat R := mkM 1 [[0]; [1]].
Definition hid_out : R := tanh (/ 2 * tanh 1) * / 2.
