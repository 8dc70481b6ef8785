(** Vocabulary of the theorems about sequence representations. *)
From Coq Require Export Permutation.
From Verif Require Export SeqModel.

(** Every row has as many elements as the shape says. *)
Definition wf_nda {T} (a : nda T) : Prop := Forall (fun r => length r = shape_size (a_tail a)) (a_rows a).
(** A list of well-formed arrays with the same shape after the first axis. *)
Definition like {T} (tail : list nat) (Xs : list (nda T)) : Prop := Forall (fun x => a_tail x = tail /\ wf_nda x) Xs.

Definition nonempty {T} (Xs : list (nda T)) : list (nda T) := filter (fun x => negb (Nat.eqb (a_len x) 0)) Xs.

(** Consecutive pieces of the given lengths. *)
Fixpoint chop {A} (lens : list nat) (l : list A) : list (list A) :=
  match lens with
  | [] => []
  | n :: lens' => firstn n l :: chop lens' (skipn n l)
  end.

Definition max_len {T} (Xs : list (nda T)) : nat := fold_right Nat.max 0 (map a_len Xs).

(** [p] represents [seqs]: sequence [p_indices i] is in column [i], longest first, ties by position from
    the end; the columns are filled up with zero rows; [p_size_at_t] counts the sequences longer than t. *)
Record represents {T} (z : T) (w : nat) (p : padded T) (seqs : list (nda T)) : Prop := {
  rep_tail : seqs <> [] -> a3_tail (p_data p) = [w];
  rep_cells : length (a3_cells (p_data p)) = max_len seqs;
  rep_n1 : a3_n1 (p_data p) = length seqs;
  rep_width : Forall (fun c => length c = length seqs) (a3_cells (p_data p));
  rep_perm : Permutation (p_indices p) (seq 0 (length seqs));
  rep_lengths : length (p_lengths p) = length seqs;
  rep_len : forall i j s, nth_error (p_indices p) i = Some j -> nth_error seqs j = Some s ->
    nth_error (p_lengths p) i = Some (a_len s);
  rep_sorted : forall i k, i < k < length seqs ->
    nth k (p_lengths p) 0 < nth i (p_lengths p) 0 \/
    nth k (p_lengths p) 0 = nth i (p_lengths p) 0 /\ nth k (p_indices p) 0 < nth i (p_indices p) 0;
  rep_sizes : p_size_at_t p = map (fun t => length (filter (fun s => t <? a_len s) seqs)) (seq 0 (max_len seqs));
  rep_data : forall t i j s, t < max_len seqs -> nth_error (p_indices p) i = Some j -> nth_error seqs j = Some s ->
    nth i (nth t (a3_cells (p_data p)) []) [] = nth t (a_rows s) (zero_row z [w])
}.

(** The sequences a ragged array stands for. *)
Definition ragged_seqs {T} (r : ragged T) : list (list (list T)) := chop (r_lengths r) (a_rows (r_data r)).
(** A ragged array as its constructor makes it: 2d data, as many rows as the lengths sum up to. *)
Definition wf_ragged {T} (r : ragged T) : Prop :=
  shape_size (r_tail r) <> 0 /\ wf_nda (r_data r) /\ list_sum_nat (r_lengths r) = a_len (r_data r) /\
  (a_rows (r_data r) = [] /\ a_tail (r_data r) = [0] \/ a_rows (r_data r) <> [] /\ a_tail (r_data r) = [shape_size (r_tail r)]).

(** Padded batches with consistent shapes: one batch size for each time step, no batch size above the width. *)
Definition packable {T} (p : padded T) (w : nat) : Prop :=
  a3_tail (p_data p) = [w] /\
  length (p_size_at_t p) = length (a3_cells (p_data p)) /\
  list_sum_nat (p_lengths p) = list_sum_nat (p_size_at_t p) /\
  Forall (fun c => length c = a3_n1 (p_data p) /\ Forall (fun r => length r = w) c) (a3_cells (p_data p)) /\
  Forall (fun n => n <= a3_n1 (p_data p)) (p_size_at_t p).
