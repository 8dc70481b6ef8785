(** C37: gather_add and scatter_add. [lookup table ids] are the rows at the ids; [with_id t ids values] are the
    value rows whose id is [t]; [colsum] adds rows. *)
From Coq Require Import QArith.
From Verif Require Import NumQ KernelSpec KernelProofs GatherProofs.
Local Open Scope nat_scope.

(** gather_add sums the indexed rows, in both backends. *)
Theorem C37_gather_add :
  forall (table : mat R) K indices, wf_mat table -> m_len table <> 0 -> m_cols table <> 0 -> indices <> [] -> K <> 0 -> Forall (ids_in (m_len table)) indices ->
    np_gather_add table K indices = Ok (mkM (m_cols table) (map (fun ids => colsum (m_cols table) (lookup (m_rows table) ids)) indices)) /\
    op_gather_add table indices = Ok (mkM (m_cols table) (map (fun ids => colsum (m_cols table) (lookup (m_rows table) ids)) indices)).
Proof. exact gather_ok. Qed.
Print Assumptions C37_gather_add.
Definition exT : mat Q := mkM 2 [[1; 2]; [3; 4]; [5; 6]]%Q.
Example C37_gather_ex : np_gather_add exT 3 [[0; 2; 2]; [1; 1; 0]]%Z = Ok (mkM 2 [[11; 14]; [7; 10]]%Q) /\ Forall (ids_in 3) [[0; 2; 2]; [1; 1; 0]]%Z.
Proof. split; [reflexivity | repeat constructor; discriminate]. Qed.
(** The first index outside [0, rows) decides: beyond the number of rows it raises. Finding: the number of rows
    itself and negative indices pass the check and read outside the table. *)
Theorem C37_gather_bounds_refuted :
  forall (T : Type) (N : Num T) (table : mat T) K pre ids k post rest, m_len table <> 0 -> m_cols table <> 0 -> K <> 0 ->
    Forall (ids_in (m_len table)) pre -> ids_in (m_len table) ids ->
    ((Z.of_nat (m_len table) < k)%Z -> np_gather_add table K (pre ++ (ids ++ k :: post) :: rest) = Err IndexError) /\
    ((k < 0)%Z \/ k = Z.of_nat (m_len table) -> np_gather_add table K (pre ++ (ids ++ k :: post) :: rest) = Err MemFault).
Proof. exact @gather_stop. Qed.
Print Assumptions C37_gather_bounds_refuted.
Theorem C37_gather_generic_checked :
  forall (T : Type) (N : Num T) (table : mat T) k, ~ (- Z.of_nat (m_len table) <= k < Z.of_nat (m_len table))%Z -> op_gather_add table [[k]] = Err IndexError.
Proof. exact @op_gather_range. Qed.
Print Assumptions C37_gather_generic_checked.
Example C37_gather_bounds_ex : np_gather_add exT 1 [[3]]%Z = Err MemFault /\ np_gather_add exT 1 [[4]]%Z = Err IndexError /\
  op_gather_add exT [[3]]%Z = Err IndexError /\ op_gather_add exT [[-1]]%Z = Ok (mkM 2 [[5; 6]]%Q).
Proof. repeat split. Qed.
(** Finding: the compiled function raises on an empty batch. *)
Theorem C37_gather_empty_refuted :
  forall (T : Type) (N : Num T) (table : mat T) K, np_gather_add table K [] = Err IndexError /\ op_gather_add table [] = Ok (mkM (m_cols table) []).
Proof. exact @gather_empty. Qed.
Print Assumptions C37_gather_empty_refuted.

(** scatter_add adds to each row the sum of the values with its id, on both code paths. *)
Theorem C37_scatter_add :
  forall fast (table values : mat R) ids, wf_mat table -> wf_mat values -> m_cols values = m_cols table -> m_len values = length ids -> ids_in (m_len table) ids ->
    exists table', np_scatter_add fast table ids values = Ok table' /\ m_cols table' = m_cols table /\ m_len table' = m_len table /\ wf_mat table' /\
      forall t r, nth_error (m_rows table) t = Some r -> nth_error (m_rows table') t = Some (map (fun p => fst p + snd p)%R (combine r (colsum (m_cols table) (with_id t ids (m_rows values))))).
Proof. exact scatter_rows. Qed.
Print Assumptions C37_scatter_add.
Example C37_scatter_ex : np_scatter_add true exT [2; 0; 2]%Z (mkM 2 [[10; 10]; [20; 20]; [30; 30]]%Q) = Ok (mkM 2 [[21; 22]; [3; 4]; [45; 46]]%Q) /\
  np_scatter_add false exT [2; 0; 2]%Z (mkM 2 [[10; 10]; [20; 20]; [30; 30]]%Q) = Ok (mkM 2 [[21; 22]; [3; 4]; [45; 46]]%Q) /\
  with_id 2 [2; 0; 2]%Z [[10; 10]; [20; 20]; [30; 30]]%Q = [[10; 10]; [30; 30]]%Q.
Proof. repeat split. Qed.
(** scatter_add is the adjoint of row lookup. *)
Theorem C37_scatter_adjoint :
  forall fast (table values G : mat R) ids table', wf_mat table -> wf_mat values -> m_cols values = m_cols table -> m_len values = length ids -> ids_in (m_len table) ids ->
    m_len G = m_len table -> np_scatter_add fast table ids values = Ok table' ->
    mdot (m_rows table') (m_rows G) = (mdot (m_rows table) (m_rows G) + mdot (m_rows values) (lookup (m_rows G) ids))%R.
Proof. exact scatter_adjoint. Qed.
Print Assumptions C37_scatter_adjoint.
(** The compiled path skips negative ids. *)
Theorem C37_scatter_negative_skipped :
  forall (table values : mat R) ids, wf_mat table -> wf_mat values -> m_cols values = m_cols table -> m_len values = length ids -> Forall (fun k => (k < Z.of_nat (m_len table))%Z) ids ->
    exists table', np_scatter_add true table ids values = Ok table' /\ m_cols table' = m_cols table /\ m_len table' = m_len table /\ wf_mat table' /\
      forall t r, nth_error (m_rows table) t = Some r -> nth_error (m_rows table') t = Some (map (fun p => fst p + snd p)%R (combine r (colsum (m_cols table) (with_id t ids (m_rows values))))).
Proof. exact scatter_fast_negative. Qed.
Print Assumptions C37_scatter_negative_skipped.
(** numpy's add.at refuses ids outside [-rows, rows). Finding: the compiled path writes outside the table for ids
    that are too large, and negative ids give different tables on the two paths. *)
Theorem C37_scatter_generic_checked :
  forall (table values : mat R) ids, ~ Forall (fun k => (- Z.of_nat (m_len table) <= k < Z.of_nat (m_len table))%Z) ids ->
    np_scatter_add false table ids values = Err IndexError.
Proof. exact scatter_checked. Qed.
Print Assumptions C37_scatter_generic_checked.
Theorem C37_scatter_bounds_refuted :
  forall (table : mat R) pre k post values, wf_mat table -> wf_mat values -> m_cols values = m_cols table -> m_len values = length (pre ++ k :: post) -> ids_in (m_len table) pre ->
    (Z.of_nat (m_len table) <= k)%Z -> np_scatter_add true table (pre ++ k :: post) values = Err MemFault.
Proof. exact scatter_fault. Qed.
Print Assumptions C37_scatter_bounds_refuted.
Example C37_scatter_paths_ex : np_scatter_add true exT [-1]%Z (mkM 2 [[10; 10]]%Q) = Ok exT /\
  np_scatter_add false exT [-1]%Z (mkM 2 [[10; 10]]%Q) = Ok (mkM 2 [[1; 2]; [3; 4]; [15; 16]]%Q) /\
  np_scatter_add true exT [3]%Z (mkM 2 [[10; 10]]%Q) = Err MemFault /\ np_scatter_add false exT [3]%Z (mkM 2 [[10; 10]]%Q) = Err IndexError.
Proof. repeat split. Qed.

(** Values that have neither one row per id (or one column per column of the table) nor a single one raise; a single row or column
    is repeated. *)
Theorem C37_scatter_shapes :
  forall (T : Type) (N : Num T) fast (table values : mat T) ids, Forall (fun k => (- Z.of_nat (m_len table) <= k < Z.of_nat (m_len table))%Z) ids ->
    (m_len values <> length ids /\ m_len values <> 1%nat) \/ (m_cols values <> m_cols table /\ m_cols values <> 1%nat) -> np_scatter_add fast table ids values = Err ValueError.
Proof. exact @scatter_shapes. Qed.
Print Assumptions C37_scatter_shapes.
Theorem C37_scatter_one_row :
  forall (T : Type) (N : Num T) (table : mat T) ids c r, np_scatter_add false table ids (mkM c [r]) = np_scatter_add false table ids (mkM c (repeat r (length ids))).
Proof. exact @scatter_one_row. Qed.
Print Assumptions C37_scatter_one_row.
Theorem C37_scatter_one_column :
  forall (T : Type) (N : Num T) (table : mat T) ids (xs : list T), length xs = length ids ->
    np_scatter_add false table ids (mkM 1 (map (fun x => [x]) xs)) = np_scatter_add false table ids (mkM (m_cols table) (map (fun x => repeat x (m_cols table)) xs)).
Proof. exact @scatter_one_col. Qed.
Print Assumptions C37_scatter_one_column.
Example C37_scatter_shapes_ex : np_scatter_add false exT [2; 0; 2]%Z (mkM 2 [[10; 10]; [20; 20]]%Q) = Err ValueError /\
  np_scatter_add true exT [2; 0]%Z (mkM 3 [[10; 10; 1]; [20; 20; 1]]%Q) = Err ValueError /\
  np_scatter_add true exT [2; 0]%Z (mkM 1 [[10]; [20]]%Q) = Ok (mkM 2 [[21; 22]; [3; 4]; [15; 16]]%Q).
Proof. repeat split. Qed.
