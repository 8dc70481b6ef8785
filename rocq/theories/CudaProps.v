(** Property C59: CUDA kernels and their wrappers. *)
From Coq Require Import Reals String Lia Lra QArith Qreduction.
From Verif Require Import Base NumR NumQ SeqModel ReduceModel Seq2colModel KernelModel ReduceSpec Seq2colSpec KernelSpec CudaModel CudaSpec.
From Verif Require Import CudaProofs CudaRowProofs CudaMaxProofs CudaSeqProofs CudaWinProofs CudaBackProofs CudaMapProofs CudaMeanProofs.
Local Open Scope nat_scope.

(** The grid-stride loop gives every iteration to exactly one thread, whatever the grid. *)
Theorem C59_visits_once : forall {V} c N (work : nat -> list (instr V)), has_threads c ->
  exists codes, mapM (fun start => grid_for N start (threads_per_block c * num_blocks c) N (fun b (s : unit) => Ok (s, work b)) tt) (loop_starts (num_blocks c) (threads_per_block c)) = Ok codes /\
    length codes = num_blocks c * threads_per_block c /\ Permutation (concat codes) (concat (map work (seq 0 N))).
Proof. exact @visits_once. Qed.
Print Assumptions C59_visits_once.
Example C59_visits_once_ex :
  mapM (fun start => grid_for 7 start (2 * 2) 7 (fun b (s : unit) => Ok (s, [Wr b b])) tt) (loop_starts 2 2)
  = Ok [[Wr 0 0; Wr 4 4]; [Wr 1 1; Wr 5 5]; [Wr 2 2; Wr 6 6]; [Wr 3 3]].
Proof. reflexivity. Qed.

(** If the iterations touch different elements, every interleaving of the threads gives what one processor gives. *)
Theorem C59_any_interleaving : forall {V} c N (work : nat -> list (instr V)) m, has_threads c -> in_bounds (length m) N work -> disjoint N work ->
  launch c N (fun b (s : unit) => Ok (s, work b)) tt m = Ok (sequentially m (concat (map work (seq 0 N)))).
Proof. exact @any_interleaving. Qed.
Print Assumptions C59_any_interleaving.
Example C59_any_interleaving_ex : let work b := [Rmw b (fun x => x + 1)%nat; Rmw b (fun x => 2 * x)%nat] in
  (disjoint 3 work /\ in_bounds 3 3 work) /\
  launch (mkC 1 2 [1; 0; 1; 0; 0; 1; 1; 0]) 3 (fun b (s : unit) => Ok (s, work b)) tt [5; 6; 7] = Ok [12; 14; 16].
Proof. cbv zeta. split; [split|reflexivity]; [intros b b' i i' _ _ [<-|[<-|[]]] [<-|[<-|[]]]; exact (fun e => e)|intros b i Hb [<-|[<-|[]]]; exact Hb]. Qed.
(** Without that condition the schedule matters: two threads that add to the same element can lose an addition. *)
Theorem C59_shared_cells_refuted : exists (work : nat -> list (instr nat)) s s',
  launch (mkC 1 2 s) 2 (fun b (u : unit) => Ok (u, work b)) tt [0] = Ok [2] /\ launch (mkC 1 2 s') 2 (fun b (u : unit) => Ok (u, work b)) tt [0] = Ok [1].
Proof. exact lost_addition. Qed.
Print Assumptions C59_shared_cells_refuted.
(** An empty grid is refused. *)
Theorem C59_empty_grid : forall {V S} c N (body : nat -> S -> result (S * list (instr V))) s m, ~ has_threads c -> launch c N body s m = Err RuntimeError.
Proof. exact @empty_grid. Qed.
Print Assumptions C59_empty_grid.

(** For every grid and every interleaving, each wrapper gives what the NumPy implementation gives. *)
Theorem C59_gather_add : forall c (table : mat R) K indices, has_threads c -> wf_mat table -> Forall (fun r => length r = K) indices -> Forall (ids_in (m_len table)) indices ->
  cu_gather_add c table K indices = op_gather_add table indices.
Proof. exact gather_cu. Qed.
Print Assumptions C59_gather_add.
Theorem C59_gather_add_checked : forall {T} `{Num T} c (table : mat T) K indices, ~ Forall (ids_in (m_len table)) indices -> cu_gather_add c table K indices = Err IndexError.
Proof. exact @gather_cu_checked. Qed.
Print Assumptions C59_gather_add_checked.
Theorem C59_reduce_sum : forall c (X : mat R) lengths, has_threads c -> wf_mat X -> nonneg lengths -> zsum lengths = Z.of_nat (m_len X) ->
  cu_reduce_sum c X lengths = op_reduce_sum X lengths.
Proof. exact (fun c X lengths => sum_cu X lengths c). Qed.
Print Assumptions C59_reduce_sum.
Theorem C59_reduce_max : forall c junk (X : mat R) lengths, has_threads c -> wf_mat X -> ReduceSpec.positive lengths -> zsum lengths = Z.of_nat (m_len X) ->
  cu_reduce_max c junk X lengths = op_reduce_max X lengths.
Proof. exact (fun c junk X lengths => max_cu X lengths c junk). Qed.
Print Assumptions C59_reduce_max.
Theorem C59_maxout : forall c junk (X : arr3 R), has_threads c -> wf3 X -> t_p X <> 0 -> cu_maxout c junk X = op_maxout X.
Proof. exact maxout_cu. Qed.
Print Assumptions C59_maxout.
Theorem C59_backprop_maxout : forall {T} `{Num T} c (dY : mat T) which P, has_threads c -> wf_mat dY -> (0 <= P)%Z -> positions_in P which dY ->
  cu_backprop_maxout c dY which P = op_backprop_maxout dY which P.
Proof. exact @maxout_back_cu. Qed.
Print Assumptions C59_backprop_maxout.
Theorem C59_backprop_reduce_sum : forall c junk (dY : mat R) lengths, has_threads c -> wf_mat dY -> nonneg lengths -> m_len dY = length lengths ->
  cu_backprop_reduce_sum c junk dY lengths = op_backprop_reduce_sum dY lengths.
Proof. exact back_sum_cu. Qed.
Print Assumptions C59_backprop_reduce_sum.
Theorem C59_backprop_reduce_mean : forall c junk (dY : mat R) lengths, has_threads c -> wf_mat dY -> nonneg lengths -> m_len dY = length lengths ->
  cu_backprop_reduce_mean c junk dY lengths = op_backprop_reduce_mean dY lengths.
Proof. exact back_mean_cu. Qed.
Print Assumptions C59_backprop_reduce_mean.
Theorem C59_backprop_reduce_max : forall c (dY : mat R) which lengths, has_threads c -> ReduceSpec.positive lengths -> wf_mat dY -> m_len dY = length lengths -> in_seqs (m_cols dY) which lengths ->
  cu_backprop_reduce_max c dY which lengths = op_backprop_reduce_max dY which lengths.
Proof. exact back_max_cu. Qed.
Print Assumptions C59_backprop_reduce_max.
Theorem C59_seq2col : forall {T} `{Num T} c (X : mat T) nW lengths, has_threads c -> nonneg lengths -> wf_mat X -> zsum lengths = Z.of_nat (m_len X) ->
  cu_seq2col c X (Z.of_nat nW) (Some lengths) = np_seq2col X (Z.of_nat nW) (Some lengths).
Proof. exact (fun T N c X nW lengths HT Hn => seq2col_cu lengths nW c HT Hn X). Qed.
Print Assumptions C59_seq2col.
Theorem C59_backprop_seq2col : forall c (dY : mat R) nW lengths I, has_threads c -> nonneg lengths -> wf_mat dY -> m_cols dY = (2 * nW + 1) * I -> zsum lengths = Z.of_nat (m_len dY) ->
  cu_backprop_seq2col c dY (Z.of_nat nW) (Some lengths) = np_backprop_seq2col dY (Z.of_nat nW) (Some lengths).
Proof. exact (fun c dY nW lengths I => back_seq2col_cu lengths nW I c dY). Qed.
Print Assumptions C59_backprop_seq2col.
(** Without lengths the batch is one sequence. *)
Theorem C59_seq2col_one : forall {T} `{Num T} c (X : mat T) nW,
  cu_seq2col c X nW None = cu_seq2col c X nW (Some [Z.of_nat (m_len X)]) /\ cu_backprop_seq2col c X nW None = cu_backprop_seq2col c X nW (Some [Z.of_nat (m_len X)]).
Proof. exact (fun T N c X nW => conj (seq2col_cu_none c X nW) (back_seq2col_cu_none c X nW)). Qed.
Print Assumptions C59_seq2col_one.
(** Elementwise kernels, in place or not, apply their function to every element. *)
Theorem C59_map : forall {T} `{Num T} c junk inplace (f : T -> T) X, has_threads c -> cu_map c junk inplace f X = Ok (map f X).
Proof. exact @map_cu. Qed.
Print Assumptions C59_map.
Theorem C59_map2 : forall {T} `{Num T} c junk inplace (f : T -> T -> T) dY X, has_threads c -> length X = length dY ->
  cu_map2 c junk inplace f dY X = Ok (map (fun p => f (fst p) (snd p)) (combine dY X)).
Proof. exact @map2_cu. Qed.
Print Assumptions C59_map2.
Theorem C59_map3 : forall {T} `{Num T} c junk inplace (f : T -> T -> T -> T) dY X Y, has_threads c -> length X = length dY -> length Y = length dY ->
  cu_map3 c junk inplace f dY X Y = Ok (map (fun p => f (fst p) (fst (snd p)) (snd (snd p))) (combine dY (combine X Y))).
Proof. exact @map3_cu. Qed.
Print Assumptions C59_map3.
Theorem C59_shapes_checked : forall {T} c junk inplace (f : T -> T -> T) (g : T -> T -> T -> T) dY X Y,
  (length X <> length dY -> cu_map2 c junk inplace f dY X = Err ValueError /\ cu_map3 c junk inplace g dY X Y = Err ValueError) /\
  (length X = length dY -> length Y <> length dY -> cu_map3 c junk inplace g dY X Y = Err ValueError).
Proof. exact @shapes_cu. Qed.
Print Assumptions C59_shapes_checked.
(** Padding gives the cells of the NumPy implementation, row after row. *)
Theorem C59_pad : forall {T} `{Num T} c junk (seqs : list (mat T)) I r, has_threads c -> r <> 0 -> seqs <> [] -> Forall (fun s => wf_mat s /\ m_cols s = I) seqs ->
  exists a, pad_seqs (nZ 0) (map (fun s => mkA [m_cols s] (m_rows s)) seqs) r = Ok a /\
    cu_pad c junk seqs (Z.of_nat r) = Ok (a3_n1 a, I, concat (map (@concat T) (a3_cells a))).
Proof. exact @pad_cu. Qed.
Print Assumptions C59_pad.
Theorem C59_pad_refused : forall {T} `{Num T} c junk (seqs : list (mat T)) r, (r < 1)%Z \/ seqs = [] -> cu_pad c junk seqs r = Err ValueError.
Proof. exact @pad_cu_err. Qed.
Print Assumptions C59_pad_refused.

(** Lengths and positions are checked. *)
Theorem C59_lengths_negative : forall {T} `{Num T} f c junk jz (X dY : mat T) nW which lengths, ~ nonneg lengths ->
  cu_reduce_sum c X lengths = Err ValueError /\ cu_reduce_mean c X lengths = Err ValueError /\ cu_reduce_max c jz X lengths = Err ValueError /\
  cu_backprop_reduce f c junk dY lengths = Err ValueError /\ cu_backprop_reduce_max c dY which lengths = Err ValueError /\
  cu_seq2col c X nW (Some lengths) = Err ValueError /\ cu_backprop_seq2col c dY nW (Some lengths) = Err ValueError.
Proof. exact @lengths_negative. Qed.
Print Assumptions C59_lengths_negative.
Theorem C59_lengths_sum : forall {T} `{Num T} c jz (X : mat T) nW lengths, nonneg lengths -> zsum lengths <> Z.of_nat (m_len X) ->
  cu_reduce_sum c X lengths = Err IndexError /\ cu_reduce_mean c X lengths = Err IndexError /\
  (ReduceSpec.positive lengths -> cu_reduce_max c jz X lengths = Err IndexError) /\
  cu_seq2col c X nW (Some lengths) = Err IndexError /\ cu_backprop_seq2col c X nW (Some lengths) = Err IndexError.
Proof. exact @lengths_sum. Qed.
Print Assumptions C59_lengths_sum.
Theorem C59_lengths_zero : forall {T} `{Num T} c jz (X dY : mat T) which lengths, ~ ReduceSpec.positive lengths ->
  cu_reduce_max c jz X lengths = Err ValueError /\ cu_backprop_reduce_max c dY which lengths = Err ValueError.
Proof. exact @lengths_empty_max. Qed.
Print Assumptions C59_lengths_zero.
Theorem C59_which_checked : forall {T} `{Num T} c (dY : mat T) which P lengths,
  (((0 <= P)%Z -> length which <> m_len dY \/ ~ Forall (fun w => length w = m_cols dY) which -> cu_backprop_maxout c dY which P = Err ValueError) /\
   ((0 <= P)%Z -> length which = m_len dY -> Forall (fun w => length w = m_cols dY) which -> ~ Forall (Forall (fun k => (0 <= k < P)%Z)) which -> cu_backprop_maxout c dY which P = Err IndexError) /\
   ((P < 0)%Z -> cu_backprop_maxout c dY which P = Err ValueError)) /\
  (ReduceSpec.positive lengths -> length which <> length lengths \/ ~ Forall (fun w => length w = m_cols dY) which -> cu_backprop_reduce_max c dY which lengths = Err ValueError) /\
  (ReduceSpec.positive lengths -> length which = length lengths -> Forall (fun w => length w = m_cols dY) which -> ~ in_seqs (m_cols dY) which lengths -> cu_backprop_reduce_max c dY which lengths = Err IndexError).
Proof. exact @which_checked. Qed.
Print Assumptions C59_which_checked.

(** The mean divides by the length plus 1e-10, so it is never the mean of the NumPy implementation unless the sum is
    zero, but it is close. *)
Theorem C59_reduce_mean : forall c (X : mat R) lengths, has_threads c -> wf_mat X -> nonneg lengths -> zsum lengths = Z.of_nat (m_len X) ->
  cu_reduce_mean c X lengths = Ok (mkM (m_cols X) (map (fun s => map (fun x => (x / (INR (length s) + / 10000000000))%R) (colsum (m_cols X) s)) (seqs_of lengths (m_rows X)))).
Proof. exact mean_cu. Qed.
Print Assumptions C59_reduce_mean.
Theorem C59_reduce_mean_refuted : exists (X : mat R) lengths, wf_mat X /\ nonneg lengths /\ zsum lengths = Z.of_nat (m_len X) /\
  forall c, has_threads c -> cu_reduce_mean c X lengths <> op_reduce_mean X lengths.
Proof. exact mean_off. Qed.
Print Assumptions C59_reduce_mean_refuted.
Theorem C59_reduce_mean_gap : forall s n, s <> 0%R -> n <> O -> (s / (INR n + / 10000000000) <> s / INR n)%R.
Proof. exact mean_gap. Qed.
Print Assumptions C59_reduce_mean_gap.
Theorem C59_reduce_mean_close : forall s n, n <> O -> (Rabs (s / (INR n + / 10000000000) - s / INR n) <= Rabs (s / INR n) * / 10000000000)%R.
Proof. exact mean_close. Qed.
Print Assumptions C59_reduce_mean_close.

(** With other dtypes four methods of CupyOps compute their result and return None. *)
Theorem C59_fallback_returns_refuted : forall {T} `{Num T} c jz junk (X : mat T) which lengths r1 r2 r3 r4,
  op_reduce_mean X lengths = Ok r1 -> op_reduce_max X lengths = Ok r2 -> op_backprop_reduce_mean X lengths = Ok r3 -> op_backprop_reduce_max X which lengths = Ok r4 ->
  cupy_reduce_mean false c X lengths = Ok None /\ cupy_reduce_max false c jz X lengths = Ok None /\
  cupy_backprop_reduce_mean false c junk X lengths = Ok None /\ cupy_backprop_reduce_max false c X which lengths = Ok None.
Proof. exact @no_return. Qed.
Print Assumptions C59_fallback_returns_refuted.

Section Examples.
  Local Open Scope Q_scope.
  Let c := mkC 2 2 [3; 3; 0; 1; 2; 2; 0; 1; 1; 0; 3; 2; 0; 0; 1; 1; 2; 3]%nat.
  Let X := mkM 2 [[1; 2]; [3; 0]; [5; 6]].
  Let L : list Z := [2; 0; 1]%Z.
  Example C59_inputs_ex : (has_threads c /\ wf_mat X /\ nonneg L /\ zsum L = Z.of_nat (m_len X))%Z.
  Proof. repeat split; try discriminate; repeat constructor; discriminate. Qed.
  Example C59_gather_ex : cu_gather_add c X 2 [[0; 2]; [1; 1]; [2; 0]; [0; 1]; [1; 0]]%Z = Ok (mkM 2 [[6; 8]; [6; 0]; [6; 8]; [4; 2]; [4; 2]]) /\
    cu_gather_add c X 1 [[3]]%Z = Err IndexError.
  Proof. split; vm_compute; reflexivity. Qed.
  Example C59_sum_ex : cu_reduce_sum c X L = Ok (mkM 2 [[4; 2]; [0; 0]; [5; 6]]) /\ cu_reduce_sum c X [2; 2]%Z = Err IndexError /\ cu_reduce_sum c X [4; -1]%Z = Err ValueError.
  Proof. repeat split; vm_compute; reflexivity. Qed.
  Example C59_max_ex : cu_reduce_max c (fun _ => (7, 7%Z)) X [2; 1]%Z = Ok (mkM 2 [[3; 2]; [5; 6]], [[1; 0]; [0; 0]]%Z) /\ cu_reduce_max c (fun _ => (7, 7%Z)) X L = Err ValueError.
  Proof. split; vm_compute; reflexivity. Qed.
  Example C59_maxout_ex : cu_maxout c (fun _ => (7, 7%Z)) (mk3 2 1 3 [[1; 4; 4]; [5; 2; 3]]) = Ok (mkM 1 [[4]; [5]], [[1]; [0]]%Z) /\
    cu_backprop_maxout c (mkM 1 [[4]; [5]]) [[1]; [0]]%Z 3 = Ok (mk3 2 1 3 [[0; 4; 0]; [5; 0; 0]]).
  Proof. split; vm_compute; reflexivity. Qed.
  Example C59_back_ex : cu_backprop_reduce_sum c (fun _ => 9) X L = Ok (mkM 2 [[1; 2]; [1; 2]; [5; 6]]) /\
    cu_backprop_reduce_mean c (fun _ => 9) X L = Ok (mkM 2 [[1 # 2; 1]; [1 # 2; 1]; [5; 6]]) /\
    cu_backprop_reduce_max c (mkM 2 [[1; 2]; [3; 4]]) [[1; 0]; [0; 0]]%Z [2; 1]%Z = Ok (mkM 2 [[0; 2]; [1; 0]; [3; 4]]).
  Proof. repeat split; vm_compute; reflexivity. Qed.
  Example C59_seq2col_ex : cu_seq2col c (mkM 1 [[1]; [2]; [3]]) 1 (Some [2; 0; 1]%Z) = Ok (mkM 3 [[0; 1; 2]; [1; 2; 0]; [0; 3; 0]]) /\
    cu_backprop_seq2col c (mkM 3 [[1; 2; 3]; [4; 5; 6]; [7; 8; 9]]) 1 (Some [2; 0; 1]%Z) = Ok (mkM 1 [[6]; [8]; [8]]).
  Proof. split; vm_compute; reflexivity. Qed.
  Example C59_map_ex : cu_map c (fun _ => 9) true (fun x => x * x) [1; 2; 3; 4; 5] = Ok [1; 4; 9; 16; 25] /\
    cu_map2 c (fun _ => 9) false (fun d x => d * x) [1; 2; 3] [4; 5; 6] = Ok [4; 10; 18] /\
    cu_map3 c (fun _ => 9) true (fun d x y => d * x + y) [1; 2; 3] [4; 5; 6] [1; 1; 1] = Ok [5; 11; 19].
  Proof. repeat split; vm_compute; reflexivity. Qed.
  Example C59_pad_ex : cu_pad c (fun _ => 9) [mkM 1 [[1]; [2]; [3]]; mkM 1 [[4]]] 2 = Ok (4%nat, 1%nat, [1; 2; 3; 0; 4; 0; 0; 0]).
  Proof. vm_compute. reflexivity. Qed.
  Example C59_fallback_ex : cupy_reduce_mean true c (mkM 1 [[0]]) [1]%Z = Ok (Some (mkM 1 [[0]])) /\ cupy_reduce_mean false c (mkM 1 [[0]]) [1]%Z = Ok None /\
    op_reduce_mean (mkM 1 [[0]]) [1]%Z = Ok (mkM 1 [[0]]).
  Proof. repeat split; vm_compute; reflexivity. Qed.
End Examples.

(** The number of gradient rows is not checked: with too few, threads read outside the array. Neither is the number
    of pieces of maxout. *)
Theorem C59_unchecked_refuted : exists (c : config) (dY : mat Q) lengths which lengths', has_threads c /\ nonneg lengths /\ ReduceSpec.positive lengths' /\ in_seqs (m_cols dY) which lengths' /\
  forall junk junk', cu_backprop_reduce_sum c junk dY lengths = Err MemFault /\ cu_backprop_reduce_mean c junk dY lengths = Err MemFault /\
  cu_backprop_reduce_max c dY which lengths' = Err MemFault /\
  cu_maxout c junk' (mk3 (T := Q) 1 1 0 [[]]) = Err MemFault /\ op_maxout (T := Q) (mk3 1 1 0 [[]]) = Err ValueError.
Proof. exact reads_outside. Qed.
Print Assumptions C59_unchecked_refuted.
