(** Property C81: the 32-bit integers of the CUDA kernels. *)
From Coq Require Import Reals String Lia ZArith QArith Qreduction.
From Verif Require Import Base NumR NumQ CudaModel CudaSpec CudaIntModel CudaIntSpec CudaIntProofs CudaIntKernelProofs CudaIntExactProofs CudaIntWindowProofs CudaIntSeqProofs.
Local Open Scope Z_scope.

(** A launch of a kernel whose threads share no variables is defined exactly if it is with unbounded integers, the loop can count to its end, and every int of every iteration is in range. *)
Theorem C81_exact : forall {V} c N ints (body : nat -> result (list (instr V))) m m',
  N <> O ->
  (launch32 c N (no_state ints) (stateless body) tt m = Ok m' <->
   launch c N (stateless body) tt m = Ok m' /\ countable c N /\ forall b, (b < N)%nat -> Forall int32 (ints b)).
Proof. exact @launch_exact. Qed.
Print Assumptions C81_exact.
Example C81_exact_ex : launch32 (mkC 1 2 []) 3 (no_state (ints_maxout 5)) (stateless (fun b => Ok [Wr b b])) tt [7; 7; 7]%nat = Ok [0; 1; 2]%nat.
Proof. reflexivity. Qed.

(** The elementwise kernels and the hash kernel need no more than the loop. *)
Theorem C81_map : forall {V} c N (body : nat -> result (list (instr V))) m,
  countable c N -> launch32 c N (no_state ints_map) (stateless body) tt m = launch c N (stateless body) tt m.
Proof. exact @map_same. Qed.
Print Assumptions C81_map.
Example C81_map_ex : countable (mkC 128 128 []) 1000.
Proof. unfold countable. replace (Z.of_nat (num_blocks (mkC 128 128 []) * threads_per_block (mkC 128 128 []))) with 16384 by reflexivity. lia. Qed.

(** gather_add: indices, output and table of at most 2^31 numbers each. *)
Theorem C81_gather_add : forall {V} c B O K T indices (body : nat -> result (list (instr V))) m,
  countable c B ->
  Forall (fun i => 0 <= i < Z.of_nat T) indices -> length indices = (B * K)%nat ->
  indexable (Z.of_nat B * Z.of_nat K) -> indexable (Z.of_nat B * Z.of_nat O) -> indexable (Z.of_nat T * Z.of_nat O) ->
  launch32 c B (no_state (ints_gather_add indices O K)) (stateless body) tt m = launch c B (stateless body) tt m.
Proof. exact @gather_add_same. Qed.
Print Assumptions C81_gather_add.
Example C81_gather_add_ex : exists T, Forall (fun i => 0 <= i < Z.of_nat T) [3; 0; 2; 2] /\ length [3; 0; 2; 2] = (2 * 2)%nat /\ indexable (Z.of_nat T * Z.of_nat 300) /\
  ints_gather_add [3; 0; 2; 2] 300 2 1 = [2; 2; 600; 300; 2; 3; 600; 300].
Proof. exists 4%nat. split; [repeat constructor; lia|]. split; [reflexivity|]. split; [unfold indexable; lia | reflexivity]. Qed.
(** It is defined exactly if the indices, the output and the rows of the table that are asked for begin in range. *)
Theorem C81_gather_add_exact : forall {V} c B O K indices (body : nat -> result (list (instr V))) m m',
  (0 < B)%nat -> (0 < K)%nat -> Forall (fun i => 0 <= i) indices -> length indices = (B * K)%nat ->
  (launch32 c B (no_state (ints_gather_add indices O K)) (stateless body) tt m = Ok m' <->
   launch c B (stateless body) tt m = Ok m' /\ countable c B /\ indexable (Z.of_nat B * Z.of_nat K) /\
   (Z.of_nat B - 1) * Z.of_nat O < 2 ^ 31 /\ Forall (fun i => i * Z.of_nat O < 2 ^ 31) indices).
Proof. exact @gather_add_exact. Qed.
Print Assumptions C81_gather_add_exact.
Example C81_gather_add_exact_ex : length [3; 0; 2; 2] = (2 * 2)%nat /\ Forall (fun i => i * Z.of_nat 300 < 2 ^ 31) [3; 0; 2; 2] /\ ~ 8388608 * Z.of_nat 256 < 2 ^ 31.
Proof. split; [reflexivity|]. split; [repeat constructor; lia|lia]. Qed.

(** pad: a padded array of at most 2^31 numbers. *)
Theorem C81_pad : forall {V} c N L stride lengths (body : nat -> result (list (instr V))) m,
  countable c (L * stride) ->
  Forall (fun len => 0 <= len <= Z.of_nat L) lengths -> indexable (Z.of_nat N * Z.of_nat L * Z.of_nat stride) ->
  launch32 c (L * stride) (no_state (ints_pad lengths stride N L)) (stateless body) tt m = launch c (L * stride) (stateless body) tt m.
Proof. exact @pad_same. Qed.
Print Assumptions C81_pad.
Example C81_pad_ex : Forall (fun len => 0 <= len <= Z.of_nat 4) [3; 4] /\ ints_pad [3; 4] 2 2 4 5 = [6; 0; 0; 5; 8; 4; 8; 13].
Proof. split; [repeat constructor; lia | reflexivity]. Qed.

(** It is defined exactly if the whole padded array can be indexed. *)
Theorem C81_pad_exact : forall {V} c N L stride lengths (body : nat -> result (list (instr V))) m m',
  (0 < N)%nat -> (0 < L)%nat -> (0 < stride)%nat -> Forall (fun len => 0 <= len <= Z.of_nat L) lengths ->
  (launch32 c (L * stride) (no_state (ints_pad lengths stride N L)) (stateless body) tt m = Ok m' <->
   launch c (L * stride) (stateless body) tt m = Ok m' /\ countable c (L * stride) /\ indexable (Z.of_nat N * Z.of_nat L * Z.of_nat stride)).
Proof. exact @pad_exact. Qed.
Print Assumptions C81_pad_exact.
Example C81_pad_exact_ex : Forall (fun len => 0 <= len <= Z.of_nat 4) [3; 4] /\ indexable (Z.of_nat 2 * Z.of_nat 4 * Z.of_nat 2).
Proof. split; [repeat constructor; lia | unfold indexable; lia]. Qed.

(** maxout is defined exactly if the start of its last window is in range. *)
Theorem C81_maxout : forall {V} c N P (body : nat -> result (list (instr V))) m m',
  N <> O -> (0 < P)%nat ->
  (launch32 c N (no_state (ints_maxout P)) (stateless body) tt m = Ok m' <->
   launch c N (stateless body) tt m = Ok m' /\ countable c N /\ (Z.of_nat N - 1) * Z.of_nat P < 2 ^ 31).
Proof. exact @maxout_exact. Qed.
Print Assumptions C81_maxout.
Example C81_maxout_ex : (Z.of_nat 1000 - 1) * Z.of_nat 3 < 2 ^ 31 /\ ints_maxout 3 999 = [2997].
Proof. split; [lia | reflexivity]. Qed.

(** reduce_sum (and reduce_mean): inputs and outputs of at most 2^31 numbers. *)
Theorem C81_reduce_sum : forall {V} c O lengths (body : nat -> result (list (instr V))) m,
  countable c (length lengths) -> Forall (fun x => 0 <= x) lengths ->
  zsum lengths < 2 ^ 31 -> indexable (zsum lengths * Z.of_nat O) -> indexable (Z.of_nat (length lengths) * Z.of_nat O) ->
  launch32 c (length lengths) (no_state (ints_reduce_sum lengths O)) (stateless body) tt m = launch c (length lengths) (stateless body) tt m.
Proof. exact @reduce_sum_same. Qed.
Print Assumptions C81_reduce_sum.
Example C81_reduce_sum_ex : ints_reduce_sum [2; 0; 3] 10 2 = [20; 2; 2; 2; 20; 3; 30; 4; 40].
Proof. reflexivity. Qed.
(** It is defined exactly if the rows of the input and the output, and the starts of the sequences, are in range. *)
Theorem C81_reduce_sum_exact : forall {V} c O lengths (body : nat -> result (list (instr V))) m m',
  lengths <> [] -> Forall (fun x => 0 <= x) lengths ->
  (launch32 c (length lengths) (no_state (ints_reduce_sum lengths O)) (stateless body) tt m = Ok m' <->
   launch c (length lengths) (stateless body) tt m = Ok m' /\ countable c (length lengths) /\
   (Z.of_nat (length lengths) - 1) * Z.of_nat O < 2 ^ 31 /\ zsum (firstn (length lengths - 1) lengths) < 2 ^ 31 /\
   indexable (zsum lengths) /\ (0 < zsum lengths -> (zsum lengths - 1) * Z.of_nat O < 2 ^ 31)).
Proof. exact @reduce_sum_exact. Qed.
Print Assumptions C81_reduce_sum_exact.
Example C81_reduce_sum_exact_ex : [2; 0; 3] <> [] /\ (zsum [2; 0; 3] - 1) * Z.of_nat 10 < 2 ^ 31 /\ ~ (zsum [8388608; 1] - 1) * Z.of_nat 256 < 2 ^ 31.
Proof. split; [discriminate|]. split; [cbn; lia|cbn; lia]. Qed.

(** reduce_max: an input of at most 2^31 numbers. *)
Theorem C81_reduce_max : forall {V} c O lengths (body : nat -> result (list (instr V))) m,
  countable c (length lengths) -> Forall (fun x => 0 < x) lengths ->
  indexable (zsum lengths * Z.of_nat O) ->
  launch32 c (length lengths) (no_state (ints_reduce_max lengths O)) (stateless body) tt m = launch c (length lengths) (stateless body) tt m.
Proof. exact @reduce_max_same. Qed.
Print Assumptions C81_reduce_max.
Example C81_reduce_max_ex : ints_reduce_max [2; 1; 3] 10 2 = [20; 20; 10].
Proof. reflexivity. Qed.
(** It is defined exactly if the output and each sequence but the last are in range: the kernel moves a pointer from sequence to sequence, so the size of the whole input does not matter. *)
Theorem C81_reduce_max_exact : forall {V} c O lengths (body : nat -> result (list (instr V))) m m',
  lengths <> [] -> Forall (fun x => 0 < x) lengths ->
  (launch32 c (length lengths) (no_state (ints_reduce_max lengths O)) (stateless body) tt m = Ok m' <->
   launch c (length lengths) (stateless body) tt m = Ok m' /\ countable c (length lengths) /\
   (Z.of_nat (length lengths) - 1) * Z.of_nat O < 2 ^ 31 /\
   forall i, (S i < length lengths)%nat -> nth i lengths 0 * Z.of_nat O < 2 ^ 31).
Proof. exact @reduce_max_exact. Qed.
Print Assumptions C81_reduce_max_exact.
Example C81_reduce_max_exact_ex : [8388607; 8388607] <> [] /\ 8388607 * Z.of_nat 256 < 2 ^ 31 /\ ~ indexable (zsum [8388607; 8388607] * Z.of_nat 256).
Proof. split; [discriminate|]. split; [lia|]. unfold indexable. cbn. lia. Qed.

(** backprop_maxout: a gradient of at most 2^31 numbers. *)
Theorem C81_backprop_maxout : forall {V} c B O P which (body : nat -> result (list (instr V))) m,
  countable c B ->
  Forall (fun w => 0 <= w < Z.of_nat P) which -> length which = (B * O)%nat -> indexable (Z.of_nat B * Z.of_nat O * Z.of_nat P) -> (0 < P)%nat ->
  launch32 c B (no_state (ints_backprop_maxout which O P)) (stateless body) tt m = launch c B (stateless body) tt m.
Proof. exact @backprop_maxout_same. Qed.
Print Assumptions C81_backprop_maxout.
Example C81_backprop_maxout_ex : ints_backprop_maxout [0; 2; 1; 1] 2 3 1 = [2; 6; 0; 1; 3; 4].
Proof. reflexivity. Qed.
(** It is defined exactly if the last row of the input begins in range and the offsets within a row are. *)
Theorem C81_backprop_maxout_exact : forall {V} c B O P which (body : nat -> result (list (instr V))) m m',
  (0 < B)%nat -> (0 < O)%nat -> Forall (fun w => 0 <= w < Z.of_nat P) which -> length which = (B * O)%nat ->
  (launch32 c B (no_state (ints_backprop_maxout which O P)) (stateless body) tt m = Ok m' <->
   launch c B (stateless body) tt m = Ok m' /\ countable c B /\ (Z.of_nat B - 1) * Z.of_nat O * Z.of_nat P < 2 ^ 31 /\
   forall b i, (b < B)%nat -> (i < O)%nat -> Z.of_nat i * Z.of_nat P + nth (b * O + i) which 0 < 2 ^ 31).
Proof. exact @backprop_maxout_exact. Qed.
Print Assumptions C81_backprop_maxout_exact.
Example C81_backprop_maxout_exact_ex : Forall (fun w => 0 <= w < Z.of_nat 3) [0; 2; 1; 1] /\ (Z.of_nat 2 - 1) * Z.of_nat 2 * Z.of_nat 3 < 2 ^ 31.
Proof. split; [repeat constructor; lia|lia]. Qed.

(** seq2col: an output of less than 2^31 numbers. *)
Theorem C81_seq2col : forall {T : Type} c X nW I lengths m,
  countable c (Z.to_nat (zsum lengths)) -> Forall (fun x => 0 <= x) lengths -> 0 <= nW -> (0 < I)%nat ->
  zsum lengths * Z.of_nat I * (nW * 2 + 1) < 2 ^ 31 ->
  launch32 c (Z.to_nat (zsum lengths)) (ints_seq2col nW I) (k_seq2col (T := T) X nW I) (mkCur lengths 0 0) m = launch c (Z.to_nat (zsum lengths)) (k_seq2col X nW I) (mkCur lengths 0 0) m.
Proof. exact @seq2col_same. Qed.
Print Assumptions C81_seq2col.
Example C81_seq2col_ex : launch32 (mkC 1 2 []) 3 (ints_seq2col 1 1) (k_seq2col [1; 2; 3]%Q 1 1) (mkCur [2; 1] 0 0) (repeat 0%Q 9) = Ok [0; 1; 2; 1; 2; 0; 0; 3; 0]%Q.
Proof. vm_compute. reflexivity. Qed.

(** backprop_seq2col: an input of less than 2^31 numbers. *)
Theorem C81_backprop_seq2col : forall {T : Type} `{Num T} c X nW I lengths m,
  countable c (Z.to_nat (zsum lengths)) -> Forall (fun x => 0 <= x) lengths -> 0 <= nW -> (0 < I)%nat ->
  zsum lengths * Z.of_nat I * (nW * 2 + 1) < 2 ^ 31 ->
  launch32 c (Z.to_nat (zsum lengths)) (ints_backprop_seq2col nW I) (k_backprop_seq2col (T := T) X nW I) (mkCur lengths 0 0) m = launch c (Z.to_nat (zsum lengths)) (k_backprop_seq2col X nW I) (mkCur lengths 0 0) m.
Proof. exact @backprop_seq2col_same. Qed.
Print Assumptions C81_backprop_seq2col.
Example C81_backprop_seq2col_ex : launch32 (mkC 1 2 []) 2 (ints_backprop_seq2col 1 1) (k_backprop_seq2col [1; 2; 3; 4; 5; 6]%Q 1 1) (mkCur [2] 0 0) (repeat 0%Q 2) = Ok [6; 8]%Q.
Proof. vm_compute. reflexivity. Qed.

(** backprop_reduce_sum: inputs and outputs of at most 2^31 numbers. *)
Theorem C81_backprop_reduce_sum : forall {T : Type} c f dY O lengths m,
  countable c (Z.to_nat (zsum lengths)) -> Forall (fun x => 0 <= x) lengths ->
  indexable (zsum lengths * Z.of_nat O) -> indexable (Z.of_nat (length lengths) * Z.of_nat O) ->
  launch32 c (Z.to_nat (zsum lengths)) (ints_backprop_reduce_sum O) (k_backprop_reduce (T := T) f dY O) (mkCur lengths 0 0) m =
  launch c (Z.to_nat (zsum lengths)) (k_backprop_reduce f dY O) (mkCur lengths 0 0) m.
Proof. exact @backprop_reduce_sum_same. Qed.
Print Assumptions C81_backprop_reduce_sum.
Example C81_backprop_reduce_sum_ex : ints_backprop_reduce_sum 2 2 (mkCur [2; 4] 0 0) = [2; 6; 4; 4; 2; 2; 4; 5; 2; 3].
Proof. reflexivity. Qed.

(** backprop_reduce_mean: the same. *)
Theorem C81_backprop_reduce_mean : forall {T : Type} c f dY O lengths m,
  countable c (Z.to_nat (zsum lengths)) -> Forall (fun x => 0 <= x) lengths ->
  indexable (zsum lengths * Z.of_nat O) -> indexable (Z.of_nat (length lengths) * Z.of_nat O) ->
  launch32 c (Z.to_nat (zsum lengths)) (ints_backprop_reduce_rows O) (k_backprop_reduce (T := T) f dY O) (mkCur lengths 0 0) m =
  launch c (Z.to_nat (zsum lengths)) (k_backprop_reduce f dY O) (mkCur lengths 0 0) m.
Proof. exact @backprop_reduce_mean_same. Qed.
Print Assumptions C81_backprop_reduce_mean.

(** backprop_reduce_max: the same. *)
Theorem C81_backprop_reduce_max : forall {T : Type} c dY which O lengths m,
  countable c (Z.to_nat (zsum lengths)) -> Forall (fun x => 0 <= x) lengths ->
  indexable (zsum lengths * Z.of_nat O) -> indexable (Z.of_nat (length lengths) * Z.of_nat O) ->
  launch32 c (Z.to_nat (zsum lengths)) (ints_backprop_reduce_rows O) (k_backprop_reduce_max (T := T) dY which O) (mkCur lengths 0 0) m =
  launch c (Z.to_nat (zsum lengths)) (k_backprop_reduce_max dY which O) (mkCur lengths 0 0) m.
Proof. exact @backprop_reduce_max_same. Qed.
Print Assumptions C81_backprop_reduce_max.
Example C81_backprop_reduce_max_ex : ints_backprop_reduce_rows 3 2 (mkCur [2; 4] 0 0) = [2; 6; 0; 6; 3] /\ Forall (fun x => 0 <= x) [2; 4].
Proof. split; [reflexivity | repeat constructor; lia]. Qed.

(** Sizes and grid in range are not enough: the last addition to the loop variable can overflow, whatever the kernel does. *)
Theorem C81_loop_refuted : exists N c, Z.of_nat N < 2 ^ 31 /\ has_threads c /\ Z.of_nat (num_blocks c * threads_per_block c) < 2 ^ 31 /\
  forall V ints (body : nat -> result (list (instr V))) m m', launch32 c N (no_state ints) (stateless body) tt m <> Ok m'.
Proof. exact @loop_overflows. Qed.
Print Assumptions C81_loop_refuted.

(** maxout with sizes in range and a countable loop can still be undefined. *)
Theorem C81_maxout_refuted : exists N P c, Z.of_nat N < 2 ^ 31 /\ Z.of_nat P < 2 ^ 31 /\ has_threads c /\ countable c N /\
  forall V (body : nat -> result (list (instr V))) m m', launch32 c N (no_state (ints_maxout P)) (stateless body) tt m <> Ok m'.
Proof. exact @maxout_overflows. Qed.
Print Assumptions C81_maxout_refuted.

(** gather_add is undefined if a row of the table begins beyond 2^31 numbers. *)
Theorem C81_gather_add_refuted : forall c B O K indices b k, (b < B)%nat -> (k < K)%nat -> 2 ^ 31 <= nth (b * K + k) indices 0 * Z.of_nat O ->
  forall V (body : nat -> result (list (instr V))) m m', launch32 c B (no_state (ints_gather_add indices O K)) (stateless body) tt m <> Ok m'.
Proof. exact @gather_add_overflows. Qed.
Print Assumptions C81_gather_add_refuted.
Example C81_gather_add_refuted_ex : 2 ^ 31 <= nth (0 * 1 + 0) [8388608] 0 * Z.of_nat 256.
Proof. cbn. lia. Qed.

(** The kernels that go from row to row are undefined if the last row begins, for the sum ends, beyond 2^31 numbers, whatever
    the lengths are. *)
Theorem C81_backprop_reduce_rows_refuted : forall V c N O (body : nat -> cursor -> result (cursor * list (instr V))) s m m',
  2 ^ 31 <= (Z.of_nat N - 1) * Z.of_nat O -> launch32 c N (ints_backprop_reduce_rows O) body s m <> Ok m'.
Proof. exact rows_overflow. Qed.
Print Assumptions C81_backprop_reduce_rows_refuted.
Example C81_backprop_reduce_rows_refuted_ex : 2 ^ 31 <= (8388609 - 1) * Z.of_nat 256.
Proof. lia. Qed.
Theorem C81_backprop_reduce_sum_refuted : forall V c N O (body : nat -> cursor -> result (cursor * list (instr V))) s m m', (0 < O)%nat ->
  ~ indexable (Z.of_nat N * Z.of_nat O) -> launch32 c N (ints_backprop_reduce_sum O) body s m <> Ok m'.
Proof. exact sum_rows_overflow. Qed.
Print Assumptions C81_backprop_reduce_sum_refuted.
Example C81_backprop_reduce_sum_refuted_ex : ~ indexable (8388609 * Z.of_nat 256).
Proof. unfold indexable. lia. Qed.

(** seq2col and its gradient are undefined if the last row of windows begins beyond 2^31 numbers, however short the sequences
    are. *)
Theorem C81_seq2col_refuted : forall {T : Type} c X nW I lengths m m', Forall (fun x => 0 <= x) lengths -> 0 <= nW -> (0 < I)%nat ->
  2 ^ 31 <= (zsum lengths - 1) * Z.of_nat I * (nW * 2 + 1) ->
  launch32 c (Z.to_nat (zsum lengths)) (ints_seq2col nW I) (k_seq2col (T := T) X nW I) (mkCur lengths 0 0) m <> Ok m'.
Proof. exact @seq2col_overflow. Qed.
Print Assumptions C81_seq2col_refuted.
Example C81_seq2col_refuted_ex : 2 ^ 31 <= (zsum [3000000; 1] - 1) * Z.of_nat 256 * (1 * 2 + 1).
Proof. cbn [zsum fold_right]. lia. Qed.
Theorem C81_backprop_seq2col_refuted : forall {T : Type} `{Num T} c X nW I lengths m m', Forall (fun x => 0 <= x) lengths -> 0 <= nW -> (0 < I)%nat ->
  2 ^ 31 <= (zsum lengths - 1) * Z.of_nat I * (nW * 2 + 1) ->
  launch32 c (Z.to_nat (zsum lengths)) (ints_backprop_seq2col nW I) (k_backprop_seq2col (T := T) X nW I) (mkCur lengths 0 0) m <> Ok m'.
Proof. exact @backprop_seq2col_overflow. Qed.
Print Assumptions C81_backprop_seq2col_refuted.
