(** The integers of the CUDA kernels: thinc/backends/_custom_kernels.cu computes loop variables, bounds and offsets as
    [int], of 32 bits, and thinc/backends/_murmur3.cu 170-189 the loop variable. No proofs here.
    An iteration of a kernel is that of CudaModel, after a look at the list of the [int]s it computes: if one is out of range
    the behaviour is undefined, here [OverflowError]. Comparisons, [++], [max] and [min] cannot leave the range; adding to a
    pointer and indexing it are done in 64 bits, and so is all but the loop variable of the hash kernel. Sizes are passed from
    Python as they are: each of them is assumed to fit. *)
From Verif Require Export CudaModel.
Local Open Scope Z_scope.

Definition fits (z : Z) : bool := (- 2 ^ 31 <=? z) && (z <? 2 ^ 31).

Section Machine32.
  Context {V S : Type}.
  (** [for (int b = _loop_start; b < N; b += _loop_stride)]: the last addition is made too *)
  Fixpoint grid_for32 (fuel b stride N : nat) (ints : nat -> S -> list Z) (body : nat -> S -> result (S * list (instr V))) (s : S) : result (list (instr V)) :=
    if (b <? N)%nat then
      match fuel with
      | O => Err OutOfFuel
      | Datatypes.S fuel' =>
        if forallb fits (ints b s) then
          let* p := body b s in
          if fits (Z.of_nat b + Z.of_nat stride) then
            let* rest := grid_for32 fuel' (b + stride) stride N ints body (fst p) in
            Ok (snd p ++ rest)%list
          else Err OverflowError
        else Err OverflowError
      end
    else Ok [].
  (** [_loop_start] and [_loop_stride] of every thread, and the bound of the loop *)
  Definition launch32 (c : config) (N : nat) (ints : nat -> S -> list Z) (body : nat -> S -> result (S * list (instr V))) (s : S) (m : list V) : result (list V) :=
    let G := num_blocks c in
    let D := threads_per_block c in
    if (G * D =? 0)%nat then Err RuntimeError
    else if negb (fits (Z.of_nat N) && fits (Z.of_nat (D * G))) then Err OverflowError
    else
      let* codes := mapM (fun start => if fits (Z.of_nat start) then grid_for32 N start (D * G) N ints body s else Err OverflowError) (loop_starts G D) in
      run_threads (sched c) m codes.
End Machine32.

Definition each (n : Z) (f : Z -> list Z) : list Z := flat_map (fun i => f (Z.of_nat i)) (seq 0 (Z.to_nat n)).
Definition no_state (ints : nat -> list Z) : nat -> unit -> list Z := fun b _ => ints b.

(** _murmur3.cu 178-188; _custom_kernels.cu 169-251 and 391-559: the loop variable is the only index *)
Definition ints_map (i : nat) : list Z := [].
(** 32-41 [gather_add] *)
Definition ints_gather_add (indices : list Z) (O K b : nat) : list Z :=
  let B := Z.of_nat b in
  each (Z.of_nat K) (fun k => [B * Z.of_nat K; B * Z.of_nat K + k; nth (Z.to_nat (B * Z.of_nat K + k)) indices 0 * Z.of_nat O; B * Z.of_nat O]).
(** 92-97, 347-352, 573-577, 600-604 and 633-637: the search for the sequence of [t] *)
Fixpoint ints_search (t : Z) (rest : list Z) (seq_start : Z) : list Z :=
  match rest with
  | [] => []
  | len :: rest => (seq_start + len) :: if t <? seq_start + len then [] else ints_search t rest (seq_start + len)
  end.
Definition length_at (c : cursor) : Z := nth 0 (c_rest c) 0.
(** 82-120 [seq2col] *)
Definition ints_seq2col (nW : Z) (I b : nat) (c : cursor) : list Z :=
  let B := Z.of_nat b in
  let I := Z.of_nat I in
  let nF := nW * 2 + 1 in
  let c' := advance b c in
  let seq_start := c_start c' in
  let seq_end := seq_start + length_at c' in
  let window_start := B - nW in
  let window_end := B + nW + 1 in
  let x_start := Z.max seq_start window_start in
  let x_end := Z.min seq_end window_end in
  let n_elems := x_end - x_start in
  let out_offset := x_start - window_start in
  ([nW * 2; nF] ++ ints_search B (c_rest c) (c_start c) ++ [seq_end; window_start; B + nW; window_end; n_elems; out_offset; n_elems * I] ++
   each (n_elems * I) (fun i => [B * I; B * I * nF; out_offset * I; B * I * nF + out_offset * I; B * I * nF + out_offset * I + i; x_start * I; x_start * I + i]))%list.
(** 127-139 [pad]; [L * stride] is the bound of the loop *)
Definition ints_pad (lengths : list Z) (stride N L i : nat) : list Z :=
  let stride := Z.of_nat stride in
  let L := Z.of_nat L in
  each (Z.of_nat N) (fun j => [nth (Z.to_nat j) lengths 0 * stride; j * L; j * L * stride; j * L * stride + Z.of_nat i]).
(** 146-165 [maxout]; [B * O] is the bound of the loop *)
Definition ints_maxout (P bo : nat) : list Z := [Z.of_nat bo * Z.of_nat P].
(** 264-267: [t] *)
Fixpoint ints_sums (t : Z) (l : list Z) : list Z := match l with [] => [] | x :: l => (t + x) :: ints_sums (t + x) l end.
(** 259-280 [reduce_sum] *)
Definition ints_reduce_sum (lengths : list Z) (O b : nat) : list Z :=
  let O := Z.of_nat O in
  let t := zsum (firstn b lengths) in
  ([Z.of_nat b * O] ++ ints_sums 0 (firstn b lengths) ++ each (nth b lengths 0) (fun i => [t + i; (t + i) * O]))%list.
(** 289-321 [reduce_max] *)
Definition ints_reduce_max (lengths : list Z) (O b : nat) : list Z :=
  (Z.of_nat b * Z.of_nat O) :: map (fun len => len * Z.of_nat O) (firstn b lengths).
(** 337-387 [backprop_seq2col] *)
Definition ints_backprop_seq2col (nW : Z) (I b : nat) (c : cursor) : list Z :=
  let B := Z.of_nat b in
  let I := Z.of_nat I in
  let nF := nW * 2 + 1 in
  let c' := advance b c in
  let seq_start := c_start c' in
  let seq_end := seq_start + length_at c' in
  let window_start := B - nW in
  let window_end := B + nW + 1 in
  let d_seqs_start := Z.max seq_start window_start in
  let d_seqs_end := Z.min seq_end window_end in
  ([nW * 2; nF] ++ ints_search B (c_rest c) (c_start c) ++ [seq_end; window_start; B + nW; window_end] ++
   each (d_seqs_end - d_seqs_start) (fun k =>
     let b_w := d_seqs_start + k in
     let position := 2 * nW - (b_w - window_start) in
     let start := b_w * I * nF + position * I in
     [2 * nW; b_w - window_start; position; b_w * I; b_w * I * nF; position * I; start] ++
     each I (fun i => [B * I; B * I + i; start + i])))%list.
(** 496-507 [backprop_maxout] *)
Definition ints_backprop_maxout (which : list Z) (O P b : nat) : list Z :=
  let B := Z.of_nat b in
  let O := Z.of_nat O in
  let P := Z.of_nat P in
  ([B * O; B * O * P] ++ each O (fun i => [i * P; i * P + nth (Z.to_nat (B * O + i)) which 0]))%list.
(** 565-585 [backprop_reduce_sum] *)
Definition ints_backprop_reduce_sum (O t : nat) (c : cursor) : list Z :=
  let T := Z.of_nat t in
  let O := Z.of_nat O in
  let b := Z.of_nat (c_seq (advance t c)) in
  (ints_search T (c_rest c) (c_start c) ++ each O (fun i => [T * O; T * O + i; b * O; b * O + i]))%list.
(** 592-615 [backprop_reduce_mean], 622-657 [backprop_reduce_max]; only the second computes the difference *)
Definition ints_backprop_reduce_rows (O t : nat) (c : cursor) : list Z :=
  let T := Z.of_nat t in
  let O := Z.of_nat O in
  let c' := advance t c in
  (ints_search T (c_rest c) (c_start c) ++ [T - c_start c'; T * O; Z.of_nat (c_seq c') * O])%list.
