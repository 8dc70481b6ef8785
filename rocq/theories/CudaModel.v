(** CUDA kernels: thinc/backends/_custom_kernels.cu, thinc/backends/_custom_kernels.py 175-883 and
    thinc/backends/cupy_ops.py 40-324. No proofs here.
    A launch runs one thread per position of the grid. Threads are interleaved arbitrarily, one memory access at
    a time. Arrays that a kernel only reads do not change during the launch, so a thread's reads of them are made
    when its list of accesses to the written array is computed; an access outside any array is [MemFault].
    32-bit overflow (see CudaIntModel), dtypes, NaN and the rounding of the [double] scalars are not modelled; [nltb] is the order.
    Two written arrays of the same shape ([best]/[which], [maxes]/[which]) are one array of pairs. *)
From Verif Require Export KernelModel.

Section Machine.
  Context {V : Type}.

  (** An access of a thread to the array that is written: [out[a] = v], or [out[a] = f(out[a])], which is a load
      and later a store. *)
  Inductive instr := Wr (a : nat) (v : V) | Rmw (a : nat) (f : V -> V).
  (** The value loaded by an [Rmw] whose store has not been made, and the accesses still to make. *)
  Record thread := mkT { pending : option V; code : list instr }.

  (** One memory access of a thread. *)
  Definition step (m : list V) (t : thread) : result (list V * thread) :=
    match code t with
    | [] => Ok (m, t)
    | Wr a v :: c => if (a <? length m)%nat then Ok (set_nth a v m, mkT None c) else Err MemFault
    | Rmw a f :: c =>
      match nth_error m a with
      | None => Err MemFault
      | Some x =>
        match pending t with
        | None => Ok (m, mkT (Some x) (code t))
        | Some y => Ok (set_nth a (f y) m, mkT None c)
        end
      end
    end.
  (** The scheduler names the thread that makes the next access; names of other or finished threads are skipped. *)
  Fixpoint run (sched : list nat) (m : list V) (ts : list thread) : result (list V * list thread) :=
    match sched with
    | [] => Ok (m, ts)
    | i :: sched' =>
      match nth_error ts i with
      | None => run sched' m ts
      | Some t => let* p := step m t in run sched' (fst p) (set_nth i (snd p) ts)
      end
    end.
  (** What is left when the schedule ends is run thread by thread, so that every launch completes. *)
  Fixpoint finish (m : list V) (p : option V) (c : list instr) : result (list V) :=
    match c with
    | [] => Ok m
    | Wr a v :: c' => if (a <? length m)%nat then finish (set_nth a v m) None c' else Err MemFault
    | Rmw a f :: c' =>
      match nth_error m a with
      | None => Err MemFault
      | Some x => finish (set_nth a (f (match p with Some y => y | None => x end)) m) None c'
      end
    end.
  Fixpoint drain (m : list V) (ts : list thread) : result (list V) :=
    match ts with
    | [] => Ok m
    | t :: ts' => let* m' := finish m (pending t) (code t) in drain m' ts'
    end.
  Definition run_threads (sched : list nat) (m : list V) (codes : list (list instr)) : result (list V) :=
    let* p := run sched m (map (mkT None) codes) in drain (fst p) (snd p).

  (** The grid of a launch and the order in which its threads run. *)
  Record config := mkC { num_blocks : nat; threads_per_block : nat; sched : list nat }.
  (** [blockIdx.x * blockDim.x + threadIdx.x] of every thread *)
  Definition loop_starts (G D : nat) : list nat := flat_map (fun bi => map (fun ti => bi * D + ti)%nat (seq 0 D)) (seq 0 G).
  (** [for (int b = _loop_start; b < N; b += _loop_stride)], with the variables that survive an iteration *)
  Fixpoint grid_for {S : Type} (fuel b stride N : nat) (body : nat -> S -> result (S * list instr)) (s : S) : result (list instr) :=
    if (b <? N)%nat then
      match fuel with
      | O => Err OutOfFuel
      | S fuel' =>
        let* p := body b s in
        let* rest := grid_for fuel' (b + stride) stride N body (fst p) in
        Ok (snd p ++ rest)
      end
    else Ok [].
  (** [kernel((num_blocks,), (threads_per_block,), ...)]; an empty grid is refused by the driver *)
  Definition launch {S : Type} (c : config) (N : nat) (body : nat -> S -> result (S * list instr)) (s : S) (m : list V) : result (list V) :=
    let G := num_blocks c in
    let D := threads_per_block c in
    if (G * D =? 0)%nat then Err RuntimeError
    else
      let* codes := mapM (fun start => grid_for N start (D * G) N body s) (loop_starts G D) in
      run_threads (sched c) m codes.
End Machine.
Arguments instr : clear implicits. Arguments thread : clear implicits.

(** [p[i]] of an array that is only read *)
Definition addr (i : Z) : result nat := if (i <? 0)%Z then Err MemFault else Ok (Z.to_nat i).
Definition load {A} (p : list A) (i : nat) : result A := match nth_error p i with Some x => Ok x | None => Err MemFault end.
Definition loadz {A} (p : list A) (i : Z) : result A := let* a := addr i in load p a.
(** [for (int i = 0; i < n; ++i)] around accesses *)
Definition for_n {A} (n : nat) (body : nat -> result (list A)) : result (list A) :=
  let* l := mapM body (seq 0 n) in Ok (concat l).
Definition stateless {V} (body : nat -> result (list (instr V))) : nat -> unit -> result (unit * list (instr V)) :=
  fun b _ => let* l := body b in Ok (tt, l).
(** _custom_kernels.cu 92-97, 347-352 and (with the negated condition) 573-577, 600-604, 633-637: the search for the sequence of [t]
    goes on from [seq_start] with the lengths that are left *)
Record cursor := mkCur { c_rest : list Z; c_seq : nat; c_start : Z }.
Fixpoint find_seq (t : Z) (rest : list Z) (seq : nat) (seq_start : Z) : cursor :=
  match rest with
  | [] => mkCur [] seq seq_start
  | len :: rest' => if (t <? seq_start + len)%Z then mkCur rest seq seq_start else find_seq t rest' (S seq) (seq_start + len)
  end.
Definition advance (t : nat) (c : cursor) : cursor := find_seq (Z.of_nat t) (c_rest c) (c_seq c) (c_start c).
(** [lengths[seq]] *)
Definition cur_length (c : cursor) : result Z := load (c_rest c) 0.

Section Kernels.
  Context {T : Type} `{Num T}.
  Local Open Scope num_scope.

  (** ** _custom_kernels.cu *)

  (** 25-42 [gather_add] *)
  Definition k_gather_add (table : list T) (indices : list Z) (O K : nat) (b : nat) : result (list (instr T)) :=
    for_n K (fun k =>
      let* idx := load indices (b * K + k) in
      for_n O (fun o =>
        let* x := loadz table (idx * Z.of_nat O + Z.of_nat o) in
        Ok [Rmw (b * O + o)%nat (fun y => y + x)])).
  (** 45-121 [seq2col] *)
  Definition k_seq2col (X : list T) (nW : Z) (I : nat) (b : nat) (c : cursor) : result (cursor * list (instr T)) :=
    let nF := (nW * 2 + 1)%Z in
    let c := advance b c in
    let* len := cur_length c in
    let seq_start := c_start c in
    let seq_end := (seq_start + len)%Z in
    let window_start := (Z.of_nat b - nW)%Z in
    let window_end := (Z.of_nat b + nW + 1)%Z in
    let x_start := Z.max seq_start window_start in
    let x_end := Z.min seq_end window_end in
    let n_elems := (x_end - x_start)%Z in
    let out_offset := (x_start - window_start)%Z in
    let* l := for_n (Z.to_nat (n_elems * Z.of_nat I)) (fun i =>
      let* a := addr (Z.of_nat b * Z.of_nat I * nF + out_offset * Z.of_nat I + Z.of_nat i) in
      let* x := loadz X (x_start * Z.of_nat I + Z.of_nat i) in
      Ok [Wr a x]) in
    Ok (c, l).
  (** 124-140 [pad] *)
  Definition k_pad (seqs : list (list T)) (lengths : list Z) (stride N L : nat) (i : nat) : result (list (instr T)) :=
    for_n N (fun j =>
      let* seq := load seqs j in
      let* len := load lengths j in
      if (Z.of_nat i <? len * Z.of_nat stride)%Z
      then let* x := load seq i in Ok [Wr (j * L * stride + i)%nat x]
      else Ok [Wr (j * L * stride + i)%nat (nZ 0)]).
  (** 155-161: the candidates [p = 1 .. P-1] *)
  Fixpoint k_best (cands : list T) (at_ p n : nat) (best_val : T) (best_idx : Z) : result (T * Z) :=
    match n with
    | O => Ok (best_val, best_idx)
    | S n' =>
      let* x := load cands (at_ + p) in
      if best_val <? x then k_best cands at_ (S p) n' x (Z.of_nat p) else k_best cands at_ (S p) n' best_val best_idx
    end.
  (** 143-166 [maxout] *)
  Definition k_maxout (cands : list T) (P : nat) (bo : nat) : result (list (instr (T * Z))) :=
    let* x := load cands (bo * P) in
    let* best := k_best cands (bo * P) 1 (P - 1) x 0 in
    Ok [Wr bo best].
  (** 254-281 [reduce_sum]: the search for the first row starts from 0 for every sequence *)
  Definition k_first_row (lengths : list Z) (b : nat) : result Z :=
    let* ls := mapM (load lengths) (seq 0 b) in Ok (fold_left Z.add ls 0%Z).
  Definition k_reduce_sum (X : list T) (lengths : list Z) (O : nat) (b : nat) : result (list (instr T)) :=
    let* t := k_first_row lengths b in
    let* length := load lengths b in
    for_n (Z.to_nat length) (fun i =>
      for_n O (fun j =>
        let* x := loadz X ((t + Z.of_nat i) * Z.of_nat O + Z.of_nat j) in
        Ok [Rmw (b * O + j)%nat (fun y => y + x)])).
  (** 284-322 [reduce_max] *)
  Definition k_reduce_max (X : list T) (lengths : list Z) (O : nat) (b : nat) : result (list (instr (T * Z))) :=
    let* t := k_first_row lengths b in
    let* first := for_n O (fun i =>
      let* x := loadz X (t * Z.of_nat O + Z.of_nat i) in
      Ok [Wr (b * O + i)%nat (x, 0%Z)]) in
    let* length := load lengths b in
    let* rest := for_n (Z.to_nat length - 1) (fun i =>
      for_n O (fun j =>
        let* x := loadz X ((t + Z.of_nat (S i)) * Z.of_nat O + Z.of_nat j) in
        Ok [Rmw (b * O + j)%nat (fun y => if fst y <? x then (x, Z.of_nat (S i)) else y)])) in
    Ok (first ++ rest).
  (** 325-388 [backprop_seq2col] *)
  Definition k_backprop_seq2col (d_cols : list T) (nW : Z) (I : nat) (b : nat) (c : cursor) : result (cursor * list (instr T)) :=
    let nF := (nW * 2 + 1)%Z in
    let c := advance b c in
    let* len := cur_length c in
    let seq_start := c_start c in
    let seq_end := (seq_start + len)%Z in
    let window_start := (Z.of_nat b - nW)%Z in
    let window_end := (Z.of_nat b + nW + 1)%Z in
    let d_seqs_start := Z.max seq_start window_start in
    let d_seqs_end := Z.min seq_end window_end in
    let* l := for_n (Z.to_nat (d_seqs_end - d_seqs_start)) (fun k =>
      let b_w := (d_seqs_start + Z.of_nat k)%Z in
      let position := (2 * nW - (b_w - window_start))%Z in
      let start := (b_w * Z.of_nat I * nF + position * Z.of_nat I)%Z in
      for_n I (fun i =>
        let* x := loadz d_cols (start + Z.of_nat i) in
        Ok [Rmw (b * I + i)%nat (fun y => y + x)])) in
    Ok (c, l).
  (** 493-508 [backprop_maxout] *)
  Definition k_backprop_maxout (dY : list T) (which : list Z) (O P : nat) (b : nat) : result (list (instr T)) :=
    for_n O (fun i =>
      let* w := load which (b * O + i) in
      let* a := addr (Z.of_nat (b * O * P + i * P) + w) in
      let* x := load dY (b * O + i) in
      Ok [Wr a x]).
  (** 562-586 [backprop_reduce_sum], 589-616 [backprop_reduce_mean]: [f] is applied to the length and the gradient *)
  Definition k_backprop_reduce (f : Z -> T -> T) (dY : list T) (O : nat) (t : nat) (c : cursor) : result (cursor * list (instr T)) :=
    let c := advance t c in
    let* len := cur_length c in
    if (len =? 0)%Z then Ok (c, [])
    else
      let* l := for_n O (fun i =>
        let* x := load dY (c_seq c * O + i) in
        Ok [Wr (t * O + i)%nat (f len x)]) in
      Ok (c, l).
  (** 619-658 [backprop_reduce_max] *)
  Definition k_backprop_reduce_max (dY : list T) (which : list Z) (O : nat) (t : nat) (c : cursor) : result (cursor * list (instr T)) :=
    let c := advance t c in
    let* len := cur_length c in
    if (len =? 0)%Z then Ok (c, [])
    else
      let index_of_t := (Z.of_nat t - c_start c)%Z in
      let* l := for_n O (fun i =>
        let* w := load which (c_seq c * O + i) in
        if (w =? index_of_t)%Z
        then let* x := load dY (c_seq c * O + i) in Ok [Wr (t * O + i)%nat x]
        else Ok []) in
      Ok (c, l).
  (** The kernels of the activations (169-251 and 391-559) write [Y[i]] from [X[i]], or [dX[i]] from [dY[i]] and
      the elements [i] of the other arrays: [f i] is the function of element [i]. With [inplace] the array that is
      written is the array that is read. *)
  Definition k_map (f : nat -> T -> result T) (X : list T) (i : nat) : result (list (instr T)) :=
    let* x := load X i in let* y := f i x in Ok [Wr i y].
  Definition k_map_inplace (f : nat -> result (T -> T)) (i : nat) : result (list (instr T)) :=
    let* g := f i in Ok [Rmw i g].

  (** ** _custom_kernels.py. [junk] is the content of an array allocated without zeros (175-179). *)

  Definition flat (X : mat T) : list T := concat (m_rows X).
  (** 835-840 *)
  Definition check_lengths (lengths : list Z) (n_elems : Z) (min_length : Z) : result unit :=
    if negb (forallb (fun n => (min_length <=? n)%Z) lengths) then Err ValueError
    else if negb (zsum lengths =? n_elems)%Z then Err IndexError
    else Ok tt.
  (** 843-847, 861-873 *)
  Definition within_range (l : list Z) (lo hi : Z) : bool := forallb (fun x => (lo <=? x)%Z && (x <? hi)%Z) l.
  (** 850-858 *)
  Definition check_which_maxout (which : list (list Z)) (B I : nat) (P : Z) : result unit :=
    if negb ((length which =? B)%nat && forallb (fun w => (length w =? I)%nat) which) then Err ValueError
    else if negb (within_range (concat which) 0 P) then Err IndexError
    else Ok tt.
  (** 876-883 *)
  Definition check_which_reduce_max (which : list (list Z)) (B O : nat) (lengths : list Z) : result unit :=
    if negb ((length which =? B)%nat && forallb (fun w => (length w =? O)%nat) which) then Err ValueError
    else if negb (forallb (fun p => within_range (fst p) 0 (snd p)) (combine which lengths)) then Err IndexError
    else Ok tt.
  (** 279-306; [K] is the number of columns of the indices *)
  Definition cu_gather_add (c : config) (table : mat T) (K : nat) (indices : list (list Z)) : result (mat T) :=
    if negb (within_range (concat indices) 0 (Z.of_nat (m_len table))) then Err IndexError
    else
      let B := length indices in
      let O := m_cols table in
      let* out := launch c B (stateless (k_gather_add (flat table) (concat indices) O K)) tt (zeros (B * O)) in
      Ok (mkM O (cells_of O B out)).
  (** 339-344 *)
  Definition cu_seq2col_lengths (lengths : option (list Z)) (B : nat) : result (list Z) :=
    match lengths with
    | None => Ok [Z.of_nat B]
    | Some l => let* _ := check_lengths l (Z.of_nat B) 0 in Ok l
    end.
  (** 347-369 *)
  Definition cu_seq2col (c : config) (X : mat T) (nW : Z) (lengths : option (list Z)) : result (mat T) :=
    let B := m_len X in
    let nF := (nW * 2 + 1)%Z in
    let I := m_cols X in
    let* l := cu_seq2col_lengths lengths B in
    if (Z.of_nat I * nF <? 0)%Z then Err ValueError
    else
      let width := Z.to_nat (Z.of_nat I * nF) in
      let out := zeros (B * width) in
      let* out := if negb (B * I =? 0)%nat && negb (length l =? 0)%nat
                  then launch c B (k_seq2col (flat X) nW I) (mkCur l 0 0) out else Ok out in
      Ok (mkM width (cells_of width B out)).
  (** 502-524; [//] rounds down *)
  Definition cu_backprop_seq2col (c : config) (dY : mat T) (nW : Z) (lengths : option (list Z)) : result (mat T) :=
    let B := m_len dY in
    let nF := (nW * 2 + 1)%Z in
    let I := (Z.of_nat (m_cols dY) / nF)%Z in
    let* l := cu_seq2col_lengths lengths B in
    if (I <? 0)%Z then Err ValueError
    else
      let I := Z.to_nat I in
      let out := zeros (B * I) in
      let* out := if negb (B * m_cols dY =? 0)%nat && negb (length l =? 0)%nat
                  then launch c B (k_backprop_seq2col (flat dY) nW I) (mkCur l 0 0) out else Ok out in
      Ok (mkM I (cells_of I B out)).
  (** 372-390 *)
  Definition cu_maxout (c : config) (junk : nat -> T * Z) (X : arr3 T) : result (mat T * list (list Z)) :=
    let n := (t_b X * t_o X)%nat in
    let* out := launch c n (stateless (k_maxout (concat (t_cells X)) (t_p X))) tt (map junk (seq 0 n)) in
    Ok (mkM (t_o X) (cells_of (t_o X) (t_b X) (map fst out)), cells_of (t_o X) (t_b X) (map snd out)).
  (** 661-680 *)
  Definition cu_backprop_maxout (c : config) (dY : mat T) (which : list (list Z)) (P : Z) : result (arr3 T) :=
    let B := m_len dY in
    let O := m_cols dY in
    if (P <? 0)%Z then Err ValueError
    else
      let p := Z.to_nat P in
      let* _ := check_which_maxout which B O P in
      let* out := launch c B (stateless (k_backprop_maxout (flat dY) (concat which) O p)) tt (zeros (B * O * p)) in
      Ok (mk3 B O p (cells_of p (B * O) out)).
  (** 412-432 *)
  Definition cu_reduce_sum (c : config) (X : mat T) (lengths : list Z) : result (mat T) :=
    let B := length lengths in
    let O := m_cols X in
    let* _ := check_lengths lengths (Z.of_nat (m_len X)) 0 in
    let* out := launch c B (stateless (k_reduce_sum (flat X) lengths O)) tt (zeros (B * O)) in
    Ok (mkM O (cells_of O B out)).
  (** 435-457 *)
  Definition cu_reduce_mean (c : config) (X : mat T) (lengths : list Z) : result (mat T) :=
    let* s := cu_reduce_sum c X lengths in
    Ok (mkM (m_cols s) (map (fun p => map (fun x => x / (nZ (snd p) + nZ 1 / nZ 10000000000)) (fst p)) (combine (m_rows s) lengths))).
  (** 460-482 *)
  Definition cu_reduce_max (c : config) (junk : nat -> T * Z) (X : mat T) (lengths : list Z) : result (mat T * list (list Z)) :=
    let B := length lengths in
    let O := m_cols X in
    let* _ := check_lengths lengths (Z.of_nat (m_len X)) 1 in
    let* out := launch c B (stateless (k_reduce_max (flat X) lengths O)) tt (map junk (seq 0 (B * O))) in
    Ok (mkM O (cells_of O B (map fst out)), cells_of O B (map snd out)).
  (** 705-724, 727-746; [_check_lengths(lengths, lengths.sum())] can only refuse a negative length *)
  Definition cu_backprop_reduce (f : Z -> T -> T) (c : config) (junk : nat -> T) (dY : mat T) (lengths : list Z) : result (mat T) :=
    let T_ := zsum lengths in
    let O := m_cols dY in
    let* _ := check_lengths lengths T_ 0 in
    let t := Z.to_nat T_ in
    let* out := launch c t (k_backprop_reduce f (flat dY) O) (mkCur lengths 0 0) (map junk (seq 0 (t * O))) in
    Ok (mkM O (cells_of O t out)).
  Definition cu_backprop_reduce_sum := cu_backprop_reduce (fun _ d => d).
  Definition cu_backprop_reduce_mean := cu_backprop_reduce (fun len d => d / nZ len).
  (** 749-772 *)
  Definition cu_backprop_reduce_max (c : config) (dY : mat T) (which : list (list Z)) (lengths : list Z) : result (mat T) :=
    let T_ := zsum lengths in
    let O := m_cols dY in
    let* _ := check_lengths lengths T_ 1 in
    let t := Z.to_nat T_ in
    let* _ := check_which_reduce_max which (length lengths) O lengths in
    let* out := launch c t (k_backprop_reduce_max (flat dY) (concat which) O) (mkCur lengths 0 0) (zeros (t * O)) in
    Ok (mkM O (cells_of O t out)).
  (** 189-245 for the sequences of flat rows of [stride] numbers; [max] of no sequences raises. The
      result is the list of the padded sequences. *)
  Definition cu_pad (c : config) (junk : nat -> T) (seqs : list (mat T)) (round_to : Z) : result (nat * nat * list T) :=
    if (round_to <? 1)%Z then Err ValueError
    else
      match seqs with
      | [] => Err ValueError
      | s0 :: _ =>
        let max_seq_len := Z.of_nat (fold_right Nat.max 0%nat (map m_len seqs)) in
        let L := Z.to_nat (max_seq_len + (- max_seq_len) mod round_to)%Z in
        let stride := m_cols s0 in
        let N := length seqs in
        let* out := launch c (L * stride) (stateless (k_pad (map flat seqs) (map (fun s => Z.of_nat (m_len s)) seqs) stride N L)) tt (map junk (seq 0 (N * L * stride))) in
        Ok (L, stride, out)
      end.
  (** 248-276, 309-336, 393-409, 485-499: one array in, one out *)
  Definition cu_map (c : config) (junk : nat -> T) (inplace : bool) (f : T -> T) (X : list T) : result (list T) :=
    if inplace then launch c (length X) (stateless (k_map_inplace (fun _ => Ok f))) tt X
    else launch c (length X) (stateless (k_map (fun _ x => Ok (f x)) X)) tt (map junk (seq 0 (length X))).
  (** 527-658, 683-702: the gradient and the input; arrays of other shapes are refused (818-820; here: of other sizes) *)
  Definition cu_map2 (c : config) (junk : nat -> T) (inplace : bool) (f : T -> T -> T) (dY X : list T) : result (list T) :=
    if negb (length X =? length dY)%nat then Err ValueError
    else if inplace then launch c (length dY) (stateless (k_map_inplace (fun i => let* x := load X i in Ok (fun d => f d x)))) tt dY
    else launch c (length dY) (stateless (k_map (fun i d => let* x := load X i in Ok (f d x)) dY)) tt (map junk (seq 0 (length dY))).
  (** 775-795 *)
  Definition cu_map3 (c : config) (junk : nat -> T) (inplace : bool) (f : T -> T -> T -> T) (dY X Y : list T) : result (list T) :=
    if negb (length X =? length dY)%nat then Err ValueError
    else if negb (length Y =? length dY)%nat then Err ValueError
    else if inplace then launch c (length dY) (stateless (k_map_inplace (fun i => let* x := load X i in let* y := load Y i in Ok (fun d => f d x y)))) tt dY
    else launch c (length dY) (stateless (k_map (fun i d => let* x := load X i in let* y := load Y i in Ok (f d x y)) dY)) tt (map junk (seq 0 (length dY))).

  (** ** cupy_ops.py: [fast] says that the arrays are float32 or float64 and the lengths and positions int32.
      The versions of the base class are used otherwise; four of the methods do not return their result. *)

  (** 314-324 *)
  Definition cupy_reduce_sum (fast : bool) c (X : mat T) (lengths : list Z) : result (option (mat T)) :=
    if fast then let* r := cu_reduce_sum c X lengths in Ok (Some r) else let* r := op_reduce_sum X lengths in Ok (Some r).
  (** 286-290 *)
  Definition cupy_reduce_mean (fast : bool) c (X : mat T) (lengths : list Z) : result (option (mat T)) :=
    if fast then let* r := cu_reduce_mean c X lengths in Ok (Some r) else let* _ := op_reduce_mean X lengths in Ok None.
  (** 292-296 *)
  Definition cupy_backprop_reduce_mean (fast : bool) c junk (dY : mat T) (lengths : list Z) : result (option (mat T)) :=
    if fast then let* r := cu_backprop_reduce_mean c junk dY lengths in Ok (Some r) else let* _ := op_backprop_reduce_mean dY lengths in Ok None.
  (** 298-302 *)
  Definition cupy_reduce_max (fast : bool) c junk (X : mat T) (lengths : list Z) : result (option (mat T * list (list Z))) :=
    if fast then let* r := cu_reduce_max c junk X lengths in Ok (Some r) else let* _ := op_reduce_max X lengths in Ok None.
  (** 304-312 *)
  Definition cupy_backprop_reduce_max (fast : bool) c (dY : mat T) (which : list (list Z)) (lengths : list Z) : result (option (mat T)) :=
    if fast then let* r := cu_backprop_reduce_max c dY which lengths in Ok (Some r) else let* _ := op_backprop_reduce_max dY which lengths in Ok None.
End Kernels.
