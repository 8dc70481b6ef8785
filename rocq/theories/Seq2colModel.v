(** Window features: thinc/backends/cpu_kernels.hh 354-466, thinc/backends/numpy_ops.pyx 252-324 and 560-567,
    thinc/backends/ops.py 194-233, thinc/layers/expand_window.py. No proofs here.
    Every offset and count in the kernels is a multiple of the width I of the sequence rows, so the flat
    arrays are lists of cells of I numbers here: a sequence row is one cell, an output row is 2*nW+1 cells.
    32-bit overflow and dtypes other than float32/float64 are not modelled. *)
From Verif Require Export ReduceModel.

Section Seq2col.
  Context {T : Type} `{Num T}.
  Local Notation cells := (list (list T)).

  (** [memcpy(dst + doff, src + soff, n)] *)
  Definition copy_cells (dst : cells) (doff : Z) (src : cells) (soff n : Z) : result cells :=
    if (doff <? 0)%Z || (soff <? 0)%Z || (n <? 0)%Z || (Z.of_nat (length dst) <? doff + n)%Z || (Z.of_nat (length src) <? soff + n)%Z
    then Err MemFault
    else Ok (firstn (Z.to_nat doff) dst ++ firstn (Z.to_nat n) (skipn (Z.to_nat soff) src) ++ skipn (Z.to_nat doff + Z.to_nat n) dst).
  (** [vec_add(dst + doff, src + soff, 1, n)] *)
  Definition add_cells (dst : cells) (doff : Z) (src : cells) (soff n : Z) : result cells :=
    if (doff <? 0)%Z || (soff <? 0)%Z || (n <? 0)%Z || (Z.of_nat (length dst) <? doff + n)%Z || (Z.of_nat (length src) <? soff + n)%Z
    then Err MemFault
    else Ok (firstn (Z.to_nat doff) dst
             ++ map (fun p => vec_add (fst p) (snd p) (nZ 1)) (combine (firstn (Z.to_nat n) (skipn (Z.to_nat doff) dst)) (firstn (Z.to_nat n) (skipn (Z.to_nat soff) src)))
             ++ skipn (Z.to_nat doff + Z.to_nat n) dst).

  (** cpu_kernels.hh 391-408, 441-459: the body for row [j] of the sequence [seq_start, seq_end) *)
  Definition seq2col_row (X : cells) (nW seq_start seq_end j : Z) (out : cells) : result cells :=
    let window_start := (j - nW)%Z in
    let window_end := (j + nW + 1)%Z in
    let x_start := Z.max seq_start window_start in
    let x_end := Z.min seq_end window_end in
    let out_offset := (x_start - window_start)%Z in
    copy_cells out (j * (nW * 2 + 1) + out_offset) X x_start (x_end - x_start).
  Definition backprop_seq2col_row (d_cols : cells) (nW seq_start seq_end j : Z) (d_seqs : cells) : result cells :=
    let window_begin := (j - nW)%Z in
    let window_end := (j + nW + 1)%Z in
    let d_seqs_begin := Z.max seq_start window_begin in
    let d_seqs_end := Z.min seq_end window_end in
    let out_offset := (d_seqs_begin - window_begin)%Z in
    add_cells d_seqs d_seqs_begin d_cols (j * (nW * 2 + 1) + out_offset) (d_seqs_end - d_seqs_begin).
  (** [for (j = from; n times; ++j)] *)
  Fixpoint for_rows (body : Z -> cells -> result cells) (from : Z) (n : nat) (m : cells) : result cells :=
    match n with
    | O => Ok m
    | S n' => let* m' := body from m in for_rows body (from + 1)%Z n' m'
    end.
  (** 354-421 [seq2col], 423-466 [backprop_seq2col]: the loop over the sequences, for either body *)
  Fixpoint for_seqs (row : Z -> Z -> Z -> cells -> result cells) (seq_start : Z) (lengths : list Z) (m : cells) : result cells :=
    match lengths with
    | [] => Ok m
    | len :: lengths' =>
      let seq_end := (seq_start + len)%Z in
      let* m' := for_rows (row seq_start seq_end) seq_start (Z.to_nat (seq_end - seq_start)) m in
      for_seqs row (seq_start + len)%Z lengths' m'
    end.

  (** numpy_ops.pyx 560-567 [check_seq2col_lengths] *)
  Definition check_seq2col_lengths (lengths : option (list Z)) (B : nat) : result (list Z) :=
    match lengths with
    | None => Ok [Z.of_nat B]
    | Some l =>
      if negb (forallb (fun n => (0 <=? n)%Z) l) then Err AssertionError
      else if negb (zsum l =? Z.of_nat B)%Z then Err AssertionError
      else Ok l
    end.
  (** The flat array of a matrix as cells of the given width, and back. *)
  Fixpoint cells_of (I : nat) (n : nat) (flat : list T) : cells :=
    match n with O => [] | S n' => firstn I flat :: cells_of I n' (skipn I flat) end.
  Fixpoint rows_of (nF n : nat) (m : cells) : cells :=
    match n with O => [] | S n' => concat (firstn nF m) :: rows_of nF n' (skipn nF m) end.
  (** 252-290 [NumpyOps.seq2col]; a negative dimension cannot be allocated *)
  Definition np_seq2col (seq : mat T) (nW : Z) (lengths : option (list Z)) : result (mat T) :=
    let B := m_len seq in
    let I := m_cols seq in
    let nF := (2 * nW + 1)%Z in
    let* l := check_seq2col_lengths lengths B in
    if (nF * Z.of_nat I <? 0)%Z then Err ValueError
    else
      let width := Z.to_nat (nF * Z.of_nat I) in
      if ((B * I =? 0)%nat || (length l =? 0)%nat) then Ok (mzeros B width)
      else
        let* cols := for_seqs (seq2col_row (m_rows seq) nW) 0 l (repeat (zeros I) (B * Z.to_nat nF)) in
        Ok (mkM width (rows_of (Z.to_nat nF) B cols)).
  (** 292-324 [NumpyOps.backprop_seq2col]; [/] truncates towards zero. The kernel reads the flat gradient with a
      row stride of nF*I, whatever its width is. With I = 0 it touches nothing. *)
  Definition np_backprop_seq2col (dY : mat T) (nW : Z) (lengths : option (list Z)) : result (mat T) :=
    let B := m_len dY in
    let nF := (nW * 2 + 1)%Z in
    let I := Z.quot (Z.of_nat (m_cols dY)) nF in
    let* l := check_seq2col_lengths lengths B in
    if (I <? 0)%Z then Err ValueError
    else if (I =? 0)%Z || (B * m_cols dY =? 0)%nat || (length l =? 0)%nat then Ok (mzeros B (Z.to_nat I))
    else
      let* dX := for_seqs (backprop_seq2col_row (cells_of (Z.to_nat I) (B * Z.to_nat nF) (concat (m_rows dY))) nW) 0 l (repeat (zeros (Z.to_nat I)) B) in
      Ok (mkM (Z.to_nat I) dX).

  (** ops.py 194-212 [Ops.seq2col] with [lengths=None]: row r gets the previous row, itself and the next one;
      [reshape3f(_, -1, 1, I)] of an empty array with I = 0 is ambiguous and raises *)
  Definition op_seq2col (seq : mat T) (nW : Z) : result (mat T) :=
    if negb (nW =? 1)%Z then Err AssertionError
    else
      let X := m_rows seq in
      let I := m_cols seq in
      if (I =? 0)%nat then Err ValueError
      else
        let left := firstn (m_len seq) (zeros I :: removelast X) in
        let right := firstn (m_len seq) (tl X ++ [zeros I]) in
        Ok (mkM (I * 3) (map (fun p => fst p ++ fst (snd p) ++ snd (snd p)) (combine left (combine X right)))).
  (** 214-233 [Ops.backprop_seq2col] with [lengths=None]: [dX[:-1] += dY3d[1:, 0]], [dX += dY3d[:, 1]],
      [dX[1:] += dY3d[:-1, 2]]; the reshape to (B, 3, I) needs the exact width *)
  Definition madd (A B : cells) : cells := map (fun p => vmap2 nadd (fst p) (snd p)) (combine A B).
  Definition op_backprop_seq2col (dY : mat T) (nW : Z) : result (mat T) :=
    if negb (nW =? 1)%Z then Err AssertionError
    else
      let I := (m_cols dY / 3)%nat in
      let B := m_len dY in
      if negb (m_cols dY =? 3 * I)%nat && negb (B =? 0)%nat then Err ValueError
      else if (I =? 0)%nat then Err ValueError
      else
        let part k := map (fun r => firstn I (skipn (k * I) r)) (m_rows dY) in
        let dX1 := madd (repeat (zeros I) B) (tl (part 0%nat) ++ repeat (zeros I) 1) in
        let dX2 := madd dX1 (part 1%nat) in
        Ok (mkM I (madd dX2 (zeros I :: removelast (part 2%nat)))).

  (** expand_window.py 23-36, 39-57: the layer on an array and on a Ragged (data, lengths); each returns the
      output and the backward function *)
  Definition expand_window_floats (nW : Z) (X : mat T) : result (mat T * (mat T -> result (mat T))) :=
    let* Y := if (0 <? m_len X)%nat then np_seq2col X nW None
              else Ok (mkM (m_cols X * Z.to_nat (nW * 2 + 1)) []) in
    Ok (Y, fun dY => np_backprop_seq2col dY nW None).
  Definition expand_window_ragged (nW : Z) (X : mat T) (lengths : list Z) : result (mat T * (mat T -> result (mat T))) :=
    let* Y := np_seq2col X nW (Some lengths) in
    Ok (Y, fun dY => np_backprop_seq2col dY nW (Some lengths)).
End Seq2col.
