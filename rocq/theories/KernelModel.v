(** maxout, gather_add and scatter_add: thinc/backends/cpu_kernels.hh 31-145 and 468-479,
    thinc/backends/numpy_ops.pyx 189-220, 484-519 and 588-595, thinc/backends/ops.py 888-897 and 1378-1384.
    No proofs here. A 3d array is the list of its innermost vectors in row-major order; flat pointers walk
    these lists. An access outside an array is [MemFault]. 32-bit overflow, dtypes and NaN are not modelled. *)
From Verif Require Export Seq2colModel.

Record arr3 (T : Type) := mk3 { t_b : nat; t_o : nat; t_p : nat; t_cells : list (list T) }.
Arguments mk3 {T}. Arguments t_b {T}. Arguments t_o {T}. Arguments t_p {T}. Arguments t_cells {T}.

Section Kernels.
  Context {T : Type} `{Num T}.
  Local Open Scope num_scope.
  Local Notation rows := (list (list T)).

  (** ** maxout *)

  (** cpu_kernels.hh 37-54 [argmax(arr, len)]: reads [arr[0]] even if len is 0 *)
  Definition argmax_loop (arr : list T) : result (T * Z) :=
    match arr with [] => Err MemFault | x :: l => Ok (argmax_from x 0 1 l) end.
  (** 58-79: [argmax(a, args...)] for a fixed number of arguments *)
  Fixpoint argmax_args (a : T) (args : list T) : T * Z :=
    match args with
    | [] => (a, 0%Z)
    | b :: args' =>
      let acc := argmax_args b args' in
      if a <? fst acc then (fst acc, (snd acc + 1)%Z) else (a, 0%Z)
    end.
  (** 93-122 [cpu_maxout]: one candidate vector *)
  Definition maxout_cell (P : nat) (input : list T) : result (T * Z) :=
    match P with
    | 2%nat => match input with a :: b :: _ => Ok (argmax_args a [b]) | _ => Err MemFault end
    | 3%nat => match input with a :: b :: c :: _ => Ok (argmax_args a [b; c]) | _ => Err MemFault end
    | _ => argmax_loop input
    end.
  (** numpy_ops.pyx 189-206 [NumpyOps.maxout]; [&X[0, 0, 0]] is bounds-checked *)
  Definition np_maxout (X : arr3 T) : result (mat T * list (list Z)) :=
    if (t_b X =? 0)%nat then Ok (mkM (t_o X) [], [])
    else if (t_o X =? 0)%nat || (t_p X =? 0)%nat then Err IndexError
    else
      let* r := mapM (maxout_cell (t_p X)) (t_cells X) in
      Ok (mkM (t_o X) (cells_of (t_o X) (t_b X) (map fst r)), cells_of (t_o X) (t_b X) (map snd r)).
  (** ops.py 888-890 [Ops.maxout]: [argmax] and [max] of an empty axis raise *)
  Definition op_maxout (X : arr3 T) : result (mat T * list (list Z)) :=
    if (t_p X =? 0)%nat && negb (length (t_cells X) =? 0)%nat then Err ValueError
    else
      let r := map argmax (t_cells X) in
      Ok (mkM (t_o X) (cells_of (t_o X) (t_b X) (map fst r)), cells_of (t_o X) (t_b X) (map snd r)).

  (** cpu_kernels.hh 125-145 [cpu_backprop_maxout]: the flat gradient and positions, cell [i] of the flat dX *)
  Fixpoint cpu_backprop_maxout (P : nat) (i : nat) (n : nat) (dY : list T) (which : list Z) (dX : list T) : result (list T) :=
    match n with
    | O => Ok dX
    | S n' =>
      match which, dY with
      | w :: which', d :: dY' =>
        if (Z.of_nat P <=? w)%Z then Err IndexError
        else
          let at_ := (Z.of_nat (i * P) + w)%Z in
          if (at_ <? 0)%Z || (Z.of_nat (length dX) <=? at_)%Z then Err MemFault
          else cpu_backprop_maxout P (S i) n' dY' which' (set_nth (Z.to_nat at_) d dX)
      | _, _ => Err MemFault
      end
    end.
  (** numpy_ops.pyx 208-220 [NumpyOps.backprop_maxout]; the shapes of dY and which are not compared *)
  Definition np_backprop_maxout (dY : mat T) (which : list (list Z)) (P : Z) : result (arr3 T) :=
    let B := m_len dY in
    let O := m_cols dY in
    if (P <? 0)%Z then Err ValueError
    else if (B =? 0)%nat || (O =? 0)%nat || (length (concat which) =? 0)%nat then Err IndexError
    else
      let p := Z.to_nat P in
      let* dX := cpu_backprop_maxout p 0 (B * O) (concat (m_rows dY)) (concat which) (zeros (B * O * p)) in
      Ok (mk3 B O p (cells_of p (B * O) dX)).
  (** ops.py 892-897 [Ops.backprop_maxout]: one assignment per element; a negative position counts from the end *)
  Fixpoint op_backprop_row (P : nat) (d : list T) (w : list Z) : result rows :=
    match d with
    | [] => Ok []
    | x :: d' =>
      match w with
      | [] => Err IndexError
      | k :: w' =>
        match norm_index P k with
        | None => Err IndexError
        | Some i => let* rest := op_backprop_row P d' w' in Ok (set_nth i x (zeros P) :: rest)
        end
      end
    end.
  Fixpoint op_backprop_rows (P : nat) (dY : rows) (which : list (list Z)) : result rows :=
    match dY with
    | [] => Ok []
    | d :: dY' =>
      match which with
      | [] => match d with [] => op_backprop_rows P dY' [] | _ => Err IndexError end
      | w :: which' =>
        let* r := op_backprop_row P d w in
        let* rest := op_backprop_rows P dY' which' in
        Ok (r ++ rest)
      end
    end.
  Definition op_backprop_maxout (dY : mat T) (which : list (list Z)) (P : Z) : result (arr3 T) :=
    if (P <? 0)%Z then Err ValueError
    else
      let* cells := op_backprop_rows (Z.to_nat P) (m_rows dY) which in
      Ok (mk3 (m_len dY) (m_cols dY) (Z.to_nat P) cells).

  (** ** gather_add *)

  (** cpu_kernels.hh 468-479 [cpu_gather_add]: one output row; the check is [idx > T] *)
  Fixpoint gather_row (table : rows) (out : list T) (idxs : list Z) : result (list T) :=
    match idxs with
    | [] => Ok out
    | idx :: idxs' =>
      if (Z.of_nat (length table) <? idx)%Z then Err IndexError
      else if (idx <? 0)%Z then Err MemFault
      else
        match nth_error table (Z.to_nat idx) with
        | None => Err MemFault
        | Some r => gather_row table (vec_add out r (nZ 1)) idxs'
        end
    end.
  (** numpy_ops.pyx 484-499 [NumpyOps.gather_add]; [&table[0, 0]] and [&indices[0, 0]] are bounds-checked.
      [K] is the number of columns of the indices. *)
  Definition np_gather_add (table : mat T) (K : nat) (indices : list (list Z)) : result (mat T) :=
    if (m_len table =? 0)%nat || (m_cols table =? 0)%nat || (length indices =? 0)%nat || (K =? 0)%nat then Err IndexError
    else
      let* r := mapM (gather_row (m_rows table) (zeros (m_cols table))) indices in
      Ok (mkM (m_cols table) r).
  (** ops.py 1378-1379 [Ops.gather_add]: [table[indices].sum(axis=1)] *)
  Definition op_gather_add (table : mat T) (indices : list (list Z)) : result (mat T) :=
    let* r := mapM (fun idxs => let* s := mapM (py_getz (m_rows table)) idxs in Ok (sum0 (m_cols table) s)) indices in
    Ok (mkM (m_cols table) r).

  (** ** scatter_add: the table is changed in place; here the new table is returned *)

  (** numpy_ops.pyx 588-595 [cpu_scatter_add]: negative ids are skipped, large ones are not checked *)
  Fixpoint cpu_scatter_add (ids : list Z) (values table : rows) : result rows :=
    match ids, values with
    | [], _ => Ok table
    | id :: ids', v :: values' =>
      if (0 <=? id)%Z then
        match nth_error table (Z.to_nat id) with
        | None => Err MemFault
        | Some r => cpu_scatter_add ids' values' (set_nth (Z.to_nat id) (vec_add r v (nZ 1)) table)
        end
      else cpu_scatter_add ids' values' table
    | _, [] => Err MemFault
    end.
  (** [numpy.add.at(table, ids, values)]: all ids are checked first, then the values are broadcast (a single row,
      or rows of a single element), then the additions are made in order *)
  Fixpoint add_at (ids : list nat) (values table : rows) : rows :=
    match ids, values with
    | id :: ids', v :: values' =>
      match nth_error table id with
      | None => add_at ids' values' table
      | Some r => add_at ids' values' (set_nth id (vmap2 nadd r v) table)
      end
    | _, _ => table
    end.
  Definition norm_all (n : nat) (ids : list Z) : result (list nat) :=
    mapM (fun id => match norm_index n id with Some i => Ok i | None => Err IndexError end) ids.
  Definition broadcast_values (n O : nat) (values : mat T) : result rows :=
    let* rs := if (m_len values =? n)%nat then Ok (m_rows values)
               else match m_rows values with [r] => Ok (repeat r n) | _ => Err ValueError end in
    if (m_cols values =? O)%nat then Ok rs
    else if (m_cols values =? 1)%nat then Ok (map (fun r => repeat (nth 0 r (nZ 0)) O) rs)
    else Err ValueError.
  Definition op_scatter_add (table : mat T) (ids : list Z) (values : mat T) : result (mat T) :=
    let* k := norm_all (m_len table) ids in
    let* v := broadcast_values (length ids) (m_cols table) values in
    Ok (mkM (m_cols table) (add_at k v (m_rows table))).
  (** 501-519 [NumpyOps.scatter_add] for 2d tables and 1d ids; [fast]: the dtypes are float32/int32 and the
      arrays contiguous *)
  Definition np_scatter_add (fast : bool) (table : mat T) (ids : list Z) (values : mat T) : result (mat T) :=
    if fast && (m_len values =? length ids)%nat && (m_cols values =? m_cols table)%nat
    then let* r := cpu_scatter_add ids (m_rows values) (m_rows table) in Ok (mkM (m_cols table) r)
    else op_scatter_add table ids values.
End Kernels.
