(** Attention, similarity and the reduction layers: thinc/layers/parametricattention.py 18-30 and 44-65,
    parametricattention_v2.py 36-52 and 80-100, cauchysimilarity.py 26-44 and 58-64, reduce_first.py 18-30,
    reduce_last.py 18-29, reduce_max.py 17-26, reduce_mean.py 17-27 and reduce_sum.py 17-26, with types.py 1188-1194
    and util.py 633-642. No proofs here. The dtypes that [check_consistency] compares are not modelled. *)
From Verif Require Export SoftModel.

Section Attn.
  Context {T : Type} `{Num T} `{Trans T}.
  Local Open Scope num_scope.

  (** types.py 1188-1194 [Ragged.dataXd] of a Ragged made from a 2d array; the constructor leaves no other width *)
  Definition rag_data (m : mat T) (w : nat) : result (mat T) :=
    if (length (m_rows m) * m_cols m =? 0)%nat then Ok (mkM w (repeat (@nil T) (length (m_rows m))))
    else if (w =? m_cols m)%nat then Ok m else Err ValueError.
  (** [reshape2f(Q, -1, 1)], [xp.outer], [ravel] *)
  Definition column (Q : list T) : mat T := mkM 1 (map (fun q => [q]) Q).
  Definition ravel (m : mat T) : list T := concat (m_rows m).
  Definition outer (a : mat T) (Q : list T) : mat T := mkM (length Q) (map (fun x => map (fun q => x * q) Q) (ravel a)).

  (** parametricattention_v2.py 36-52, 80-100; [numpy] tells which backend reduces *)
  Definition ParametricAttention_v2 (numpy : bool) (key_transform : layer T) (nO qo : nat) : layer T := fun is_train theta Xr =>
    let* Q := get_param1 theta qo nO in
    let* x := as_rag Xr in
    let lengths := snd x in
    let* X := rag_data (fst (fst x)) (snd (fst x)) in
    let* k := key_transform is_train theta (Arr2 X) in
    let* K := as_mat (fst k) in
    let* attention := gemm K (column Q) false false in
    let* attention := softmax_sequences numpy attention lengths in
    let* output := mbin nmul X attention in
    Ok (mk_rag output lengths, fun dYr g =>
      let* y := as_rag dYr in
      let* d_output := rag_data (fst (fst y)) (snd (fst y)) in
      let* p := mbin nmul X d_output in
      let d_attention := DenseModel.sum1 p in
      let* dX := mbin nmul d_output attention in
      let* d_attention := backprop_softmax_sequences numpy d_attention attention lengths in
      let* dQ := gemm K d_attention true false in
      let dY := outer d_attention Q in
      let* dX2 := snd k (Arr2 dY) g in
      let* g := inc_grad (snd dX2) qo (ravel dQ) in
      let* dX2 := as_mat (fst dX2) in
      let* dX := miadd dX dX2 in
      Ok (mk_rag dX (snd y), g)).
  (** parametricattention.py 18-30, 44-65 *)
  Definition ParametricAttention (numpy : bool) (nO qo : nat) : layer T := fun _ theta Xr =>
    let* Q := get_param1 theta qo nO in
    let* x := as_rag Xr in
    let lengths := snd x in
    let* X := rag_data (fst (fst x)) (snd (fst x)) in
    let* attention := gemm X (column Q) false false in
    let* attention := softmax_sequences numpy attention lengths in
    let* output := mbin nmul X attention in
    Ok (mk_rag output lengths, fun dYr g =>
      let* y := as_rag dYr in
      let* d_output := rag_data (fst (fst y)) (snd (fst y)) in
      let* p := mbin nmul X d_output in
      let d_attention := DenseModel.sum1 p in
      let* dX := mbin nmul d_output attention in
      let* d_attention := backprop_softmax_sequences numpy d_attention attention lengths in
      let* dQ := gemm X d_attention true false in
      let dX2 := outer d_attention Q in
      let* g := inc_grad g qo (ravel dQ) in
      let* dX := miadd dX dX2 in
      Ok (mk_rag dX (snd y), g)).

  (** cauchysimilarity.py 58-64 *)
  Definition inverse (total : T) : T := nZ 1 / (nZ 1 + total).
  Definition inverse_back (total d : T) : T := d * (nZ (-1) / ((total + nZ 1) * (total + nZ 1))).
  Definition as_arr1 (v : value T) : result (list T) := match v with Arr1 l => Ok l | _ => Err TypeError end.
  (** A 1d array as a column; elementwise operations on 1d arrays *)
  Definition vbin (f : T -> T -> T) (a b : list T) : result (list T) := let* m := mbin f (as_row a) (as_row b) in Ok (first_row m).
  (** cauchysimilarity.py 26-44 *)
  Definition CauchySimilarity (nI wo : nat) : layer T := fun _ theta X1_X2 =>
    let* X12 := match X1_X2 with PyTup [a; b] | PyList [a; b] => Ok (a, b) | PyTup _ | PyList _ => Err ValueError | _ => Err TypeError end in
    let* X1 := as_mat (fst X12) in
    let* X2 := as_mat (snd X12) in
    let* W := get_param1 theta wo nI in
    let* diff := mbin nsub X1 X2 in
    let square_diff := mmap (fun x => x * x) diff in
    let* p := mbin nmul (as_row W) square_diff in
    let total := map nsum (m_rows p) in
    let sim := map inverse total in
    Ok (Arr1 sim, fun d_sim g =>
      let* d_sim := as_arr1 d_sim in
      let* d_total := vbin (fun t d => inverse_back t d) total d_sim in
      let d_total := column d_total in
      let* q := mbin nmul d_total square_diff in
      let* g := inc_grad g wo (DenseModel.sum0 q) in
      let* d_square_diff := mbin nmul (as_row W) d_total in
      let* d_diff := mbin nmul (mmap (fun x => nZ 2 * x) d_square_diff) diff in
      Ok (PyTup [Arr2 d_diff; Arr2 (mmap (fun x => nZ 0 - x) d_diff)], g)).

  (** util.py 633-642 [check_consistency] *)
  Definition check_consistency (Y dY : mat T) : result unit := if mshape_eq dY Y then Ok tt else Err ValueError.
  (** reduce_sum.py 17-26, reduce_mean.py 17-27: the two functions of the backend are [red] and [back] *)
  Definition reduce_layer (red : mat T -> list Z -> result (mat T)) (back : mat T -> list Z -> result (mat T)) : layer T := fun _ _ Xr =>
    let* x := as_rag Xr in
    let lengths := snd x in
    let* Y := red (fst (fst x)) lengths in
    Ok (Arr2 Y, fun dY g =>
      let* dY := as_mat dY in
      let* _ := check_consistency Y dY in
      let* dX := back dY lengths in
      Ok (mk_rag dX lengths, g)).
  Definition reduce_mean (numpy : bool) := if numpy then np_reduce_mean (T := T) else op_reduce_mean (T := T).
  Definition backprop_reduce_mean (numpy : bool) := if numpy then np_backprop_reduce_mean (T := T) else op_backprop_reduce_mean (T := T).
  Definition reduce_sum_layer (numpy : bool) : layer T := reduce_layer (reduce_sum numpy) (backprop_reduce_sum numpy).
  Definition reduce_mean_layer (numpy : bool) : layer T := reduce_layer (reduce_mean numpy) (backprop_reduce_mean numpy).
  (** reduce_first.py 18-30, reduce_last.py 18-29: the backend returns positions for the way back *)
  Definition reduce_at_layer (red : mat T -> list Z -> result (mat T * list Z)) (back : mat T -> list Z -> result (mat T)) : layer T := fun _ _ Xr =>
    let* x := as_rag Xr in
    let lengths := snd x in
    let* Yp := red (fst (fst x)) lengths in
    Ok (Arr2 (fst Yp), fun dY g =>
      let* dY := as_mat dY in
      let* _ := check_consistency (fst Yp) dY in
      let* dX := back dY (snd Yp) in
      Ok (mk_rag dX lengths, g)).
  Definition reduce_first_layer : layer T := reduce_at_layer op_reduce_first op_backprop_reduce_first.
  Definition reduce_last_layer : layer T := reduce_at_layer op_reduce_last op_backprop_reduce_last.
  (** reduce_max.py 17-26 *)
  Definition reduce_max_layer (numpy : bool) : layer T := fun _ _ Xr =>
    let* x := as_rag Xr in
    let lengths := snd x in
    let* Yw := (if numpy then np_reduce_max else op_reduce_max) (fst (fst x)) lengths in
    Ok (Arr2 (fst Yw), fun dY g =>
      let* dY := as_mat dY in
      let* _ := check_consistency (fst Yw) dY in
      let* dX := (if numpy then np_backprop_reduce_max else op_backprop_reduce_max) dY (snd Yw) lengths in
      Ok (mk_rag dX lengths, g)).
End Attn.
