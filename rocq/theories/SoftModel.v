(** Softmax: thinc/backends/ops.py 811-856, thinc/layers/softmax.py, softmax_activation.py and multisoftmax.py.
    No proofs here. The reductions run over the last axis of 2d arrays ([axis=-1]). *)
From Verif Require Export ReduceModel ActModel.

Section Soft.
  Context {T : Type} `{Num T} `{Trans T}.
  Local Open Scope num_scope.

  (** [xp.max] of a row; numpy raises for rows without elements *)
  Definition row_max (l : list T) : result T :=
    match l with
    | [] => Err ValueError
    | x :: l' => Ok (fold_left (fun m y => if m <? y then y else m) l' x)
    end.
  (** ops.py 821-824, for one row *)
  Definition softmax_row (x : list T) : result (list T) :=
    let* m := row_max x in
    let new_x := map (fun a => nexp (a - m)) x in
    let s := nsum new_x in
    Ok (map (fun e => e / s) new_x).
  (** 811-825. The parameter [inplace] is not used by the code: the argument is never written. *)
  Definition softmax (temperature : T) (x : mat T) : result (mat T) :=
    let x := if neqb temperature (nZ 1) then x else mmap (fun a => a / temperature) x in
    let* rows := mapM softmax_row (m_rows x) in
    Ok (mkM (m_cols x) rows).
  (** 840-848 *)
  Definition backprop_softmax (Y dY : mat T) (temperature : T) : result (mat T) :=
    let dY := if neqb temperature (nZ 1) then dY else mmap (fun a => a / temperature) dY in
    let* dX := mbin nmul Y dY in
    let* p := mbin nmul Y (sum1 dX) in
    mbin nsub dX p.

  (** An in-place operation: the result must have the shape of the first operand *)
  Definition miop (f : T -> T -> T) (a b : mat T) : result (mat T) :=
    let* r := mbin f a b in if mshape_eq r a then Ok r else Err ValueError.
  Definition reduce_sum (numpy : bool) := if numpy then np_reduce_sum (T := T) else op_reduce_sum (T := T).
  Definition backprop_reduce_sum (numpy : bool) := if numpy then np_backprop_reduce_sum (T := T) else op_backprop_reduce_sum (T := T).
  (** 827-838 on 2d arrays (others raise NotImplementedError); [numpy] tells which backend reduces *)
  Definition softmax_sequences (numpy : bool) (Xs : mat T) (lengths : list Z) : result (mat T) :=
    let new_x := mmap (fun x => nexp (clip (nZ (-20)) (nZ 20) x)) Xs in
    let* s := reduce_sum numpy new_x lengths in
    let* summed := backprop_reduce_sum numpy s lengths in
    miop ndiv new_x summed.
  (** 850-856 *)
  Definition backprop_softmax_sequences (numpy : bool) (dY Y : mat T) (lengths : list Z) : result (mat T) :=
    let* dX := mbin nmul Y dY in
    let* s := reduce_sum numpy dX lengths in
    let* sum_dX := backprop_reduce_sum numpy s lengths in
    let* p := mbin nmul Y sum_dX in
    miop nsub dX p.

  (** ** Layers *)

  (** softmax_activation.py 16-22 *)
  Definition softmax_activation : layer T := fun _ _ X =>
    let* X := as_mat X in
    let* Y := softmax (nZ 1) X in
    Ok (Arr2 Y, fun dY g => let* dY := as_mat dY in let* dX := backprop_softmax Y dY (nZ 1) in Ok (Arr2 dX, g)).
  (** softmax.py 63-94, 112-115; [check_consistency] (util.py 634-642) compares shapes *)
  Definition Softmax (normalize_outputs : bool) (temperature : T) (nO nI wo bo : nat) : layer T := fun is_train theta X =>
    let normalize := (normalize_outputs || is_train)%bool in
    if nZ 0 <? temperature then
      let* W := get_param2 theta wo nO nI in
      let* b := get_param1 theta bo nO in
      let* X := as_mat X in
      let* Y := affine X W b in
      if normalize then
        let* Y := softmax temperature Y in
        Ok (Arr2 Y, fun dY g =>
          let* dY := as_mat dY in
          if mshape_eq dY Y then
            let dY := if neqb temperature (nZ 1) then dY else mmap (fun a => a / temperature) dY in
            let* g := inc_grad g bo (DenseModel.sum0 dY) in
            let* dW := gemm dY X true false in
            let* g := inc_grad g wo (concat (m_rows dW)) in
            let* dX := gemm dY W false false in
            Ok (Arr2 dX, g)
          else Err ValueError)
      else Ok (Arr2 Y, fun _ _ => Err ValueError)
    else Err ValueError.
  (** multisoftmax.py 29-45. [ops.softmax(..., inplace=True)] returns a new array, which the code drops: only its
      exceptions matter. *)
  Definition columns (i n : nat) (m : mat T) : mat T := mkM (Nat.min n (m_cols m - i)) (map (fun r => firstn n (skipn i r)) (m_rows m)).
  Fixpoint soften (nOs : list nat) (i : nat) (Y : mat T) : result unit :=
    match nOs with
    | [] => Ok tt
    | out_size :: nOs' => let* _ := softmax (nZ 1) (columns i out_size Y) in soften nOs' (i + out_size) Y
    end.
  Definition MultiSoftmax (nOs : list nat) (nI wo bo : nat) : layer T := fun _ theta X =>
    let nO := list_sum nOs in
    let* W := get_param2 theta wo nO nI in
    let* b := get_param1 theta bo nO in
    let* X := as_mat X in
    let* Y := gemm X W false true in
    let* Y := miadd Y (as_row b) in
    let* _ := soften nOs 0 Y in
    Ok (Arr2 Y, fun dY g =>
      let* dY := as_mat dY in
      let* dW := gemm dY X true false in
      let* g := inc_grad g wo (concat (m_rows dW)) in
      let* g := inc_grad g bo (DenseModel.sum0 dY) in
      let* dX := gemm dY W false false in
      Ok (Arr2 dX, g)).
End Soft.
