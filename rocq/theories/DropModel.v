(** Dropout: thinc/layers/dropout.py and [Ops.get_dropout_mask]. No proofs here.
    The random generator is a sequence of draws [flips], of which the next unused one has number [pos]; a mask
    that needs draws takes them in row-major order. *)
From Verif Require Export DenseModel.

Section Drop.
  Context {T : Type} `{Num T}.
  Local Open Scope num_scope.

  (** [a * b] for arrays; scalars and 1d arrays broadcast *)
  Definition vmul (a b : value T) : result (value T) :=
    match a, b with
    | Sc x, Sc y => Ok (Sc (x * y))
    | Sc x, Arr1 v => Ok (Arr1 (map (fun y => x * y) v))
    | Sc x, Arr2 m => Ok (Arr2 (mmap (fun y => x * y) m))
    | Arr1 u, Arr1 v => let* m := mbin nmul (as_row u) (as_row v) in Ok (Arr1 (first_row m))
    | Arr2 m, Arr2 n => let* r := mbin nmul m n in Ok (Arr2 r)
    | Arr2 m, Arr1 v => let* r := mbin nmul m (as_row v) in Ok (Arr2 r)
    | Arr1 u, Arr2 n => let* r := mbin nmul (as_row u) n in Ok (Arr2 r)
    | _, _ => Err TypeError
    end.
  (** [a * b] for 3d arrays; broadcasting of 3d arrays is not modelled *)
  Definition mul3 (w : nat) (a : list (list (list T))) (w' : nat) (b : list (list (list T))) : result (list (list (list T))) :=
    if Nat.eqb w w' && (if list_eq_dec Nat.eq_dec (shape3 a) (shape3 b) then true else false)
    then Ok (map (fun p => map (fun q => vmap2 nmul (fst q) (snd q)) (combine (fst p) (snd p))) (combine a b))
    else Err ValueError.

  (** ops.py 485-497 [get_dropout_mask] for a shape of [n] elements, in row-major order, and the number of the
      next unused draw *)
  Definition get_dropout_mask (flips : nat -> T) (pos n : nat) (drop : option T) : list T * nat :=
    match drop with
    | None => (repeat (nZ 1) n, pos)
    | Some d =>
      if negb (nZ 0 <? d) then (repeat (nZ 1) n, pos)
      else if negb (d <? nZ 1) then (repeat (nZ 0) n, pos)
      else (map (fun k => (if flips k <? d then nZ 0 else nZ 1) / (nZ 1 - d)) (seq pos n), (pos + n)%nat)
    end.
  (** The mask in the shape of an array; anything without a [shape] raises *)
  Definition mask_for (flips : nat -> T) (pos : nat) (drop : option T) (X : value T) : result (value T * nat) :=
    match X with
    | Arr1 v => let r := get_dropout_mask flips pos (length v) drop in Ok (Arr1 (fst r), snd r)
    | Arr2 m =>
      let r := get_dropout_mask flips pos (length (m_rows m) * m_cols m) drop in
      Ok (Arr2 (mkM (m_cols m) (cells_of (m_cols m) (length (m_rows m)) (fst r))), snd r)
    | _ => Err AttributeError
    end.
  (** The elements of a flat array in the shape of a 3d one *)
  Fixpoint cells3 (w : nat) (d : list (list (list T))) (flat : list T) : list (list (list T)) :=
    match d with
    | [] => []
    | b :: d' => cells_of w (length b) flat :: cells3 w d' (skipn (length b * w) flat)
    end.
  Definition size3 (w : nat) (d : list (list (list T))) : nat := fold_right Nat.add 0%nat (map (fun b => (length b * w)%nat) d).

  Definition dropped : Type := value T * (value T -> result (value T)) * nat.

  (** dropout.py 38-47 [_dropout_array] *)
  Definition dropout_array (flips : nat -> T) (pos : nat) (rate : option T) (X : value T) : result dropped :=
    let* mp := mask_for flips pos rate X in
    let* Y := vmul X (fst mp) in
    Ok (Y, fun dY => vmul dY (fst mp), snd mp).
  (** 50-60 [_dropout_padded] *)
  Definition dropout_padded (flips : nat -> T) (pos : nat) (rate : option T) (w : nat) (d : list (list (list T))) (sizes lens idx : list nat) : result dropped :=
    let r := get_dropout_mask flips pos (size3 w d) rate in
    let mask := cells3 w d (fst r) in
    let* Y := mul3 w d w mask in
    Ok (Pad w Y sizes lens idx, fun dYp =>
      match dYp with
      | Pad w' d' sizes' lens' idx' => let* y := mul3 w' d' w mask in Ok (Pad w' y sizes' lens' idx')
      | _ => Err AttributeError
      end, snd r).
  (** 63-74 [_dropout_ragged] *)
  Definition dropout_ragged (flips : nat -> T) (pos : nat) (rate : option T) (m : mat T) (lens : list Z) : result dropped :=
    let r := get_dropout_mask flips pos (length (m_rows m) * m_cols m) rate in
    let mask := mkM (m_cols m) (cells_of (m_cols m) (length (m_rows m)) (fst r)) in
    let* Y := mbin nmul m mask in
    Ok (mk_rag Y lens, fun dYr =>
      match dYr with
      | Rag m' _ lens' => let* y := mbin nmul m' mask in Ok (mk_rag y lens')
      | _ => Err AttributeError
      end, snd r).
  (** 77-87 [_dropout_lists]: all masks, then all products; zip stops at the shorter list *)
  Fixpoint masks_for (flips : nat -> T) (pos : nat) (rate : option T) (Xs : list (value T)) : result (list (value T) * nat) :=
    match Xs with
    | [] => Ok ([], pos)
    | X :: Xs' =>
      let* mp := mask_for flips pos rate X in
      let* rest := masks_for flips (snd mp) rate Xs' in
      Ok (fst mp :: fst rest, snd rest)
    end.
  Definition mul_lists (Xs masks : list (value T)) : result (list (value T)) := mapM (fun p => vmul (fst p) (snd p)) (combine Xs masks).
  Definition dropout_lists (flips : nat -> T) (pos : nat) (rate : option T) (Xs : list (value T)) : result dropped :=
    let* mp := masks_for flips pos rate Xs in
    let* Ys := mul_lists Xs (fst mp) in
    Ok (PyList Ys, fun dYs =>
      match dYs with
      | PyList l | PyTup l => let* r := mul_lists l (fst mp) in Ok (PyList r)
      | Arr2 m => let* r := mul_lists (map Arr1 (m_rows m)) (fst mp) in Ok (PyList r)
      | _ => Err TypeError
      end, snd mp).
  (** 19-35 [forward]; a rate of None is not equal to 0 *)
  Definition dropout (flips : nat -> T) (pos : nat) (rate : option T) (is_enabled : bool) (is_train : bool) (X : value T) : result dropped :=
    let zero := match rate with Some r => r =? nZ 0 | None => false end in
    if zero || negb (is_enabled && is_train) then Ok (X, fun dY => Ok dY, pos)
    else match X with
         | Rag m _ lens => dropout_ragged flips pos rate m lens
         | Pad w d sizes lens idx => dropout_padded flips pos rate w d sizes lens idx
         | PyList Xs | PyTup Xs => dropout_lists flips pos rate Xs
         | _ => dropout_array flips pos rate X
         end.
  (** As a layer of a model, for a given state of the random generator *)
  Definition Dropout (flips : nat -> T) (pos : nat) (rate : option T) (is_enabled : bool) : layer T := fun tr _ X =>
    let* r := dropout flips pos rate is_enabled tr X in
    Ok (fst (fst r), fun dY g => let* dX := snd (fst r) dY in Ok (dX, g)).
End Drop.
