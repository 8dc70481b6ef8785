(** SparseLinear: thinc/layers/sparselinear.pyx. No proofs here. [uint32_t] arithmetic wraps ([w32]); a read or
    write outside an array, and a division by zero, is [MemFault]. Overflow of [int] products is taken to wrap.
    The arrays are assumed to have the element types the pointers are cast to. The GPU path only copies. *)
From Verif Require Export MatModel ReduceModel.
Local Open Scope Z_scope.

Definition w32 (x : Z) : Z := x mod 2 ^ 32.
Definition xor32 (x y : Z) : Z := w32 (Z.lxor x y).
Definition mul32 (x y : Z) : Z := w32 (x * y).
(** [(x << r) | (x >> (32 - r))] *)
Definition rotl32 (x r : Z) : Z := w32 (Z.lor (w32 (Z.shiftl x r)) (Z.shiftr x (32 - r))).

(** 195-202, 203-209: mixing one half of the key *)
Definition murmur_mix (h1 k : Z) : Z :=
  let k1 := mul32 k 3432918353 in (* 0xcc9e2d51 *)
  let k1 := rotl32 k1 15 in
  let k1 := mul32 k1 461845907 in (* 0x1b873593 *)
  let h1 := xor32 h1 k1 in
  let h1 := rotl32 h1 13 in
  w32 (h1 * 5 + 3864292196). (* 0xe6546b64 *)
(** 189-216 [MurmurHash3_x86_32_uint64] *)
Definition murmur32 (key seed : Z) : Z :=
  let h1 := murmur_mix seed (w32 key) in
  let h1 := murmur_mix h1 (w32 (Z.shiftr key 32)) in
  let h1 := xor32 h1 8 in
  let h1 := xor32 h1 (Z.shiftr h1 16) in
  let h1 := mul32 h1 2246822507 in (* 0x85ebca6b *)
  let h1 := xor32 h1 (Z.shiftr h1 13) in
  let h1 := mul32 h1 3266489909 in (* 0xc2b2ae35 *)
  xor32 h1 (Z.shiftr h1 16).

(** [p[i]] for a pointer to the start of the array *)
Definition peek {A} (l : list A) (i : Z) : result A :=
  if i <? 0 then Err MemFault else match nth_error l (Z.to_nat i) with Some x => Ok x | None => Err MemFault end.

Section Sparse.
  Context {T : Type} `{Num T}.
  Local Open Scope num_scope.

  (** 137-145, 168-176: the two indices of a key *)
  Definition key_index (v1 : bool) (nr_weight key seed : Z) : result Z :=
    let hash := murmur32 key seed in
    if v1 then Ok (Z.land hash (w32 (nr_weight - 1)))
    else if (w32 nr_weight =? 0)%Z then Err MemFault else Ok (hash mod (w32 nr_weight))%Z.
  (** 148-153, 179-184: the weight of class [clas] *)
  Definition weight_index (v1 : bool) (nr_weight idx clas : Z) : Z :=
    if v1 then w32 (idx + clas) else w32 (clas * nr_weight + idx).

  (** 147-153: add one feature to the scores of one example *)
  Definition add_feature (v1 : bool) (nr_weight : Z) (weights : list T) (key : Z) (value : T) (scores : list T) : result (list T) :=
    let* idx1 := key_index v1 nr_weight key 0 in
    let* idx2 := key_index v1 nr_weight key 1 in
    mapM (fun p => let* w1 := peek weights (weight_index v1 nr_weight idx1 (Z.of_nat (fst p))) in
                   let* w2 := peek weights (weight_index v1 nr_weight idx2 (Z.of_nat (fst p))) in
                   Ok (snd p + w1 * value + w2 * value))
         (combine (seq 0 (length scores)) scores).
  (** 135-153: features [keys[i]], [i] counted from the moved pointer *)
  Fixpoint add_features (v1 : bool) (nr_weight : Z) (weights : list T) (keys : list Z) (values : list T) (pos : Z) (n : nat) (scores : list T) : result (list T) :=
    match n with
    | O => Ok scores
    | S n' =>
      let* key := peek keys pos in
      let* value := peek values pos in
      let* s := add_feature v1 nr_weight weights key value scores in
      add_features v1 nr_weight weights keys values (pos + 1) n' s
    end.
  (** 129-156 [set_scoresC] into rows that hold the bias *)
  Fixpoint set_scores (v1 : bool) (nr_weight : Z) (weights : list T) (keys : list Z) (values : list T) (pos : Z) (lengths : list Z) (bias : list T) : result (list (list T)) :=
    match lengths with
    | [] => Ok []
    | len :: lengths' =>
      let* s := add_features v1 nr_weight weights keys values pos (Z.to_nat len) bias in
      let* rest := set_scores v1 nr_weight weights keys values (pos + len) lengths' bias in
      Ok (s :: rest)
    end.
  (** 81-94 [_begin_cpu_update]; [scores += b] broadcasts *)
  Definition sparse_forward (v1 : bool) (nO nr_weight : Z) (W b : list T) (keys : list Z) (values : list T) (lengths : list Z) : result (mat T) :=
    let* bias := if (Z.of_nat (length b) =? nO)%Z then Ok b
                 else match b with [x] => Ok (repeat x (Z.to_nat nO)) | _ => Err ValueError end in
    let* rows := set_scores v1 nr_weight W keys values 0 lengths bias in
    Ok (mkM (Z.to_nat nO) rows).

  Definition add_weight (d : list T) (i : Z) (x : T) : result (list T) :=
    let* w := peek d i in Ok (set_nth (Z.to_nat i) (w + x) d).
  (** 178-184: one feature; [d_scores] is the flat gradient and [off] the moved pointer *)
  Fixpoint grad_classes (v1 : bool) (nr_weight idx1 idx2 : Z) (value : T) (d_scores : list T) (off : Z) (clas : nat) (n : nat) (d : list T) : result (list T) :=
    match n with
    | O => Ok d
    | S n' =>
      let* g := peek d_scores (off + Z.of_nat clas) in
      let* d1 := add_weight d (weight_index v1 nr_weight idx1 (Z.of_nat clas)) (g * value) in
      let* d2 := add_weight d1 (weight_index v1 nr_weight idx2 (Z.of_nat clas)) (g * value) in
      grad_classes v1 nr_weight idx1 idx2 value d_scores off (S clas) n' d2
    end.
  Fixpoint grad_features (v1 : bool) (nr_weight nO : Z) (keys : list Z) (values : list T) (d_scores : list T) (off pos : Z) (n : nat) (d : list T) : result (list T) :=
    match n with
    | O => Ok d
    | S n' =>
      let* key := peek keys pos in
      let* idx1 := key_index v1 nr_weight key 0 in
      let* idx2 := key_index v1 nr_weight key 1 in
      let* value := peek values pos in
      let* d' := grad_classes v1 nr_weight idx1 idx2 value d_scores off 0 (Z.to_nat nO) d in
      grad_features v1 nr_weight nO keys values d_scores off (pos + 1) n' d'
    end.
  (** 160-187 [set_gradientC] *)
  Fixpoint set_gradient (v1 : bool) (nr_weight nO : Z) (keys : list Z) (values : list T) (d_scores : list T) (off pos : Z) (lengths : list Z) (d : list T) : result (list T) :=
    match lengths with
    | [] => Ok d
    | len :: lengths' =>
      let* d' := grad_features v1 nr_weight nO keys values d_scores off pos (Z.to_nat len) d in
      set_gradient v1 nr_weight nO keys values d_scores (off + nO) (pos + len) lengths' d'
    end.
  (** 116-119: [d_bias[j] += d_scores[i, j]] *)
  Fixpoint bias_row (j : nat) (r d : list T) : result (list T) :=
    match r with
    | [] => Ok d
    | x :: r' => match nth_error d j with None => Err IndexError | Some y => bias_row (S j) r' (set_nth j (y + x) d) end
    end.
  Fixpoint bias_rows (rows : list (list T)) (d : list T) : result (list T) :=
    match rows with [] => Ok d | r :: rows' => let* d' := bias_row 0 r d in bias_rows rows' d' end.
  (** 103-123 [_finish_linear_update.__call__]: the increments of the gradients of W and b; [&d_scores[0,0]] is
      bounds-checked (the directive in line 1 is misspelt) *)
  Definition sparse_backward (v1 : bool) (nO nr_weight : Z) (keys : list Z) (values : list T) (lengths : list Z) (d_scores : mat T) : result (list T * list T) :=
    if (m_len d_scores =? 0)%nat || (m_cols d_scores =? 0)%nat then Err IndexError
    else
      let* dW := set_gradient v1 nr_weight nO keys values (concat (m_rows d_scores)) 0 0 lengths (zeros (Z.to_nat (nO * nr_weight))) in
      let* db := bias_rows (m_rows d_scores) (zeros (Z.to_nat nO)) in
      Ok (dW, db).
End Sparse.
