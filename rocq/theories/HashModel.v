(** Hashing of keys: thinc/backends/numpy_ops.pyx 326-336, 537-546 and 1078-1111 and thinc/backends/ops.py
    704-718 and 1350-1368. No proofs here. [uint64_t] arithmetic wraps ([w64]). *)
From Verif Require Export SparseModel.
Local Open Scope Z_scope.

Definition w64 (x : Z) : Z := x mod 2 ^ 64.
(** [h ^= h >> 33] *)
Definition xorshift64 (h : Z) : Z := w64 (Z.lxor h (Z.shiftr h 33)).
(** 1097-1101, 1102-1106 *)
Definition fmix64 (h : Z) : Z :=
  let h := xorshift64 h in
  let h := w64 (h * 18397679294719823053) in (* 0xff51afd7ed558ccd *)
  let h := xorshift64 h in
  let h := w64 (h * 14181476777654086739) in (* 0xc4ceb9fe1a85ec53 *)
  xorshift64 h.
(** 1078-1111 [MurmurHash3_x86_128_uint64]: the four words *)
Definition murmur128 (val seed : Z) : list Z :=
  let h1 := val in
  let h1 := w64 (h1 * 9782798678568883157) in (* 0x87c37b91114253d5 *)
  let h1 := w64 (Z.lor (w64 (Z.shiftl h1 31)) (Z.shiftr h1 33)) in
  let h1 := w64 (h1 * 5545529020109919103) in (* 0x4cf5ad432745937f *)
  let h1 := w64 (Z.lxor h1 seed) in
  let h1 := w64 (Z.lxor h1 8) in
  let h2 := seed in
  let h2 := w64 (Z.lxor h2 8) in
  let h1 := w64 (h1 + h2) in
  let h2 := w64 (h2 + h1) in
  let h1 := fmix64 h1 in
  let h2 := fmix64 h2 in
  let h1 := w64 (h1 + h2) in
  let h2 := w64 (h2 + h1) in
  [w32 h1; w32 (Z.shiftr h1 32); w32 h2; w32 (Z.shiftr h2 32)].
(** 326-336 [NumpyOps.hash]; the seed is converted to [uint32_t], which refuses other values *)
Definition np_hash (ids : list Z) (seed : Z) : result (list (list Z)) :=
  if (seed <? 0) || (2 ^ 32 <=? seed) then Err OverflowError else Ok (map (fun id => murmur128 id seed) ids).
(** Conversion to [int32]: 704-718 with numpy's [astype], which wraps *)
Definition s32 (x : Z) : Z := let y := w32 x in if y <? 2 ^ 31 then y else y - 2 ^ 32.
(** ops.py 1350-1359 [Ops.hash]: the ids are converted to [uint64] first, the keys to [int32] at the end *)
Definition op_hash (ids : list Z) (seed : Z) : result (list (list Z)) :=
  let* keys := np_hash (map w64 ids) seed in Ok (map (map s32) keys).

Section Ngrams.
  (** murmurhash's [hash64] of [n] words with seed 0 *)
  Variable hash64 : list Z -> Z.

  (** 544-545; reads [n] words from position [i], writes element [i] *)
  Fixpoint ngram_loop (n : nat) (keys : list Z) (i : nat) (count : nat) (out : list Z) : result (list Z) :=
    match count with
    | O => Ok out
    | S count' =>
      if (length keys <? i + n)%nat || (length out <=? i)%nat then Err MemFault
      else ngram_loop n keys (S i) count' (set_nth i (hash64 (firstn n (skipn i keys))) out)
    end.
  (** 537-546 [NumpyOps.ngrams]; [&keys[0]] is bounds-checked *)
  Definition np_ngrams (n : Z) (keys : list Z) : result (list Z) :=
    if n <? 1 then Ok []
    else if (length keys =? 0)%nat then Err IndexError
    else
      let length_ := Z.max 0 (Z.of_nat (length keys) - (n - 1)) in
      let output := repeat 0 (Z.to_nat length_) in
      ngram_loop (Z.to_nat n) keys 0 (Z.to_nat (Z.of_nat (length keys) - (n - 1))) output.
  (** ops.py 1361-1367 [Ops.ngrams], also the version of CupyOps: the hashes are converted to [int32] *)
  Definition op_ngrams (n : Z) (keys : list Z) : result (list Z) :=
    let* l := np_ngrams n (map w64 keys) in Ok (map s32 l).
End Ngrams.
