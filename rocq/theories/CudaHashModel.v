(** Hashing on the GPU: thinc/backends/_murmur3.cu 44-47, 74-83, 87-188, thinc/backends/_custom_kernels.py 798-810 and
    thinc/backends/cupy_ops.py 326-327. No proofs here. Memory is bytes, little-endian; [uint64_t] arithmetic wraps.
    CuPy passes the low 32 bits of the seed. [fmix32] (59-68) is not used. *)
From Verif Require Export CudaModel HashModel.
Local Open Scope Z_scope.

(** The [n] bytes of a number, and the number of some bytes *)
Fixpoint le_bytes (n : nat) (x : Z) : list Z := match n with O => [] | S n' => x mod 256 :: le_bytes n' (x / 256) end.
Fixpoint le_word (bytes : list Z) : Z := match bytes with [] => 0 | b :: l => b + 256 * le_word l end.

(** 44-47 *)
Definition rotl64 (x r : Z) : Z := w64 (Z.lor (w64 (Z.shiftl x r)) (Z.shiftr x (64 - r))).
(** 56 [getblock] of 8 bytes *)
Definition getblock (data : list Z) (key i : nat) : result Z :=
  let* bytes := mapM (fun j => load data (key + 8 * i + j)) (seq 0 8) in Ok (le_word bytes).
Definition c1 : Z := 9782798678568883157. (* 0x87c37b91114253d5 *)
Definition c2 : Z := 5545529020109919103. (* 0x4cf5ad432745937f *)
(** 110 and 146; 114 and 136 *)
Definition mix_k1 (k1 : Z) : Z := w64 (rotl64 (w64 (k1 * c1)) 31 * c2).
Definition mix_k2 (k2 : Z) : Z := w64 (rotl64 (w64 (k2 * c2)) 33 * c1).
(** 105-117 *)
Fixpoint murmur_body (data : list Z) (key i n : nat) (h1 h2 : Z) : result (Z * Z) :=
  match n with
  | O => Ok (h1, h2)
  | S n' =>
    let* k1 := getblock data key (i * 2 + 0) in
    let* k2 := getblock data key (i * 2 + 1) in
    let h1 := Z.lxor h1 (mix_k1 k1) in
    let h1 := rotl64 h1 27 in
    let h1 := w64 (h1 + h2) in
    let h1 := w64 (h1 * 5 + 1390208809) in (* 0x52dce729 *)
    let h2 := Z.lxor h2 (mix_k2 k2) in
    let h2 := rotl64 h2 31 in
    let h2 := w64 (h2 + h1) in
    let h2 := w64 (h2 * 5 + 944331445) in (* 0x38495ab5 *)
    murmur_body data key (S i) n' h1 h2
  end.
(** 127-147: the cases of the switch fall through; case [n] (or [8 + n]) xors byte [n - 1] (or [8 + n - 1]) *)
Fixpoint murmur_tail (data : list Z) (tail n : nat) (k : Z) : result Z :=
  match n with
  | O => Ok k
  | S n' => let* b := load data (tail + n') in murmur_tail data tail n' (Z.lxor k (w64 (Z.shiftl b (8 * Z.of_nat n'))))
  end.
(** 87-165 [MurmurHash3_x64_128] of the [len] bytes from [key] *)
Definition murmur3_x64_128 (data : list Z) (key len : nat) (seed : Z) : result (Z * Z) :=
  let nblocks := (len / 16)%nat in
  let* p := murmur_body data key 0 nblocks seed seed in
  let tail := (key + nblocks * 16)%nat in
  let rem := (len mod 16)%nat in
  let* h2 := (if (9 <=? rem)%nat then let* k2 := murmur_tail data (tail + 8) (rem - 8) 0 in Ok (Z.lxor (snd p) (mix_k2 k2)) else Ok (snd p)) in
  let* h1 := (if (1 <=? rem)%nat then let* k1 := murmur_tail data tail (Nat.min rem 8) 0 in Ok (Z.lxor (fst p) (mix_k1 k1)) else Ok (fst p)) in
  let h1 := Z.lxor h1 (Z.of_nat len) in
  let h2 := Z.lxor h2 (Z.of_nat len) in
  let h1 := w64 (h1 + h2) in
  let h2 := w64 (h2 + h1) in
  let h1 := fmix64 h1 in
  let h2 := fmix64 h2 in
  let h1 := w64 (h1 + h2) in
  let h2 := w64 (h2 + h1) in
  Ok (h1, h2).
(** 171-188 [hash_data]; [entropy] has 16 bytes *)
Definition k_hash_data (src : list Z) (out_size in_size : nat) (seed : Z) (i : nat) : result (list (instr Z)) :=
  let* h := murmur3_x64_128 src (i * in_size) in_size seed in
  let entropy := (le_bytes 8 (fst h) ++ le_bytes 8 (snd h))%list in
  for_n out_size (fun j => let* x := load entropy j in Ok [Wr (i * out_size + j)%nat x]).
(** _custom_kernels.py 798-810 [hash] of an array whose elements have [itemsize] bytes; cupy_ops.py 326-327 does not
    convert it. The rows of the result are four [uint32]. *)
Definition cu_hash (c : config) (itemsize : nat) (ids : list Z) (seed : Z) : result (list (list Z)) :=
  let n := length ids in
  let src := flat_map (le_bytes itemsize) ids in
  let* out := launch c n (stateless (k_hash_data src 16 8 (w32 seed))) tt (repeat 0 (n * 16)) in
  Ok (map (fun row => map le_word (cells_of 4 4 row)) (cells_of 16 n out)).
