(** C61: hashing on the GPU. *)
From Verif Require Import CudaHashProofs CudaSpec HashSpec CudaHashModel.

(** For 64-bit ids and a 32-bit seed the GPU gives the rows of the CPU, for any grid and interleaving. *)
Theorem C61_gpu_hash_is_cpu_hash :
  forall c ids seed, has_threads c -> Forall (word 64) ids -> word 32 seed -> cu_hash c 8 ids seed = np_hash ids seed.
Proof. exact hash_cu. Qed.
Print Assumptions C61_gpu_hash_is_cpu_hash.
Example C61_gpu_hash_ex :
  cu_hash (mkC 1 2 [1; 0; 0; 1]) 8 [1; 2 ^ 64 - 1; 12345678901234567]%Z 7 = np_hash [1; 2 ^ 64 - 1; 12345678901234567]%Z 7.
Proof. vm_compute. reflexivity. Qed.
(** The general function, on the published test vectors "hello" and "The quick brown fox jumps over the lazy dog". *)
Theorem C61_test_vectors :
  murmur3_x64_128 [104; 101; 108; 108; 111]%Z 0 5 0 = Ok (14688674573012802306, 6565844092913065241)%Z /\
  murmur3_x64_128 [84; 104; 101; 32; 113; 117; 105; 99; 107; 32; 98; 114; 111; 119; 110; 32; 102; 111; 120; 32; 106; 117; 109; 112; 115; 32;
    111; 118; 101; 114; 32; 116; 104; 101; 32; 108; 97; 122; 121; 32; 100; 111; 103]%Z 0 43 0 = Ok (16378391709484522348, 8809951995912426311)%Z.
Proof. exact test_vectors. Qed.
Print Assumptions C61_test_vectors.
(** An 8-byte key is hashed the way the CPU does it, wherever it lies in memory. *)
Theorem C61_murmur_of_8_bytes :
  forall data key v seed, word 64 v -> word 32 seed -> (forall j, j < 8 -> load data (key + j) = Ok (nth j (le_bytes 8 v) 0%Z)) ->
  exists h1 h2, murmur3_x64_128 data key 8 seed = Ok (h1, h2) /\ word 64 h1 /\ word 64 h2 /\
    murmur128 v seed = [w32 h1; w32 (Z.shiftr h1 32); w32 h2; w32 (Z.shiftr h2 32)].
Proof. exact murmur_8. Qed.
Print Assumptions C61_murmur_of_8_bytes.
(** Finding: the ids are not converted, and 8 bytes are read per id: with narrower ids a thread reads outside. *)
Theorem C61_narrow_ids_refuted :
  forall c w ids seed, has_threads c -> w < 8 -> ids <> [] -> cu_hash c w ids seed = Err MemFault.
Proof. exact hash_narrow. Qed.
Print Assumptions C61_narrow_ids_refuted.
Example C61_narrow_ex : cu_hash (mkC 1 2 []) 4 [1; 2; 3]%Z 7 = Err MemFault. Proof. vm_compute. reflexivity. Qed.
(** No ids give no rows; an empty grid is refused; only the low bits of the seed count, where the CPU refuses it. *)
Theorem C61_edges :
  forall c w ids seed, (~ has_threads c -> cu_hash c w ids seed = Err RuntimeError) /\ (has_threads c -> cu_hash c w [] seed = Ok []).
Proof. exact hash_errors. Qed.
Print Assumptions C61_edges.
Theorem C61_seed_low_bits : forall c w ids seed, cu_hash c w ids seed = cu_hash c w ids (seed mod 2 ^ 32)%Z.
Proof. exact hash_seed_low. Qed.
Print Assumptions C61_seed_low_bits.
