(** C39: hashing of keys. [word n x]: x is an n-bit unsigned integer. *)
From Verif Require Import HashSpec HashProofs.
Local Open Scope nat_scope.

(** hash returns four 32-bit words per id, and row i depends on id i and the seed only. *)
Theorem C39_hash :
  forall ids seed, word 32 seed -> exists rows, np_hash ids seed = Ok rows /\ length rows = length ids /\
    Forall (fun r => length r = 4 /\ Forall (word 32) r) rows /\ forall i id, nth_error ids i = Some id -> nth_error rows i = Some (murmur128 id seed).
Proof. exact hash_ok. Qed.
Print Assumptions C39_hash.
Example C39_hash_ex : np_hash [1; 2 ^ 64 - 1]%Z 7 = Ok [[3089165797; 1536154270; 2023308811; 4074317197]; [3047236301; 3599381855; 1331799921; 2604828161]]%Z.
Proof. vm_compute. reflexivity. Qed.
Theorem C39_seed_checked : forall ids seed, ~ word 32 seed -> np_hash ids seed = Err OverflowError.
Proof. exact hash_seed. Qed.
Print Assumptions C39_seed_checked.
(** The generic backend gives the same rows for 64-bit ids modulo 2^32. Finding: as signed numbers, which are other
    numbers for half of the keys. *)
Theorem C39_backends : forall ids seed rows, Forall (word 64) ids -> np_hash ids seed = Ok rows ->
  exists rows', op_hash ids seed = Ok rows' /\ Forall2 (Forall2 (fun s u => - 2 ^ 31 <= s < 2 ^ 31 /\ s mod 2 ^ 32 = u mod 2 ^ 32)%Z) rows' rows.
Proof. exact op_hash_words. Qed.
Print Assumptions C39_backends.
Theorem C39_backends_refuted : exists ids seed rows, Forall (word 64) ids /\ word 32 seed /\ np_hash ids seed = Ok rows /\ op_hash ids seed <> Ok rows.
Proof. exact op_hash_signed. Qed.
Print Assumptions C39_backends_refuted.
Theorem C39_backends_seed : forall ids seed, ~ word 32 seed -> op_hash ids seed = Err OverflowError.
Proof. exact op_hash_seed. Qed.
Print Assumptions C39_backends_seed.
Example C39_backends_ex : op_hash [1]%Z 7 = Ok [[-1205801499; 1536154270; 2023308811; -220650099]]%Z.
Proof. vm_compute. reflexivity. Qed.
(** Different ids never share all four words. *)
Theorem C39_hash_injective :
  forall ids seed rows i j x y, Forall (word 64) ids -> np_hash ids seed = Ok rows -> nth_error ids i = Some x -> nth_error ids j = Some y ->
    nth_error rows i = nth_error rows j -> x = y.
Proof. exact hash_distinct. Qed.
Print Assumptions C39_hash_injective.

(** ngrams, for any hash of a run of keys: one element per run of n keys, none if there are fewer keys. *)
Theorem C39_ngrams :
  forall hash64 n keys, 1 <= n -> keys <> [] ->
    np_ngrams hash64 (Z.of_nat n) keys = Ok (map (fun i => hash64 (firstn n (skipn i keys))) (seq 0 (length keys + 1 - n))).
Proof. exact ngrams_ok. Qed.
Print Assumptions C39_ngrams.
Theorem C39_ngrams_length :
  forall hash64 n keys out, keys <> [] -> np_ngrams hash64 n keys = Ok out -> Z.of_nat (length out) = (if n <? 1 then 0 else Z.max 0 (Z.of_nat (length keys) - n + 1))%Z.
Proof. exact ngrams_length. Qed.
Print Assumptions C39_ngrams_length.
(** Element i depends only on keys i to i+n-1. *)
Theorem C39_ngrams_local :
  forall hash64 n keys keys' i a b, length keys = length keys' -> keys <> [] -> 1 <= n ->
    (forall k, i <= k < i + n -> nth_error keys k = nth_error keys' k) ->
    np_ngrams hash64 (Z.of_nat n) keys = Ok a -> np_ngrams hash64 (Z.of_nat n) keys' = Ok b -> nth_error a i = nth_error b i.
Proof. exact ngrams_local. Qed.
Print Assumptions C39_ngrams_local.
Definition exH (l : list Z) : Z := fold_left (fun a x => a * 10 + x)%Z l 0%Z.
Example C39_ngrams_ex : np_ngrams exH 2 [1; 2; 3; 4]%Z = Ok [12; 23; 34]%Z /\ np_ngrams exH 4 [1; 2; 3; 4]%Z = Ok [1234]%Z /\ np_ngrams exH 5 [1; 2; 3; 4]%Z = Ok [].
Proof. repeat split. Qed.
(** No ngrams for n < 1. Finding: an empty key array raises. *)
Theorem C39_ngrams_empty_refuted :
  forall hash64 n keys, (n < 1 -> np_ngrams hash64 n keys = Ok [])%Z /\ (1 <= n -> np_ngrams hash64 n [] = Err IndexError)%Z.
Proof. exact ngrams_errors. Qed.
Print Assumptions C39_ngrams_empty_refuted.

(** Finding: the ngrams of the generic backend, which is also that of CupyOps, are cut to 32 bits and signed, so that
    they are other keys than those of NumpyOps, and different ngrams can collide. *)
Theorem C39_ngrams_backends : forall hash64 n keys l, Forall (word 64) keys -> np_ngrams hash64 n keys = Ok l -> op_ngrams hash64 n keys = Ok (map s32 l).
Proof. exact op_ngrams_ok. Qed.
Print Assumptions C39_ngrams_backends.
Theorem C39_ngrams_backends_refuted : exists hash64 n keys, (forall l, word 64 (hash64 l)) /\ Forall (word 64) keys /\
  np_ngrams hash64 n keys = Ok [2 ^ 32 + 5; 5]%Z /\ op_ngrams hash64 n keys = Ok [5; 5]%Z.
Proof. exact ngrams_cut. Qed.
Print Assumptions C39_ngrams_backends_refuted.
