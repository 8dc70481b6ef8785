(** Properties C26 (minibatch) and C27 (multibatch). Theorems only. *)
From Coq Require Import QArith Permutation.
From Verif Require Import BatchModel BatchProofs.
Open Scope nat_scope.

(** C26. Any positive integer sizes, any shuffle of the index array, any buffer: the batches
    concatenate to the data in shuffled order, none is empty, each has the requested size except
    possibly the last, and the advertised length is the number of batches. *)
Theorem C26_minibatch_partition :
  forall {A} (data : list A) (s : nat -> Z) indices buffer fuel,
  (forall k, 1 <= s k)%Z -> Permutation indices (seq 0 (length data)) -> length data < fuel ->
  exists batches,
    minibatch fuel (int_sizes s) data indices buffer = Ok (SizedGen (length batches) (Ok batches)) /\
    mapM (py_get data) indices = Ok (concat batches) /\
    Permutation (concat batches) data /\
    (forall k b, nth_error batches k = Some b ->
       b <> [] /\ (Z.of_nat (length b) <= s k)%Z /\
       (S k < length batches -> Z.of_nat (length b) = s k)).
Proof. exact @minibatch_partition_lemma. Qed.
Print Assumptions C26_minibatch_partition.

Example C26_minibatch_partition_ex :
  Permutation [3; 0; 4; 1; 2] (seq 0 (length [10; 11; 12; 13; 14])) /\
  minibatch 6 (int_sizes (fun k => Z.of_nat (S k))) [10; 11; 12; 13; 14] [3; 0; 4; 1; 2] 2
  = Ok (SizedGen 3 (Ok [[13]; [10; 14]; [11; 12]])).
Proof.
  split; [|vm_compute; reflexivity]. apply NoDup_Permutation_bis.
  - repeat constructor; simpl; lia.
  - simpl; lia.
  - intros x Hx. simpl in *. lia.
Qed.

(** C26, no shuffle: the batches concatenate to the data itself. *)
Theorem C26_minibatch_in_order :
  forall {A} (data : list A) (s : nat -> Z) buffer fuel,
  (forall k, 1 <= s k)%Z -> length data < fuel ->
  exists batches,
    minibatch fuel (int_sizes s) data (seq 0 (length data)) buffer
      = Ok (SizedGen (length batches) (Ok batches)) /\
    concat batches = data.
Proof. exact @minibatch_in_order_lemma. Qed.
Print Assumptions C26_minibatch_in_order.

Example C26_minibatch_in_order_ex :
  minibatch 6 (repeat_size 2) [10; 11; 12; 13; 14] (seq 0 5) 3
  = Ok (SizedGen 3 (Ok [[10; 11]; [12; 13]; [14]])).
Proof. vm_compute; reflexivity. Qed.

(** C26, buffering never changes the result (whatever the sizes, also for failures). *)
Theorem C26_minibatch_buffer_irrelevant :
  forall {A} fuel size (data : list A) indices b1 b2,
  minibatch fuel size data indices b1 = minibatch fuel size data indices b2.
Proof. exact @minibatch_buffer_lemma. Qed.
Print Assumptions C26_minibatch_buffer_irrelevant.

(** C26, error cases: a size iterator that runs out raises StopIteration; size 0 never terminates. *)
Theorem C26_minibatch_exhausted :
  forall {A} fuel (s : nat -> Z) m (data : list A) indices buffer,
  (forall k, 1 <= s k)%Z ->
  (fold_right Z.add 0 (map s (seq 0 m)) < Z.of_nat (length data))%Z -> m < fuel ->
  minibatch fuel (fun j => if j <? m then int_sizes s j else None) data indices buffer
  = Err StopIteration.
Proof. exact @minibatch_exhausted_lemma. Qed.
Print Assumptions C26_minibatch_exhausted.

Example C26_minibatch_exhausted_ex :
  (fold_right Z.add 0 (map (fun _ => 2) (seq 0 2)) < Z.of_nat (length [1; 2; 3; 4; 5]))%Z.
Proof. vm_compute; reflexivity. Qed.

Theorem C26_minibatch_zero_size_diverges :
  forall {A} fuel (data : list A) indices buffer,
  data <> [] -> minibatch fuel (repeat_size 0) data indices buffer = Err OutOfFuel.
Proof. exact @minibatch_zero_size_lemma. Qed.
Print Assumptions C26_minibatch_zero_size_diverges.

Example C26_minibatch_zero_size_ex : [1; 2] <> [] /\ length [1; 2] = 2.
Proof. split; [discriminate|reflexivity]. Qed.

(** C26 finding: with fractional sizes (what every schedule generator produces) items are lost,
    because the loop counts the fractional sizes but slices with their integer parts. *)
Theorem C26_minibatch_fractional_sizes_refuted :
  exists (data : list nat) (size : size_source) batches,
    (forall k q, size k = Some q -> (1 <= q)%Q) /\
    minibatch 10 size data (seq 0 (length data)) 1 = Ok (SizedGen 2 (Ok batches)) /\
    ~ Permutation (concat batches) data.
Proof. exact minibatch_fractional_refuted_lemma. Qed.
Print Assumptions C26_minibatch_fractional_sizes_refuted.

(** C27. Every batch takes the same index list [idx] from every sequence (so rows stay aligned),
    the index lists partition the (shuffled) index array, and sizes are as requested. *)
Theorem C27_multibatch_aligned :
  forall {A} (data : list A) (others : list (list A)) (s : nat -> Z) indices buffer fuel,
  (forall k, 1 <= s k)%Z -> Permutation indices (seq 0 (length data)) -> length data < fuel ->
  (forall o, In o others -> length o = length data) ->
  exists idxs batches,
    multibatch fuel (int_sizes s) data others indices buffer
      = Ok (SizedGen (length batches) (Ok batches)) /\
    concat idxs = indices /\ length batches = length idxs /\
    (forall k b idx, nth_error batches k = Some b -> nth_error idxs k = Some idx ->
       idx <> [] /\ (Z.of_nat (length idx) <= s k)%Z /\
       (S k < length batches -> Z.of_nat (length idx) = s k) /\
       length b = S (length others) /\
       forall j sj bj, nth_error (data :: others) j = Some sj -> nth_error b j = Some bj ->
         length bj = length idx /\
         forall r i, nth_error idx r = Some i -> nth_error bj r = nth_error sj i /\ i < length sj).
Proof. exact @multibatch_aligned_lemma. Qed.
Print Assumptions C27_multibatch_aligned.

Example C27_multibatch_aligned_ex :
  multibatch 6 (repeat_size 2) [10; 11; 12] [[20; 21; 22]; [30; 31; 32]] [2; 0; 1] 2
  = Ok (SizedGen 2 (Ok [[[12; 10]; [22; 20]; [32; 30]]; [[11]; [21]; [31]]])).
Proof. vm_compute; reflexivity. Qed.

(** C27 finding: sequences of different lengths are not rejected; trailing items of a longer
    sequence are silently dropped. *)
Theorem C27_multibatch_length_check_refuted :
  exists (xs ys : list nat) batches,
    length xs <> length ys /\
    multibatch 10 (repeat_size 2) xs [ys] (seq 0 (length xs)) 1 = Ok (SizedGen 1 (Ok batches)) /\
    forall b, In b batches -> exists bx by', b = [bx; by'] /\ ~ In 9 by' /\ In 9 ys.
Proof. exact multibatch_length_refuted_lemma. Qed.
Print Assumptions C27_multibatch_length_check_refuted.
