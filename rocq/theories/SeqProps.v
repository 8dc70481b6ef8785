(** C28 to C30, C32, C33: representations of batches of sequences. [z] is the zero element, rows are lists. *)
From Verif Require Import SeqSpec SeqProofs PaddedProofs PackProofs.

(** C28. Splitting a flattened list of sequences gives back the list, for every padding. *)
Theorem C28_unflatten_flatten :
  forall (T : Type) (z : T) tail Xs pad nd, shape_size tail <> 0 -> like tail Xs ->
    exists F, flatten z Xs pad nd = Ok F /\ unflatten F (map a_len Xs) pad = Xs.
Proof. exact @unflatten_flatten. Qed.
Print Assumptions C28_unflatten_flatten.
(** [pad] zero rows before each non-empty sequence, and after the last one. *)
Theorem C28_layout :
  forall (T : Type) (z : T) tail Xs pad nd, shape_size tail <> 0 -> like tail Xs -> Xs <> [] ->
    flatten z Xs pad nd = Ok (mkA tail (match nonempty Xs with
      | [] => []
      | _ => concat (map (fun x => zero_rows z pad tail ++ a_rows x) (nonempty Xs)) ++ zero_rows z pad tail
      end)).
Proof. exact @flatten_eq. Qed.
Print Assumptions C28_layout.
Theorem C28_empty :
  forall (T : Type) (z : T) pad nd, flatten z [] pad nd = Ok (mkA (repeat 0 (nd - 1)) []).
Proof. exact @flatten_empty. Qed.
Print Assumptions C28_empty.
Theorem C28_flatten_unflatten :
  forall (T : Type) (z : T) X lens nd, shape_size (a_tail X) <> 0 -> wf_nda X -> lens <> [] -> list_sum_nat lens = a_len X ->
    flatten z (unflatten X lens 0) 0 nd = Ok X.
Proof. exact @flatten_unflatten. Qed.
Print Assumptions C28_flatten_unflatten.
(** Non-empty sequences of different shapes are rejected. *)
Theorem C28_mismatch :
  forall (T : Type) (z : T) Xs pad nd x y, In x Xs -> In y Xs -> a_size x <> 0 -> a_size y <> 0 -> a_tail x <> a_tail y ->
    flatten z Xs pad nd = Err ValueError.
Proof. exact @flatten_mismatch. Qed.
Print Assumptions C28_mismatch.
Definition ex_seqs : list (nda nat) := [mkA [2] [[1; 2]]; mkA [2] []; mkA [2] [[3; 4]; [5; 6]; [7; 8]]].
Example C28_ex : like [2] ex_seqs /\
  flatten 0 ex_seqs 1 2 = Ok (mkA [2] [[0; 0]; [1; 2]; [0; 0]; [3; 4]; [5; 6]; [7; 8]; [0; 0]]) /\
  unflatten (mkA [2] [[0; 0]; [1; 2]; [0; 0]; [3; 4]; [5; 6]; [7; 8]; [0; 0]]) [1; 0; 3] 1 = ex_seqs.
Proof. split; [repeat constructor | split; reflexivity]. Qed.
Example C28_mismatch_ex : flatten 0 [mkA [1] [[1]]; mkA [2] [[1; 2]]] 0 2 = Err ValueError.
Proof. reflexivity. Qed.
(** The restriction to shapes of non-zero size is needed: sequences of width 0 lose their rows. *)
Theorem C28_zero_width_refuted :
  exists (Xs : list (nda nat)) F, like [0] Xs /\ flatten 0 Xs 0 2 = Ok F /\ unflatten F (map a_len Xs) 0 <> Xs.
Proof. exact zero_width. Qed.
Print Assumptions C28_zero_width_refuted.

(** C29. *)
Theorem C29_pad :
  forall (T : Type) (z : T) tail seqs r, like tail seqs -> seqs <> [] -> 1 <= r ->
    exists L, pad_seqs z seqs r = Ok (mkA3 L tail (map (fun s => a_rows s ++ zero_rows z (L - a_len s) tail) seqs)) /\
      L mod r = 0 /\ max_len seqs <= L < max_len seqs + r.
Proof. exact @pad_ok. Qed.
Print Assumptions C29_pad.
Theorem C29_unpad_pad :
  forall (T : Type) (z : T) tail seqs r, like tail seqs -> seqs <> [] -> 1 <= r ->
    exists a, pad_seqs z seqs r = Ok a /\ unpad a (map a_len seqs) = Ok seqs.
Proof. exact @unpad_pad. Qed.
Print Assumptions C29_unpad_pad.
Theorem C29_errors :
  forall (T : Type) (z : T) seqs r,
    r < 1 \/ seqs = [] \/ (exists s t, In s seqs /\ In t seqs /\ a_tail s <> a_tail t) ->
    pad_seqs z seqs r = Err ValueError.
Proof. exact @pad_errors. Qed.
Print Assumptions C29_errors.
Example C29_ex : pad_seqs 0 ex_seqs 2 =
  Ok (mkA3 4 [2] [[[1; 2]; [0; 0]; [0; 0]; [0; 0]]; [[0; 0]; [0; 0]; [0; 0]; [0; 0]]; [[3; 4]; [5; 6]; [7; 8]; [0; 0]]]).
Proof. reflexivity. Qed.

(** C30. *)
Theorem C30_list2padded :
  forall (T : Type) (z : T) w seqs, like [w] seqs ->
    exists p, list2padded z seqs = Ok p /\ represents z w p seqs /\ padded2list p = Ok seqs.
Proof. exact @padded_round_trip. Qed.
Print Assumptions C30_list2padded.
(** Every batch that represents the sequences is split into them, however it was made. *)
Theorem C30_padded2list :
  forall (T : Type) (z : T) w p seqs, represents z w p seqs -> like [w] seqs -> padded2list p = Ok seqs.
Proof. exact @represents_padded2list. Qed.
Print Assumptions C30_padded2list.
Definition ex_padded : padded nat :=
  mkPad (mkA3 3 [2] [[[3; 4]; [1; 2]; [0; 0]]; [[5; 6]; [0; 0]; [0; 0]]; [[7; 8]; [0; 0]; [0; 0]]]) [2; 1; 1] [3; 1; 0] [2; 0; 1].
Example C30_ex : list2padded 0 ex_seqs = Ok ex_padded /\ padded2list ex_padded = Ok ex_seqs.
Proof. split; reflexivity. Qed.

(** C32. Packing lists, step by step, the rows of the sequences still running. *)
Theorem C32_pack :
  forall (T : Type) (z : T) p w, packable p w ->
    padded_to_packed z p = Ok (mk_ragged (mkA [w]
      (concat (map (fun q : nat * list (list T) => firstn (fst q) (snd q)) (combine (p_size_at_t p) (a3_cells (p_data p)))))) (p_size_at_t p)).
Proof. exact @pack_ok. Qed.
Print Assumptions C32_pack.
(** Unpacking puts the pieces back and fills up with zeros, for rows of any width. *)
Theorem C32_unpack :
  forall (T : Type) (z : T) p w X, length (p_size_at_t p) = length (a3_cells (p_data p)) ->
    Forall (fun n => n <= a3_n1 (p_data p)) (p_size_at_t p) ->
    0 < w -> X <> [] -> list_sum_nat (p_size_at_t p) = length X ->
    packed_to_padded z (mk_ragged (mkA [w] X) (p_size_at_t p)) p =
    Ok (mkPad (mkA3 (a3_n1 (p_data p)) [w] (map (fun c => c ++ zero_rows z (a3_n1 (p_data p) - length c) [w]) (chop (p_size_at_t p) X)))
          (p_size_at_t p) (p_lengths p) (p_indices p)).
Proof. exact @unpack_ok. Qed.
Print Assumptions C32_unpack.
Theorem C32_round_trip :
  forall (T : Type) (z : T) p w, packable p w -> 0 < w -> 0 < list_sum_nat (p_size_at_t p) ->
    (forall t i bs c, nth_error (p_size_at_t p) t = Some bs -> nth_error (a3_cells (p_data p)) t = Some c ->
       bs <= i < length c -> nth i c [] = zero_row z [w]) ->
    exists r, padded_to_packed z p = Ok r /\ packed_to_padded z r p = Ok p.
Proof. exact @pack_round_trip. Qed.
Print Assumptions C32_round_trip.
Theorem C32_of_list :
  forall (T : Type) (z : T) w seqs, like [w] seqs -> 0 < w -> (exists s, In s seqs /\ 0 < a_len s) ->
    exists p r, list2padded z seqs = Ok p /\ padded_to_packed z p = Ok r /\ packed_to_padded z r p = Ok p /\ packable p w.
Proof. exact @list_pack. Qed.
Print Assumptions C32_of_list.
Example C32_ex : packable ex_padded 2 /\
  padded_to_packed 0 ex_padded = Ok (mkRag (mkA [2] [[3; 4]; [1; 2]; [5; 6]; [7; 8]]) [2; 1; 1] [2]) /\
  packed_to_padded 0 (mkRag (mkA [2] [[3; 4]; [1; 2]; [5; 6]; [7; 8]]) [2; 1; 1] [2]) ex_padded = Ok ex_padded.
Proof. split; [repeat split; repeat constructor | split; reflexivity]. Qed.
(** A batch without any step loses its width. *)
Theorem C32_no_rows_refuted :
  exists (p p' : padded nat) r, packable p 2 /\ padded_to_packed 0 p = Ok r /\ packed_to_padded 0 r p = Ok p' /\ p' <> p.
Proof. exact pack_no_rows. Qed.
Print Assumptions C32_no_rows_refuted.

(** C33. Indexing by one position, by a slice with a start and step 1, by an array of positions. *)
Theorem C33_int :
  forall (T : Type) (r : ragged T) i, wf_ragged r -> i < length (r_lengths r) ->
    exists r', ragged_get_int r (Z.of_nat i) = Ok r' /\ r_lengths r' = [nth i (r_lengths r) 0] /\ r_tail r' = a_tail (r_data r) /\
      ragged_seqs r' = [nth i (ragged_seqs r) []] /\ a_rows (r_data r') = nth i (ragged_seqs r) [].
Proof. exact @get_int_ok. Qed.
Print Assumptions C33_int.
Theorem C33_slice :
  forall (T : Type) (r : ragged T) a b, wf_ragged r -> (0 <= a)%Z -> let sl := mkSlice (Some a) b 1 in
    exists r', ragged_get r (RSlice sl) = Ok r' /\ r_lengths r' = py_slice_get (r_lengths r) sl /\ r_tail r' = r_tail r /\
      ragged_seqs r' = py_slice_get (ragged_seqs r) sl.
Proof. exact @get_slice_ok. Qed.
Print Assumptions C33_slice.
Theorem C33_array :
  forall (T : Type) (r : ragged T) (l : list nat), wf_ragged r -> l <> [] ->
    Forall (fun i => i < length (r_lengths r) /\ 0 < nth i (r_lengths r) 0) l ->
    exists r', ragged_get r (RArray (map Z.of_nat l)) = Ok r' /\ r_lengths r' = map (fun i => nth i (r_lengths r) 0) l /\ r_tail r' = r_tail r /\
      ragged_seqs r' = map (fun i => nth i (ragged_seqs r) []) l.
Proof. exact @get_array_ok. Qed.
Print Assumptions C33_array.
Definition ex_ragged : ragged nat := mkRag (mkA [2] [[1; 2]; [3; 4]; [5; 6]; [7; 8]]) [1; 0; 2; 1] [2].
Example C33_ex : wf_ragged ex_ragged /\
  ragged_get ex_ragged (RInt 2) = Ok (mkRag (mkA [2] [[3; 4]; [5; 6]]) [2] [2]) /\
  ragged_get ex_ragged (RSlice (mkSlice (Some 1%Z) (Some 3%Z) 1)) = Ok (mkRag (mkA [2] [[3; 4]; [5; 6]]) [0; 2] [2]) /\
  ragged_get ex_ragged (RArray [3%Z; 0%Z]) = Ok (mkRag (mkA [2] [[7; 8]; [1; 2]]) [1; 1] [2]).
Proof.
  split; [split; [discriminate | split; [repeat constructor | split; [reflexivity | right; split; [discriminate | reflexivity]]]] | repeat split; reflexivity].
Qed.
(** Deviations: index -1 drops the length of every batch; a slice without a start fails unless it selects nothing. *)
Theorem C33_last_refuted :
  forall (T : Type) (r : ragged T), r_lengths r <> [] -> exists r', ragged_get r (RInt (-1)) = Ok r' /\ r_lengths r' = [].
Proof. exact @get_last_loses_length. Qed.
Print Assumptions C33_last_refuted.
(** More than one index, a step of 0, and a slice that selects nothing. *)
Theorem C33_errors :
  forall (T : Type) (r : ragged T) sl, ragged_get r RTuple = Err IndexError /\ (sl_step sl = 0 -> ragged_get r (RSlice sl) = Err ValueError) /\
    (sl_step sl <> 0 -> py_slice_get (r_lengths r) sl = [] -> shape_size (r_tail r) <> 0 -> exists r', ragged_get r (RSlice sl) = Ok r' /\ r_lengths r' = [] /\ a_rows (r_data r') = []).
Proof. exact @ragged_get_errors. Qed.
Print Assumptions C33_errors.
Theorem C33_open_slice_refuted :
  forall (T : Type) (r : ragged T) b step, py_slice_get (r_lengths r) (mkSlice None b step) <> [] -> 0 < step ->
    ragged_get r (RSlice (mkSlice None b step)) = Err TypeError.
Proof. exact @get_open_slice_error. Qed.
Print Assumptions C33_open_slice_refuted.
(** A negative start takes the rows from the beginning; a step skips lengths but not rows; an array of
    positions of an empty and a non-empty sequence fails. *)
Theorem C33_negative_start_refuted :
  exists (r r' : ragged nat) sl, wf_ragged r /\ sl_step sl = 1 /\ ragged_get r (RSlice sl) = Ok r' /\
    ragged_seqs r' <> py_slice_get (ragged_seqs r) sl.
Proof. exact negative_start. Qed.
Print Assumptions C33_negative_start_refuted.
Theorem C33_step_refuted :
  exists (r r' : ragged nat) sl, wf_ragged r /\ sl_start sl = Some 0%Z /\ ragged_get r (RSlice sl) = Ok r' /\
    ragged_seqs r' <> py_slice_get (ragged_seqs r) sl.
Proof. exact slice_step. Qed.
Print Assumptions C33_step_refuted.
Theorem C33_empty_refuted :
  exists (r : ragged nat) l, wf_ragged r /\ Forall (fun i => i < length (r_lengths r)) l /\ l <> [] /\
    ragged_get r (RArray (map Z.of_nat l)) = Err ValueError.
Proof. exact array_with_empty. Qed.
Print Assumptions C33_empty_refuted.
(** Selecting from a padded batch stores lengths as batch sizes, and the selection cannot be split again. *)
Theorem C33_padded_refuted :
  exists (p p' : padded nat) seqs, list2padded 0 seqs = Ok p /\ padded_get p (PInt 0) = Ok p' /\
    p_size_at_t p' = p_lengths p' /\ p_size_at_t p' <> map (fun t => length (filter (fun n => t <? n) (p_lengths p'))) (seq 0 (length (a3_cells (p_data p')))) /\
    padded2list p' = Err IndexError.
Proof. exact padded_index. Qed.
Print Assumptions C33_padded_refuted.
