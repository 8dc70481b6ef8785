(** C31: layers that adapt a wrapped layer to lists of sequences, Ragged and Padded batches. A batch of
    sequences is a list of lists of rows; [stands] relates it to a value in one of the formats. *)
From Verif Require Import AdaptSpec AdaptProofs WithArrayProofs.

(** A layer that applies a function to each sequence of a list does the same, wrapped with with_list, for
    Ragged and Padded batches, forward and backward; likewise for with_ragged and with_padded. *)
Theorem C31_with_list :
  forall (T : Type) (z : T) wi wo (F : seqfun T wi wo) L, 0 < wi -> 0 < wo -> applies is_list is_list some_row L F ->
    applies is_list is_list some_row (with_list z L) F /\ applies is_ragged is_ragged some_row (with_list z L) F /\
    applies is_padded (is_clean z) some_row (with_list z L) F.
Proof. exact @with_list_all. Qed.
Print Assumptions C31_with_list.
Theorem C31_with_ragged :
  forall (T : Type) (z : T) wi wo (F : seqfun T wi wo) L, 0 < wi -> 0 < wo -> applies is_ragged is_ragged some_row L F ->
    applies is_list is_list some_row (with_ragged z L) F /\ applies is_ragged is_ragged some_row (with_ragged z L) F /\
    applies is_padded (is_clean z) some_row (with_ragged z L) F.
Proof. exact @with_ragged_all. Qed.
Print Assumptions C31_with_ragged.
Theorem C31_with_padded :
  forall (T : Type) (z : T) wi wo (F : seqfun T wi wo) L, 0 < wi -> 0 < wo -> applies (is_clean z) is_padded some_row L F ->
    applies is_list is_list some_row (with_padded z L) F /\ applies is_ragged is_ragged some_row (with_padded z L) F /\
    applies (is_clean z) is_padded some_row (with_padded z L) F.
Proof. exact @with_padded_all. Qed.
Print Assumptions C31_with_padded.

(** with_array on lists: the wrapped layer may look [k] rows to each side if it is padded by as much; the
    result is that of each sequence alone between zero rows. *)
Theorem C31_with_array_list :
  forall (T : Type) (z : T) wi wo (F : seqfun T wi wo) k pad f g L, 0 < wi -> 0 < wo -> k <= pad ->
    local_layer z k wi wo f g L -> local_fun z k f g F ->
    applies is_list is_list (fun seqs => seqs <> []) (with_array z L pad) F /\
    applies is_list is_list (fun seqs => seqs <> []) (with_array2d z L pad) F.
Proof. exact @with_array_windows. Qed.
Print Assumptions C31_with_array_list.
(** Ragged and Padded batches are not padded by with_array: the layer works row by row. *)
Theorem C31_with_array_ragged :
  forall (T : Type) (z : T) wi wo (F : seqfun T wi wo) pad f g L, 0 < wi -> 0 < wo ->
    local_layer z 0 wi wo f g L -> local_fun z 0 f g F ->
    applies is_ragged is_ragged (fun _ => True) (with_array z L pad) F /\ applies is_ragged is_ragged some_row (with_array2d z L pad) F.
Proof. exact @with_array_rows. Qed.
Print Assumptions C31_with_array_ragged.
Theorem C31_with_array_padded :
  forall (T : Type) (z : T) wi wo (F : seqfun T wi wo) pad f g L, 0 < wi -> 0 < wo ->
    cell_layer wi wo f g L -> cell_fun f g F ->
    applies is_padded is_padded (fun _ => True) (with_array z L pad) F.
Proof. exact @with_array_cells. Qed.
Print Assumptions C31_with_array_padded.
Theorem C31_with_array2d_padded :
  forall (T : Type) (z : T) wi wo (F : seqfun T wi wo) pad f g L, 0 < wi -> 0 < wo ->
    local_layer z 0 wi wo f g L -> cell_fun (fun x => f [x]) (fun x y => g [(x, y)]) F ->
    applies is_padded is_padded (fun _ => True) (with_array2d z L pad) F.
Proof. exact @with_array2d_cells. Qed.
Print Assumptions C31_with_array2d_padded.

(** The wrapped layer's own format is passed through. *)
Theorem C31_passes_through :
  forall (T : Type) (z : T) (L : slayer T), (forall r, with_ragged z L (VRagged r) = L (VRagged r)) /\
    (forall p, with_padded z L (VPadded p) = L (VPadded p)) /\ (forall l, with_list z L (VList l) = L (VList l)) /\
    (forall a pad, with_array z L pad (VArr a) = L (VArr a) /\ with_array2d z L pad (VArr a) = L (VArr a)).
Proof. exact @passes_through. Qed.
Print Assumptions C31_passes_through.

(** The conversion layers keep the sequences, forward and backward. *)
Theorem C31_conversions :
  forall (T : Type) (z : T),
    converts is_list is_array (fun seqs => seqs <> []) (list2array z) /\ converts is_list is_ragged some_row (list2ragged_layer z) /\
    converts is_ragged is_list (fun seqs => seqs <> []) (ragged2list z) /\ converts is_list is_padded (fun seqs => seqs <> []) (list2padded_layer z) /\
    converts is_padded is_list (fun seqs => seqs <> []) (padded2list_layer z).
Proof. exact @conversions. Qed.
Print Assumptions C31_conversions.

(** Findings. A Ragged batch without rows loses its width on the way through with_list, even around the
    identity. *)
Theorem C31_no_rows_refuted :
  exists r : ragged nat, is_ragged 2 (VRagged r) [[]; []] /\
    exists y b, with_list 0 (fun x => Ok (x, Ok)) (VRagged r) = Ok (y, b) /\ forall seqs, ~ is_ragged 2 y seqs.
Proof. exact no_rows_lost. Qed.
Print Assumptions C31_no_rows_refuted.
(** with_array assumes that the gradient of a Padded batch comes in the order of the batch: for a layer that
    returns its input as the gradient, a gradient in another order swaps the sequences. *)
Theorem C31_gradient_order_refuted :
  exists (x dy : seqval nat) y b dx, is_padded 1 x [[[1]]; [[2]]] /\ is_padded 1 dy [[[7]]; [[8]]] /\
    @cell_layer nat 1 1 (fun r => r) (fun r _ => r) (fun x => Ok (x, fun _ => Ok x)) /\
    with_array 0 (fun x => Ok (x, fun _ => Ok x)) 0 x = Ok (y, b) /\ b dy = Ok dx /\ is_padded 1 dx [[[2]]; [[1]]].
Proof. exact order_matters. Qed.
Print Assumptions C31_gradient_order_refuted.

(** A layer meeting the hypotheses: each row becomes the sum of its neighbours and itself; the gradient
    flows back the same way. *)
Definition ex_sum (rows : list (list nat)) : list nat := [fold_right Nat.add 0 (map (fun r => nth 0 r 0) rows)].
Definition ex_f := ex_sum.
Definition ex_g (u : list (list nat * list nat)) : list nat := ex_sum (map snd u).
Definition ex_layer : slayer nat := fun x => let* X := as_arr x in
  Ok (VArr (mkA [1] (local 1 [0] ex_f (a_rows X))),
      fun dy => let* dY := as_arr dy in Ok (VArr (mkA [1] (local 1 ([0], [0]) ex_g (combine (a_rows X) (a_rows dY)))))).
Example C31_local_ex : local_layer 0 1 1 1 ex_f ex_g ex_layer.
Proof. intros X Ht Hw. eexists. split; [reflexivity|]. intros dY Hd Hwd El. reflexivity. Qed.
Example C31_with_array_ex :
  let xs := VList [mkA [1] [[1]; [2]; [3]]; mkA [1] []; mkA [1] [[10]; [20]]] in
  match with_array 0 ex_layer 1 xs with
  | Ok (y, b) => y = VList [mkA [1] [[3]; [6]; [5]]; mkA [1] []; mkA [1] [[30]; [30]]] /\
                 b xs = Ok (VList [mkA [1] [[3]; [6]; [5]]; mkA [1] []; mkA [1] [[30]; [30]]])
  | Err _ => False
  end.
Proof. split; reflexivity. Qed.
(** With too little padding the sequences run into each other. *)
Example C31_with_array_unpadded_ex :
  match with_array 0 ex_layer 0 (VList [mkA [1] [[1]; [2]; [3]]; mkA [1] []; mkA [1] [[10]; [20]]]) with
  | Ok (y, b) => y = VList [mkA [1] [[3]; [6]; [15]]; mkA [1] []; mkA [1] [[33]; [30]]]
  | Err _ => False
  end.
Proof. reflexivity. Qed.
Example C31_with_ragged_ex :
  match with_ragged 0 (fun x => Ok (x, Ok)) (VList [mkA [1] [[1]]; mkA [1] [[2]; [3]]]) with
  | Ok (y, b) => y = VList [mkA [1] [[1]]; mkA [1] [[2]; [3]]]
  | Err _ => False
  end.
Proof. reflexivity. Qed.
