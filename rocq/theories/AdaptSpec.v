(** Vocabulary of the theorems about sequence-format adapters. A sequence is its list of rows. *)
From Verif Require Export AdaptModel SeqSpec.

Section Spec.
  Context {T : Type} (z : T).
  Local Notation sq := (list (list T)).

  Definition width (w : nat) (s : sq) : Prop := Forall (fun r => length r = w) s.

  (** A padded batch of these sequences, in some order, its lengths and batch sizes right; the cells
      beyond the end of a sequence hold anything. *)
  Record pads (w : nat) (p : padded T) (seqs : list sq) : Prop := {
    pf_tail : a3_tail (p_data p) = [w];
    pf_n1 : a3_n1 (p_data p) = length seqs;
    pf_perm : Permutation (p_indices p) (seq 0 (length seqs));
    pf_lens : p_lengths p = map (fun j => length (nth j seqs [])) (p_indices p);
    pf_max : Forall (fun s => length s <= length (a3_cells (p_data p))) seqs;
    pf_cells : Forall (fun c => length c = length seqs /\ width w c) (a3_cells (p_data p));
    pf_data : forall i j t, nth_error (p_indices p) i = Some j -> t < length (nth j seqs []) ->
      nth i (nth t (a3_cells (p_data p)) []) [] = nth t (nth j seqs []) []
  }.
  (** ... and the cells beyond the end are zero, as in the batches list2padded makes. *)
  Definition zero_filled (w : nat) (p : padded T) (seqs : list sq) : Prop :=
    forall i j t, nth_error (p_indices p) i = Some j -> length (nth j seqs []) <= t < length (a3_cells (p_data p)) ->
      nth i (nth t (a3_cells (p_data p)) []) [] = zero_row z [w].

  (** The value is one of the formats and holds these sequences of rows of width [w]. *)
  Inductive stands (w : nat) : seqval T -> list sq -> Prop :=
  | stands_list Xs : like [w] Xs -> stands w (VList Xs) (map a_rows Xs)
  | stands_ragged r : wf_ragged r -> r_tail r = [w] -> stands w (VRagged r) (ragged_seqs r)
  | stands_padded p seqs : pads w p seqs -> stands w (VPadded p) seqs.

  Definition is_list (w : nat) (v : seqval T) (seqs : list sq) : Prop := stands w v seqs /\ exists Xs, v = VList Xs.
  Definition is_ragged (w : nat) (v : seqval T) (seqs : list sq) : Prop := stands w v seqs /\ exists r, v = VRagged r.
  Definition is_padded (w : nat) (v : seqval T) (seqs : list sq) : Prop := stands w v seqs /\ exists p, v = VPadded p.
  Definition is_clean (w : nat) (v : seqval T) (seqs : list sq) : Prop :=
    exists p, v = VPadded p /\ pads w p seqs /\ zero_filled w p seqs.

  (** The gradient of a padded batch comes in the same order as the batch. *)
  Definition aligned (x dy : seqval T) : Prop :=
    match x, dy with
    | VPadded p, VPadded q => p_indices p = p_indices q /\ length (a3_cells (p_data p)) = length (a3_cells (p_data q))
    | _, _ => True
    end.

  (** A function on single sequences with its backward function, preserving lengths. *)
  Record seqfun (wi wo : nat) := mkSF {
    sf : sq -> sq;
    sf_back : sq -> sq -> sq;
    sf_ok : forall s, width wi s -> width wo (sf s) /\ length (sf s) = length s;
    sf_back_ok : forall s d, width wi s -> width wo d -> length d = length s -> width wi (sf_back s d) /\ length (sf_back s d) = length s
  }.
  Arguments sf {wi wo}. Arguments sf_back {wi wo}.

  (** The layer [L] applies [F] to each sequence, forward and backward, on inputs of the format [K]; the
      results are in the format [K']. *)
  Definition applies {wi wo} (K K' : nat -> seqval T -> list sq -> Prop) (ok : list sq -> Prop) (L : slayer T) (F : seqfun wi wo) : Prop :=
    forall x seqs, K wi x seqs -> ok seqs ->
      exists y b, L x = Ok (y, b) /\ K' wo y (map (sf F) seqs) /\
        forall dy dseqs, K wo dy dseqs -> aligned x dy -> map (@length _) dseqs = map (@length _) seqs ->
          exists dx, b dy = Ok dx /\ K' wi dx (map (fun q => sf_back F (fst q) (snd q)) (combine seqs dseqs)).

  (** The rows of all sequences in one array. *)
  Definition is_array (w : nat) (v : seqval T) (seqs : list sq) : Prop :=
    v = VArr (mkA [w] (concat seqs)) /\ Forall (width w) seqs.
  (** The layer [L] turns the format [K] into [K'] and gradients in the format [K'] into [K]. *)
  Definition converts (K K' : nat -> seqval T -> list sq -> Prop) (ok : list sq -> Prop) (L : slayer T) : Prop :=
    forall w x seqs, 0 < w -> K w x seqs -> ok seqs ->
      exists y b, L x = Ok (y, b) /\ K' w y seqs /\
        forall dy dseqs, K' w dy dseqs -> map (@length _) dseqs = map (@length _) seqs ->
          exists dx, b dy = Ok dx /\ K w dx dseqs.

  (** At least one sequence has a row. *)
  Definition some_row (seqs : list sq) : Prop := concat seqs <> [].

  (** Row [i] with [k] rows to each side, missing rows replaced by [d]. *)
  Definition window {A} (k : nat) (d : A) (l : list A) (i : nat) : list A :=
    map (fun j => nth j (repeat d k ++ l ++ repeat d k) d) (seq i (2 * k + 1)).
  Definition local {A B} (k : nat) (d : A) (f : list A -> B) (l : list A) : list B :=
    map (fun i => f (window k d l i)) (seq 0 (length l)).

  (** A layer on 2d arrays whose output row depends on the [k] rows to each side; the input gradient of
      a row depends on these rows of the input and of the output gradient. *)
  Definition local_layer (k wi wo : nat) (f : list (list T) -> list T) (g : list (list T * list T) -> list T) (L : slayer T) : Prop :=
    forall X, a_tail X = [wi] -> wf_nda X ->
      exists b, L (VArr X) = Ok (VArr (mkA [wo] (local k (zero_row z [wi]) f (a_rows X))), b) /\
        forall dY, a_tail dY = [wo] -> wf_nda dY -> a_len dY = a_len X ->
          b (VArr dY) = Ok (VArr (mkA [wi] (local k (zero_row z [wi], zero_row z [wo]) g (combine (a_rows X) (a_rows dY))))).
  (** The function on sequences such a layer should compute. *)
  Definition local_fun {wi wo} (k : nat) (f : list (list T) -> list T) (g : list (list T * list T) -> list T) (F : seqfun wi wo) : Prop :=
    (forall s, sf F s = local k (zero_row z [wi]) f s) /\
    (forall s d, sf_back F s d = local k (zero_row z [wi], zero_row z [wo]) g (combine s d)).
  (** The same for [k] = 0 and 3d arrays. *)
  Definition cell_layer (wi wo : nat) (f : list T -> list T) (g : list T -> list T -> list T) (L : slayer T) : Prop :=
    forall X, a3_tail X = [wi] -> Forall (fun c => length c = a3_n1 X /\ width wi c) (a3_cells X) ->
      exists b, L (VArr3 X) = Ok (VArr3 (mkA3 (a3_n1 X) [wo] (map (map f) (a3_cells X))), b) /\
        forall dY, a3_tail dY = [wo] -> Forall (fun c => length c = a3_n1 dY /\ width wo c) (a3_cells dY) ->
          a3_n1 dY = a3_n1 X -> length (a3_cells dY) = length (a3_cells X) ->
          b (VArr3 dY) = Ok (VArr3 (mkA3 (a3_n1 X) [wi]
            (map (fun q => map (fun u => g (fst u) (snd u)) (combine (fst q) (snd q))) (combine (a3_cells X) (a3_cells dY))))).
  Definition cell_fun {wi wo} (f : list T -> list T) (g : list T -> list T -> list T) (F : seqfun wi wo) : Prop :=
    (forall s, sf F s = map f s) /\ (forall s d, sf_back F s d = map (fun u => g (fst u) (snd u)) (combine s d)) /\
    (forall x, length x = wi -> length (f x) = wo) /\ (forall x y, length x = wi -> length y = wo -> length (g x y) = wi).
End Spec.
Arguments sf {T wi wo}. Arguments sf_back {T wi wo}. Arguments mkSF {T wi wo}. Arguments seqfun : clear implicits.
Arguments sf_ok {T wi wo}. Arguments sf_back_ok {T wi wo}.
