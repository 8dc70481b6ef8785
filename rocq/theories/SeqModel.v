(** Sequence representations and conversions between them: thinc/backends/ops.py 319-483,
    Padded and Ragged of thinc/types.py, and the packing of thinc/layers/lstm.py. No proofs here.
    Arrays hold elements of an arbitrary type with a zero [z]. dtypes and devices are not modelled. *)
From Verif Require Export Base.

Definition shape_size (l : list nat) : nat := fold_right Nat.mul 1 l.

(** An array with at least one axis: the shape after the first axis, and the rows, each listed flat. *)
Record nda (T : Type) := mkA { a_tail : list nat; a_rows : list (list T) }.
Arguments mkA {T}. Arguments a_tail {T}. Arguments a_rows {T}.
Definition a_len {T} (a : nda T) : nat := length (a_rows a).
Definition a_size {T} (a : nda T) : nat := a_len a * shape_size (a_tail a).

(** An array with at least two axes: shape [length a3_cells :: a3_n1 :: a3_tail]. *)
Record arr3 (T : Type) := mkA3 { a3_n1 : nat; a3_tail : list nat; a3_cells : list (list (list T)) }.
Arguments mkA3 {T}. Arguments a3_n1 {T}. Arguments a3_tail {T}. Arguments a3_cells {T}.

(** thinc/types.py 1109-1131 [Padded] *)
Record padded (T : Type) := mkPad { p_data : arr3 T; p_size_at_t : list nat; p_lengths : list nat; p_indices : list nat }.
Arguments mkPad {T}. Arguments p_data {T}. Arguments p_size_at_t {T}. Arguments p_lengths {T}. Arguments p_indices {T}.

(** thinc/types.py 1163-1177 [Ragged]. [r_data] is the 2d array, [r_tail] is [data_shape[1:]]. *)
Record ragged (T : Type) := mkRag { r_data : nda T; r_lengths : list nat; r_tail : list nat }.
Arguments mkRag {T}. Arguments r_data {T}. Arguments r_lengths {T}. Arguments r_tail {T}.

Section Seq.
  Context {T : Type} (z : T).

  Definition zero_row (tail : list nat) : list T := repeat z (shape_size tail).
  Definition zero_rows (n : nat) (tail : list nat) : list (list T) := repeat (zero_row tail) n.

  Definition same_shape (a b : list nat) : bool := if list_eq_dec Nat.eq_dec a b then true else false.

  (** [xp.concatenate] along the first axis: the other axes must agree; nothing to concatenate raises. *)
  Definition concatenate (Xs : list (nda T)) : result (nda T) :=
    match Xs with
    | [] => Err ValueError
    | x :: _ =>
      if forallb (fun y => same_shape (a_tail x) (a_tail y)) Xs
      then Ok (mkA (a_tail x) (concat (map a_rows Xs))) else Err ValueError
    end.

  (** ops.py 319-344 [flatten]; the list [padded] built by its loop *)
  Definition flatten_padded (pad : nat) (X : list (nda T)) : list (nda T) :=
    concat (map (fun x => [mkA (a_tail x) (zero_rows pad (a_tail x)); x]) X)
    ++ match rev X with [] => [] | x :: _ => [mkA (a_tail x) (zero_rows pad (a_tail x))] end.
  Definition flatten (X : list (nda T)) (pad ndim_if_empty : nat) : result (nda T) :=
    match X with
    | [] => Ok (mkA (repeat 0 (ndim_if_empty - 1)) [])
    | x0 :: _ =>
      let X' := filter (fun x => negb (Nat.eqb (a_size x) 0)) X in
      match X' with
      | [] => Ok (mkA (a_tail x0) (zero_rows (a_len x0) (a_tail x0)))
      | _ => concatenate (if 1 <=? pad then flatten_padded pad X' else X')
      end
    end.

  Fixpoint cumsum_from (acc : nat) (l : list nat) : list nat :=
    match l with [] => [] | x :: l' => (acc + x) :: cumsum_from (acc + x) l' end.
  Definition cumsum := cumsum_from 0.
  (** Array slice [X[st:en]] with clamped bounds. *)
  Definition slice_rows {A} (st en : nat) (l : list A) : list A := firstn (en - st) (skipn st l).
  (** [xp.split(X, points)]: the pieces between consecutive points, the last one running to the end. *)
  Fixpoint split_from (st : nat) (points : list nat) (X : nda T) : list (nda T) :=
    match points with
    | [] => [mkA (a_tail X) (skipn st (a_rows X))]
    | p :: points' => mkA (a_tail X) (slice_rows st p (a_rows X)) :: split_from p points' X
    end.
  (** ops.py 364-379 [unflatten] *)
  Definition unflatten (X : nda T) (lengths : list nat) (pad : nat) : list (nda T) :=
    let lengths' := if 0 <? pad then map (fun n => if 0 <? n then n + pad else 0) lengths else lengths in
    let unflat := removelast (split_from 0 (cumsum lengths') X) in
    if 0 <? pad then map (fun a => mkA (a_tail a) (skipn pad (a_rows a))) unflat else unflat.

  (** ops.py 389-420 [pad] (one dtype: the dtype check cannot fail) *)
  Definition pad_seqs (seqs : list (nda T)) (round_to : nat) : result (arr3 T) :=
    if round_to <? 1 then Err ValueError
    else
      match seqs with
      | [] => Err ValueError
      | s0 :: _ =>
        if negb (forallb (fun s => Nat.eqb (length (a_tail s)) (length (a_tail s0))) seqs) then Err ValueError
        else if negb (forallb (fun s => same_shape (a_tail s) (a_tail s0)) seqs) then Err ValueError
        else
          let m := fold_right Nat.max 0 (map a_len seqs) in
          let max_seq_len := m + Z.to_nat (Z.modulo (- Z.of_nat m) (Z.of_nat round_to)) in
          Ok (mkA3 max_seq_len (a_tail s0)
                (map (fun s => a_rows s ++ zero_rows (max_seq_len - a_len s) (a_tail s0)) seqs))
      end.
  (** ops.py 422-429 [unpad] *)
  Definition unpad (padded : arr3 T) (lengths : list nat) : result (list (nda T)) :=
    mapM (fun p => let* c := py_get (a3_cells padded) (fst p) in Ok (mkA (a3_tail padded) (firstn (snd p) c)))
      (combine (seq 0 (length lengths)) lengths).

  (** [arr.transpose((1, 0, 2))] *)
  Definition transpose3 (a : arr3 T) : arr3 T :=
    mkA3 (length (a3_cells a)) (a3_tail a)
      (map (fun t => map (fun c => nth t c []) (a3_cells a)) (seq 0 (a3_n1 a))).

  (** [lengths_indices.sort(reverse=True)] *)
  Definition pair_leb (a b : nat * nat) : bool :=
    (fst a <? fst b) || ((fst a =? fst b) && (snd a <=? snd b)).
  Fixpoint insert_desc (x : nat * nat) (l : list (nat * nat)) : list (nat * nat) :=
    match l with
    | [] => [x]
    | y :: l' => if pair_leb y x then x :: l else y :: insert_desc x l'
    end.
  Definition sort_desc (l : list (nat * nat)) : list (nat * nat) := fold_right insert_desc [] l.

  (** ops.py 459-464: [while current_size and t >= lengths_[current_size - 1]: current_size -= 1] *)
  Fixpoint shrink (lengths : list nat) (t current_size : nat) : nat :=
    match current_size with
    | O => O
    | S c => if nth c lengths 0 <=? t then shrink lengths t c else S c
    end.
  Fixpoint size_at_t_loop (lengths ts : list nat) (current_size : nat) : list nat :=
    match ts with
    | [] => []
    | t :: ts' => let c := shrink lengths t current_size in c :: size_at_t_loop lengths ts' c
    end.

  (** ops.py 431-471 [list2padded]. A sequence must be 2d: other ranks fail at [shape[1]], in reshape,
      or at the shape assertion. *)
  Definition list2padded (seqs : list (nda T)) : result (padded T) :=
    match seqs with
    | [] => Ok (mkPad (mkA3 0 [0] []) [] [] [])
    | [s] =>
      match a_tail s with
      | [] => Err IndexError
      | [w] => Ok (mkPad (mkA3 1 [w] (map (fun r => [r]) (a_rows s))) (repeat 1 (a_len s)) [a_len s] [0])
      | _ => Err ValueError
      end
    | s0 :: _ =>
      let lengths_indices := sort_desc (combine (map a_len seqs) (seq 0 (length seqs))) in
      let indices := map snd lengths_indices in
      let lengths := map fst lengths_indices in
      let nS := fold_right Nat.max 0 (map a_len seqs) in
      let nB := length seqs in
      match a_tail s0 with
      | [] => Err IndexError
      | nO :: _ =>
        let* sorted := mapM (py_get seqs) indices in
        let* arr := pad_seqs sorted 1 in
        if negb (same_shape (length (a3_cells arr) :: a3_n1 arr :: a3_tail arr) [nB; nS; nO]) then Err AssertionError
        else
          let arr := transpose3 arr in
          let size_at_t := size_at_t_loop lengths (seq 0 nS) nB in
          if negb (Nat.eqb (list_sum_nat lengths) (list_sum_nat size_at_t)) then Err AssertionError
          else Ok (mkPad arr size_at_t lengths indices)
      end
    end.

  (** ops.py 473-483 [padded2list]: the loop over the batch. Entries that are still [None] at the end
      (only possible if the indices are not a permutation) are reported as TypeError at once; Python
      fails when such an entry is used. *)
  Fixpoint unpadded_loop (p : padded T) (rows : list (list (list T))) (i : nat) (acc : list (option (nda T))) : result (list (option (nda T))) :=
    match rows with
    | [] => Ok acc
    | c :: rows' =>
      let* idx := py_get (p_indices p) i in
      let* len := py_get (p_lengths p) i in
      if idx <? length acc
      then unpadded_loop p rows' (S i) (set_nth idx (Some (mkA (a3_tail (p_data p)) (firstn len c))) acc)
      else Err IndexError
    end.
  Definition padded2list (p : padded T) : result (list (nda T)) :=
    let data := transpose3 (p_data p) in
    let* l := unpadded_loop p (a3_cells data) 0 (repeat None (length (p_lengths p))) in
    mapM (fun o => match o with Some a => Ok a | None => Err TypeError end) l.

  (** ** Ragged *)

  (** types.py 1179-1186 [Ragged.__init__] *)
  Definition mk_ragged (data : nda T) (lengths : list nat) : ragged T :=
    if Nat.eqb (a_size data) 0 then mkRag (mkA [0] []) lengths (a_tail data)
    else mkRag (mkA [shape_size (a_tail data)] (a_rows data)) lengths (a_tail data).
  (** types.py 1188-1194 [dataXd] *)
  Definition dataXd (r : ragged T) : nda T := mkA (r_tail r) (a_rows (r_data r)).

  (** Python indices: negative ones count from the end. *)
  Definition norm_index (n : nat) (i : Z) : option nat :=
    if (i <? 0)%Z then if (0 <=? i + Z.of_nat n)%Z then Some (Z.to_nat (i + Z.of_nat n)) else None
    else if (i <? Z.of_nat n)%Z then Some (Z.to_nat i) else None.
  Definition py_getz {A} (l : list A) (i : Z) : result A :=
    match norm_index (length l) i with Some k => py_get l k | None => Err IndexError end.
  (** The positions a slice with a positive step selects. *)
  Record pyslice := mkSlice { sl_start : option Z; sl_stop : option Z; sl_step : nat }.
  Definition slice_positions (n : nat) (s : pyslice) : list nat :=
    let a := match sl_start s with Some i => clamp_index n i | None => 0 end in
    let b := match sl_stop s with Some i => clamp_index n i | None => n end in
    filter (fun i => Nat.eqb (Nat.modulo (i - a) (sl_step s)) 0) (seq a (b - a)).
  Definition take_positions {A} (l : list A) (ps : list nat) : list A :=
    flat_map (fun i => match nth_error l i with Some a => [a] | None => [] end) ps.
  Definition py_slice_get {A} (l : list A) (s : pyslice) : list A := take_positions l (slice_positions (length l) s).

  (** [a.reshape((-1,) + tail)] for a 2d array with matching width: numpy cannot infer the first axis of
      an empty array when the other axes have size 0. *)
  Definition reshape_tail (a : nda T) (tail : list nat) : result (nda T) :=
    if Nat.eqb (shape_size tail) 0 then Err ValueError else Ok (mkA tail (a_rows a)).

  Definition rows_slice (a : nda T) (st en : nat) : nda T := mkA (a_tail a) (slice_rows st en (a_rows a)).

  Inductive rindex := RInt (i : Z) | RSlice (s : pyslice) | RArray (l : list Z) | RTuple.

  (** types.py 1199-1219 [Ragged.__getitem__], with [_get_starts_ends] (1221-1233); its cache is not
      modelled (lengths are never reassigned) *)
  Definition starts_of (r : ragged T) : list nat := removelast (0 :: cumsum (r_lengths r)).
  Definition ends_of (r : ragged T) : list nat := cumsum (r_lengths r).
  Definition ragged_get_int (r : ragged T) (i : Z) : result (ragged T) :=
    let* s := py_getz (starts_of r) i in
    let* e := py_getz (ends_of r) i in
    Ok (mk_ragged (rows_slice (r_data r) s e) (py_slice (r_lengths r) i (i + 1))).
  Definition ragged_get (r : ragged T) (index : rindex) : result (ragged T) :=
    match index with
    | RTuple => Err IndexError
    | RInt i => ragged_get_int r i
    | RSlice sl =>
      if Nat.eqb (sl_step sl) 0 then Err ValueError
      else
        let lengths := py_slice_get (r_lengths r) sl in
        match lengths with
        | [] => let* d := reshape_tail (rows_slice (r_data r) 0 0) (r_tail r) in Ok (mk_ragged d lengths)
        | _ =>
          match sl_start sl with
          | None => Err TypeError
          | Some st =>
            let* start := (if (1 <=? st)%Z then py_get (py_slice_get (starts_of r) sl) 0 else Ok 0) in
            let* end_ := py_getz (py_slice_get (ends_of r) sl) (-1) in
            let* d := reshape_tail (rows_slice (r_data r) start end_) (r_tail r) in
            Ok (mk_ragged d lengths)
          end
        end
    | RArray l =>
      let* parts := mapM (fun i => let* x := ragged_get_int r i in Ok (r_data x)) l in
      let* data := concatenate parts in
      let* d := reshape_tail data (r_tail r) in
      let* lengths := mapM (py_getz (r_lengths r)) l in
      Ok (mk_ragged d lengths)
    end.

  (** ** Padded indexing: types.py 1134-1160 [Padded.__getitem__] *)
  Fixpoint insert_z (x : Z) (l : list Z) : list Z :=
    match l with [] => [x] | y :: l' => if (x <=? y)%Z then x :: l else y :: insert_z x l' end.
  Definition sort_z (l : list Z) : list Z := fold_right insert_z [] l.
  Inductive pindex := PInt (i : Z) | PSlice (s : pyslice) | PArray (l : list Z).
  (** [data[:, index]] for a slice of the second axis *)
  Definition cols (a : arr3 T) (s : pyslice) : arr3 T :=
    mkA3 (length (slice_positions (a3_n1 a) s)) (a3_tail a) (map (fun c => py_slice_get c s) (a3_cells a)).
  Definition padded_get (p : padded T) (index : pindex) : result (padded T) :=
    let by_slice s := Ok (mkPad (cols (p_data p) s) (py_slice_get (p_lengths p) s) (py_slice_get (p_lengths p) s) (py_slice_get (p_indices p) s)) in
    match index with
    | PInt i => by_slice (mkSlice (Some i) (Some (i + 1)%Z) 1)
    | PSlice s => if Nat.eqb (sl_step s) 0 then Err ValueError else by_slice s
    | PArray l =>
      let sorted := sort_z l in
      let* cells := mapM (py_getz (a3_cells (p_data p))) sorted in
      let* sizes := mapM (py_getz (p_size_at_t p)) sorted in
      let* lengths := mapM (py_getz (p_lengths p)) sorted in
      let* indices := mapM (py_getz (p_indices p)) l in
      Ok (mkPad (mkA3 (a3_n1 (p_data p)) (a3_tail (p_data p)) cells) sizes lengths indices)
    end.

  (** ** LSTM packing *)

  (** [Y[start : start + n] = src] on the first axis (bounds clamped; a single row is broadcast). *)
  Definition assign_rows (Y : list (list T)) (start n : nat) (src : list (list T)) : result (list (list T)) :=
    let a := Nat.min start (length Y) in
    let k := Nat.min (start + n) (length Y) - a in
    let put s := Ok (firstn a Y ++ s ++ skipn (a + k) Y) in
    match src with
    | [r] => put (repeat r k)
    | _ => if Nat.eqb (length src) k then put src else Err ValueError
    end.

  (** lstm.py 159-171 [_padded_to_packed] *)
  Fixpoint pack_loop (p : padded T) (ts : list nat) (start : nat) (Y : list (list T)) : result (list (list T)) :=
    match ts with
    | [] => Ok Y
    | t :: ts' =>
      let* bs := py_get (p_size_at_t p) t in
      let* c := py_get (a3_cells (p_data p)) t in
      let* Y' := assign_rows Y start bs (firstn bs c) in
      pack_loop p ts' (start + bs) Y'
    end.
  Definition padded_to_packed (p : padded T) : result (ragged T) :=
    if negb (Nat.eqb (list_sum_nat (p_lengths p)) (list_sum_nat (p_size_at_t p))) then Err AssertionError
    else
      match a3_tail (p_data p) with
      | [] => Err IndexError
      | w :: _ =>
        let* Y := pack_loop p (seq 0 (length (p_size_at_t p))) 0 (zero_rows (list_sum_nat (p_lengths p)) [w]) in
        Ok (mk_ragged (mkA [w] Y) (p_size_at_t p))
      end.

  (** lstm.py 174-182 [_packed_to_padded] *)
  Fixpoint unpack_loop (p : padded T) (X : list (list T)) (ts : list nat) (start : nat) (Y : list (list (list T))) : result (list (list (list T))) :=
    match ts with
    | [] => Ok Y
    | t :: ts' =>
      let* bs := py_get (p_size_at_t p) t in
      let* c := py_get Y t in
      let* c' := assign_rows c 0 bs (slice_rows start (start + bs) X) in
      unpack_loop p X ts' (start + bs) (set_nth t c' Y)
    end.
  Definition packed_to_padded (r : ragged T) (p : padded T) : result (padded T) :=
    match a_tail (r_data r) with
    | [] => Err IndexError
    | w :: _ =>
      let Y0 := repeat (zero_rows (a3_n1 (p_data p)) [w]) (length (a3_cells (p_data p))) in
      let* Y := unpack_loop p (a_rows (r_data r)) (seq 0 (length (p_size_at_t p))) 0 Y0 in
      Ok (mkPad (mkA3 (a3_n1 (p_data p)) [w] Y) (p_size_at_t p) (p_lengths p) (p_indices p))
    end.
End Seq.
