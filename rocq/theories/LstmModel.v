(** The layout of the LSTM parameters: thinc/backends/ops.py 1605-1648 (used by the base implementation and, imported, by
    numpy_ops.pyx), the loops over layers and directions of ops.py 1452-1464 and 1526-1543, and thinc/layers/lstm.py 65-115.
    No proofs here. Everything except the sum of the two biases is movement of data, for any type of elements. *)
From Verif Require Export DenseModel.

(** The elements at position [j] of each of the lists. *)
Definition column {A} (j : nat) (b : list (list A)) : list A := flat_map (fun r => match nth_error r j with Some x => [x] | None => [] end) b.
(** [.transpose((1, 0))] or [.transpose((1, 0, 2))] of an array whose second dimension is [n]: lists of elements or of rows. *)
Definition swap_axes {A} (n : nat) (b : list (list A)) : list (list A) := map (fun j => column j b) (seq 0 n).

Section Layout.
  Context {T : Type}.

  (** [params[start : start + n].reshape((n,))] and [.reshape((r, c))]: slices are cut at the end, and then the shape does
      not fit (ValueError). *)
  Definition read1 (params : list T) (start n : nat) : result (list T) :=
    let s := firstn n (skipn start params) in if Nat.eqb (length s) n then Ok s else Err ValueError.
  Definition read2 (params : list T) (start r c : nat) : result (mat T) :=
    let* s := read1 params start (r * c) in Ok (mkM c (cells_of c r s)).

  (** ops.py 1605-1618 *)
  Record parts := mkParts { p_Wx : mat T; p_bx : list T; p_Wh : mat T; p_bh : list T }.
  Definition split_weights (params : list T) (nO nI params_i : nat) : result (parts * nat) :=
    let Wx_size := 4 * nO * nI in
    let bx_size := 4 * nO in
    let Wh_size := 4 * nO * nO in
    let bh_size := 4 * nO in
    let* Wx := read2 params params_i (4 * nO) nI in
    let params_i := params_i + Wx_size in
    let* bx := read1 params params_i (4 * nO) in
    let params_i := params_i + bx_size in
    let* Wh := read2 params params_i (4 * nO) nO in
    let params_i := params_i + Wh_size in
    let* bh := read1 params params_i (4 * nO) in
    let params_i := params_i + bh_size in
    Ok (mkParts Wx bx Wh bh, params_i).

  (** [W.reshape((4, -1, c)).transpose((1, 0, 2)).reshape((-1, c))]: the unknown dimension cannot be inferred if [c] is 0,
      and the rows must be a multiple of 4. *)
  Definition gates_last2 (m : mat T) : result (mat T) :=
    if (Nat.eqb (m_cols m) 0 || negb (Nat.eqb (length (m_rows m) mod 4) 0))%bool then Err ValueError
    else let n := length (m_rows m) / 4 in Ok (mkM (m_cols m) (concat (swap_axes n (cells_of n 4 (m_rows m))))).
  (** [b.reshape((4, -1)).transpose((1, 0)).reshape((-1,))] *)
  Definition gates_last1 (v : list T) : result (list T) :=
    if negb (Nat.eqb (length v mod 4) 0) then Err ValueError
    else let n := length v / 4 in Ok (concat (swap_axes n (cells_of n 4 v))).
  (** ops.py 1621-1634, without the sum of the biases *)
  Definition transpose_parts (p : parts) : result parts :=
    let* Wx := gates_last2 (p_Wx p) in
    let* bx := gates_last1 (p_bx p) in
    let* Wh := gates_last2 (p_Wh p) in
    let* bh := gates_last1 (p_bh p) in
    Ok (mkParts Wx bx Wh bh).

  (** ops.py 1643-1645 *)
  Definition gates_first2 (m : mat T) : result (mat T) :=
    if (Nat.eqb (m_cols m) 0 || negb (Nat.eqb (length (m_rows m) mod 4) 0))%bool then Err ValueError
    else let n := length (m_rows m) / 4 in Ok (mkM (m_cols m) (concat (swap_axes 4 (cells_of 4 n (m_rows m))))).
  Definition gates_first1 (v : list T) : result (list T) :=
    if negb (Nat.eqb (length v mod 4) 0) then Err ValueError
    else let n := length v / 4 in Ok (concat (swap_axes 4 (cells_of 4 n v))).

  (** The loops: ops.py 1452-1464 (there nI is the width of the output of the layer below, nO * dirs), 1526-1534, 1536-1543. *)
  Fixpoint split_dirs (params : list T) (dirs nO nI params_i : nat) : result (list parts * nat) :=
    match dirs with
    | 0 => Ok ([], params_i)
    | S dirs' => let* r := split_weights params nO nI params_i in
                 let* rest := split_dirs params dirs' nO nI (snd r) in
                 Ok (fst r :: fst rest, snd rest)
    end.
  Fixpoint split_layers (params : list T) (depth dirs nO nI params_i : nat) : result (list (list parts) * nat) :=
    match depth with
    | 0 => Ok ([], params_i)
    | S depth' => let* r := split_dirs params dirs nO nI params_i in
                  let* rest := split_layers params depth' dirs nO (nO * dirs) (snd r) in
                  Ok (fst r :: fst rest, snd rest)
    end.

  (** ** lstm.py 65-115 *)

  (** The initializers: what call number [k] returns for the shape. *)
  Variable init_W : nat -> nat -> nat -> mat T.
  Variable init_b : nat -> nat -> list T.
  Definition ravel (m : mat T) : list T := concat (m_rows m).
  (** lines 88-106: the arrays for one layer and direction *)
  Definition init_dir (k nH layer_nI : nat) : list (list T) :=
    [ravel (init_W k nH layer_nI); ravel (init_W (k + 1) nH layer_nI); ravel (init_W (k + 2) nH layer_nI); ravel (init_W (k + 3) nH layer_nI);
     init_b (k + 4) nH; init_b (k + 5) nH; init_b (k + 6) nH; init_b (k + 7) nH;
     ravel (init_W (k + 8) nH nH); ravel (init_W (k + 9) nH nH); ravel (init_W (k + 10) nH nH); ravel (init_W (k + 11) nH nH);
     init_b (k + 12) nH; init_b (k + 13) nH; init_b (k + 14) nH; init_b (k + 15) nH].
  Fixpoint init_dirs (k dirs nH layer_nI : nat) : list (list T) :=
    match dirs with 0 => [] | S dirs' => init_dir k nH layer_nI ++ init_dirs (k + 16) dirs' nH layer_nI end.
  Fixpoint init_layers (k depth dirs nH layer_nI : nat) : list (list T) :=
    match depth with 0 => [] | S depth' => init_dirs k dirs nH layer_nI ++ init_layers (k + 16 * dirs) depth' dirs nH (nH * dirs) end.
  (** lines 111-114 *)
  Fixpoint expected_more (depth dirs nH : nat) : nat :=
    match depth with 0 => 0 | S depth' => 4 * dirs * (nH + nH * dirs) * nH + dirs * (8 * nH) + expected_more depth' dirs nH end.
  Definition expected (depth dirs nH nI : nat) : nat := 4 * dirs * nH * (nH + nI) + dirs * (8 * nH) + expected_more (depth - 1) dirs nH.
  (** line 76: [int(nO / dirs)] *)
  Definition hidden_width (nO dirs : nat) : nat := nO / dirs.
  (** The parameter LSTM; concatenating no arrays (depth 0, which LSTM rejects) raises. The HC0 parameter is zeros of shape
      (2, depth, dirs, nH). *)
  Definition init_lstm (nO nI depth dirs : nat) : result (list T) :=
    let nH := hidden_width nO dirs in
    match init_layers 0 depth dirs nH nI with
    | [] => Err ValueError
    | params => let LSTM := concat params in if Nat.eqb (length LSTM) (expected depth dirs nH nI) then Ok LSTM else Err AssertionError
    end.
End Layout.
Arguments parts : clear implicits.
Arguments mkParts {T}.

Section Weights.
  Context {T : Type} `{Num T}.
  (** ops.py 1621-1636: the weights and the sum of the biases, which have the same size here. *)
  Definition triple : Type := mat T * mat T * list T.
  Definition transpose_weights (p : parts T) : result triple :=
    let* q := transpose_parts p in
    if Nat.eqb (length (p_bx q)) (length (p_bh q)) then Ok (p_Wx q, p_Wh q, vmap2 nadd (p_bx q) (p_bh q)) else Err ValueError.
  (** ops.py 1639-1648 *)
  Definition untranspose_unsplit_weights (w : triple) : result (list T) :=
    let '(Wx, Wh, bias) := w in
    let* Wx := gates_first2 Wx in
    let* Wh := gates_first2 Wh in
    let* bias := gates_first1 bias in
    Ok (ravel Wx ++ bias ++ ravel Wh ++ zeros (length bias)).
  (** ops.py 1526-1534: the weights of all layers and directions *)
  Definition all_layer_params (params : list T) (depth dirs nO nI : nat) : result (list (list triple)) :=
    let* r := split_layers params depth dirs nO nI 0 in mapM (mapM transpose_weights) (fst r).
  (** ops.py 1597-1602 *)
  Definition join_layers (grads : list (list triple)) : result (list T) :=
    let* grad_parts := mapM untranspose_unsplit_weights (concat grads) in Ok (concat grad_parts).
End Weights.
Arguments triple : clear implicits.
