(** The LSTM kernels: thinc/backends/ops.py 1432-1602 and 1651-1692 (the base implementation, which CupyOps uses) and
    thinc/backends/numpy_ops.pyx 636-1075. No proofs here.
    The arrays G, Y and C of shape (depth, dirs, N, width) are lists of layers of directions of rows. [lengths] is the number of
    sequences at each time step (size_at_t). Memory accesses outside the arrays, which the C code does not check, are MemFault.
    All gates of one output are next to each other: element [4 * o + k] is gate [k] of output [o]. *)
From Verif Require Export LstmModel ActModel.

Section Kernels.
  Context {T : Type} `{Num T} `{Trans T}.
  Local Open Scope num_scope.
  Local Open Scope nat_scope.

  Definition rows : Type := list (list T).
  (** [a[start : start + n]] *)
  Definition slice {A} (start n : nat) (l : list A) : list A := firstn n (skipn start l).
  (** [a[start : start + len(new)] = new] *)
  Definition splice {A} (start : nat) (new l : list A) : list A := firstn start l ++ new ++ skipn (start + length new) l.
  Definition gate (g : list T) (o k : nat) : T := nth (4 * o + k) g (nZ 0).
  (** A row of [X @ W.T] *)
  Definition times (W : rows) (x : list T) : list T := map (fun w => nsum (vmap2 nmul x w)) W.
  (** A row of [X @ W], where [W] has [c] columns *)
  Definition times_t (c : nat) (W : rows) (x : list T) : list T := map (fun j => nsum (vmap2 nmul x (col (nZ 0) j W))) (seq 0 c).
  (** [A.T @ B], where [A] has [r] and [B] has [c] columns *)
  Definition outer (r c : nat) (A B : rows) : rows := map (fun i => map (fun j => nsum (vmap2 nmul (col (nZ 0) i A) (col (nZ 0) j B))) (seq 0 c)) (seq 0 r).
  Definition add_rows (a b : rows) : rows := vmap2 row_add a b.
  Definition zero_rows (r c : nat) : rows := repeat (zeros c) r.

  (** ** numpy_ops.pyx: forward *)

  (** 970-1013: [1 / (1 + exp(-x))] in columns 0, 1 and 2 and tanh in column 3 *)
  Definition logistic_c (x : T) : T := (nZ 1 / (nexp (- x) + nZ 1))%num.
  Definition lstm_activate_fwd (nO : nat) (a : list T) : list T :=
    flat_map (fun o => [logistic_c (gate a o 0); logistic_c (gate a o 1); logistic_c (gate a o 2); ntanh (gate a o 3)]) (seq 0 nO).
  (** 1016-1034: the cells and the hiddens *)
  Definition lstm_gates_fwd (nO : nat) (g c2 : list T) : list T * list T :=
    let c3 := map (fun o => gate g o 0 * nth o c2 (nZ 0) + gate g o 1 * gate g o 3)%num (seq 0 nO) in
    (map (fun o => ntanh (nth o c3 (nZ 0)) * gate g o 2)%num (seq 0 nO), c3).
  (** 735-756 for one row: the gates, the hidden and the cell from the input part of the gates and the previous hidden and cell *)
  Definition lstm_cell (nO : nat) (Wh : rows) (bias gx y2 c2 : list T) : list T * list T * list T :=
    let g := lstm_activate_fwd nO (row_add (row_add gx (times Wh y2)) bias) in
    let r := lstm_gates_fwd nO g c2 in
    (g, fst r, snd r).
  (** One direction of one layer: the arrays G, Y and C *)
  Record dir_state := mkDir { d_G : rows; d_Y : rows; d_C : rows }.
  (** 728-765: the time steps, given as the start and the number of the rows of each; Yt2 and Ct2 keep their further rows *)
  Fixpoint np_steps (nO N : nat) (Wh : rows) (bias : list T) (order : list (nat * nat)) (s : dir_state) (y2 c2 : rows) : result dir_state :=
    match order with
    | [] => Ok s
    | (start, b) :: order =>
        if (Nat.ltb (length y2) b || Nat.ltb N (start + b))%bool then Err MemFault
        else
          let cells := map (fun k => lstm_cell nO Wh bias (nth (start + k) (d_G s) []) (nth k y2 []) (nth k c2 [])) (seq 0 b) in
          let g3 := map (fun r => fst (fst r)) cells in
          let y3 := map (fun r => snd (fst r)) cells in
          let c3 := map snd cells in
          np_steps nO N Wh bias order (mkDir (splice start g3 (d_G s)) (splice start y3 (d_Y s)) (splice start c3 (d_C s))) (y3 ++ skipn b y2) (c3 ++ skipn b c2)
    end.
  (** The rows of each step: from the first row forwards, or from the last row backwards *)
  Fixpoint order_ltr (seq_i : nat) (lengths : list nat) : list (nat * nat) :=
    match lengths with [] => [] | b :: lengths => (seq_i, b) :: order_ltr (seq_i + b) lengths end.
  Fixpoint order_rtl (seq_i : nat) (lengths_rev : list nat) : result (list (nat * nat)) :=
    match lengths_rev with
    | [] => Ok []
    | b :: l => if Nat.ltb seq_i b then Err MemFault else let* r := order_rtl (seq_i - b) l in Ok ((seq_i - b, b) :: r)
    end.
  Definition np_order (d N : nat) (lengths : list nat) : result (list (nat * nat)) :=
    match d with 0 => Ok (order_ltr 0 lengths) | S _ => order_rtl N (rev lengths) end.
  (** 698-765, with 666-670: the input part of the gates, and the first Yt2 and Ct2, with [batch] rows *)
  Definition np_dir_fwd (d nO : nat) (X : rows) (w : triple T) (lengths : list nat) (batch : nat) (h0 c0 : list T) : result dir_state :=
    let '(Wx, Wh, bias) := w in
    let N := length X in
    let* order := np_order d N lengths in
    np_steps nO N (m_rows Wh) bias order (mkDir (map (times (m_rows Wx)) X) (zero_rows N nO) (zero_rows N nO)) (repeat h0 batch) (repeat c0 batch).
  (** [Y[i].transpose((1, 0, 2)).reshape((N, -1))]: for N = 0 numpy cannot infer the width *)
  Definition join_dirs (N : nat) (ys : list rows) : result rows :=
    if Nat.eqb N 0 then Err ValueError else Ok (map (fun n => concat (map (fun y => nth n y []) ys)) (seq 0 N)).
  (** The two initial arrays have the shape (depth, dirs, nO). *)
  Definition init3 : Type := list (list (list T)).
  Definition init_row (a : init3) (i d : nat) : list T := nth d (nth i a []) [].
  (** 663-693 for one layer: the directions [d, d + 1, ...], their weights read at [params_i] *)
  Fixpoint np_dirs_fwd (params : list T) (i d dirs nO nI : nat) (X : rows) (lengths : list nat) (batch : nat) (h_init c_init : init3) (params_i : nat) : result (list dir_state * nat) :=
    match dirs with
    | 0 => Ok ([], params_i)
    | S dirs => let* r := split_weights params nO nI params_i in
                let* w := transpose_weights (fst r) in
                let* s := np_dir_fwd d nO X w lengths batch (init_row h_init i d) (init_row c_init i d) in
                let* rest := np_dirs_fwd params i (S d) dirs nO nI X lengths batch h_init c_init (snd r) in
                Ok (s :: fst rest, snd rest)
    end.
  (** 661-695: the layers [i, i + 1, ...]; returns the states of all layers and the output H of the last *)
  Fixpoint np_layers_fwd (params : list T) (i depth dirs nO nI : nat) (X : rows) (lengths : list nat) (batch : nat) (h_init c_init : init3) (params_i : nat) : result (list (list dir_state) * rows) :=
    match depth with
    | 0 => Ok ([], X)
    | S depth => let* r := np_dirs_fwd params i 0 dirs nO nI X lengths batch h_init c_init params_i in
                 let* H := join_dirs (length X) (map d_Y (fst r)) in
                 let* rest := np_layers_fwd params (S i) depth dirs nO (dirs * nO) H lengths batch h_init c_init (snd r) in
                 Ok (fst r :: fst rest, snd rest)
    end.
  (** 636-695: the shape of the arrays [c_init] and [h_init] is (depth, dirs, nO); without a layer H is not defined *)
  Definition np_lstm_forward (depth dirs nO : nat) (params : list T) (c_init h_init : init3) (X : mat T) (lengths : list nat) : result (mat T * list (list dir_state)) :=
    match lengths with
    | [] => Err IndexError
    | batch :: _ =>
        match depth with
        | 0 => Err NameError
        | _ => let* r := np_layers_fwd params 0 depth dirs nO (m_cols X) (m_rows X) lengths batch h_init c_init 0 in
               Ok (mkM (dirs * nO) (snd r), fst r)
        end
    end.
  (** 159-181 (and ops.py 858-880): the wrappers pass H0 as [c_init] and C0 as [h_init] *)
  Definition np_lstm (depth dirs nO : nat) (params : list T) (H0 C0 : init3) (X : mat T) (size_at_t : list nat) := np_lstm_forward depth dirs nO params H0 C0 X size_at_t.

  (** ** numpy_ops.pyx: backward *)

  (** 1037-1075 for one row: the gradients of the gates and of the previous cell *)
  Definition lstm_gates_bwd (nO : nat) (dy dc3 g c3 c2 : list T) : list T * list T :=
    let at_ (v : list T) o := nth o v (nZ 0) in
    let dct3 o := (at_ dc3 o + (at_ dy o * gate g o 2) * dtanh (ntanh (at_ c3 o)))%num in
    (flat_map (fun o =>
       let hf := gate g o 0 in let hi := gate g o 1 in let ho := gate g o 2 in let hc := gate g o 3 in
       let d_ho := (at_ dy o * ntanh (at_ c3 o))%num in
       let d_hi := (dct3 o * hc)%num in
       let d_hc := (dct3 o * hi)%num in
       let d_hf := (dct3 o * at_ c2 o)%num in
       [d_hf * dsigmoid hf; d_hi * dsigmoid hi; d_ho * dsigmoid ho; d_hc * dtanh hc]%num) (seq 0 nO),
     map (fun o => dct3 o * gate g o 0)%num (seq 0 nO)).
  (** 897-924: the loop over the time steps; the arrays dY, dC and dG *)
  Record back_state := mkBack { b_dY : rows; b_dC : rows; b_dG : rows }.
  Fixpoint np_back_steps (nO N : nat) (Wh : rows) (s : dir_state) (t3 size3 : nat) (order : list (nat * nat)) (a : back_state) : result back_state :=
    match order with
    | [] => Ok a
    | (t2, size2) :: order =>
        let b := Nat.min size2 size3 in
        if (Nat.ltb N (t2 + b) || Nat.ltb N (t3 + b))%bool then Err MemFault
        else
          let gs := map (fun k => lstm_gates_bwd nO (nth (t3 + k) (b_dY a) []) (nth (t3 + k) (b_dC a) []) (nth (t3 + k) (d_G s) []) (nth (t3 + k) (d_C s) []) (nth (t2 + k) (d_C s) [])) (seq 0 b) in
          let dG3 := map fst gs in
          let dC2 := map snd gs in
          let dY2 := add_rows (slice t2 b (b_dY a)) (map (times_t nO Wh) dG3) in
          np_back_steps nO N Wh s t2 size2 order (mkBack (splice t2 dY2 (b_dY a)) (splice t2 dC2 (b_dC a)) (splice t3 dG3 (b_dG a)))
    end.
  (** 884-894: the first step of the loop, and the others *)
  Definition back_order (d : nat) (indices : list (nat * nat)) : result ((nat * nat) * list (nat * nat)) :=
    match (match d with 0 => rev indices | S _ => indices end) with [] => Err IndexError | t :: l => Ok (t, l) end.
  (** 869-966: the new [dX] and the new gradients of the weights *)
  Definition np_dir_bwd (d nO nI : nat) (X : rows) (dX dY : rows) (w dw : triple T) (s : dir_state) (lengths : list nat) : result (rows * triple T) :=
    let '(Wx, Wh, bias) := w in
    let '(dWx, dWh, d_bias) := dw in
    let N := length X in
    let* o := back_order d (order_ltr 0 lengths) in
    let* a := np_back_steps nO N (m_rows Wh) s (fst (fst o)) (snd (fst o)) (snd o) (mkBack dY (zero_rows N nO) (zero_rows N (4 * nO))) in
    let dG := b_dG a in
    Ok (add_rows dX (map (times_t nI (m_rows Wx)) dG),
        (mkM nI (add_rows (m_rows dWx) (outer (4 * nO) nI dG X)),
         mkM nO (add_rows (m_rows dWh) (outer (4 * nO) nO dG (d_Y s))),
         row_add d_bias (map (fun j => nsum (col (nZ 0) j dG)) (seq 0 (4 * nO))))).
  (** 821-862 for one layer, the directions [d, d + 1, ...]: [dY] has one list of rows per direction *)
  Fixpoint np_dirs_bwd (d nO nI : nat) (X : rows) (dX : rows) (dYs : list rows) (ws dws : list (triple T)) (ss : list dir_state) (lengths : list nat) : result (rows * list (triple T)) :=
    match dYs, ws, dws, ss with
    | dY :: dYs, w :: ws, dw :: dws, s :: ss =>
        let* r := np_dir_bwd d nO nI X dX dY w dw s lengths in
        let* rest := np_dirs_bwd (S d) nO nI X (fst r) dYs ws dws ss lengths in
        Ok (fst rest, snd r :: snd rest)
    | _, _, _, _ => Ok (dX, [])
    end.
  (** [dY.reshape((N, dirs, nO)).transpose((1, 0, 2))] *)
  Definition split_width (dirs nO : nat) (dY : rows) : list rows := map (fun d => map (fun r => slice (d * nO) nO r) dY) (seq 0 dirs).
  (** 819-862: the layers from the last to the first. The inputs of each layer are X and then the outputs of the layer below (816). *)
  Fixpoint np_layers_bwd (dirs nO : nat) (lengths : list nat) (dY : mat T) (layers : list (mat T * list (triple T) * list (triple T) * list dir_state)) : result (mat T * list (list (triple T))) :=
    match layers with
    | [] => Ok (dY, [])
    | (X, ws, dws, ss) :: layers =>
        let N := length (m_rows X) in
        if negb (Nat.eqb (length (m_rows dY) * m_cols dY) (N * (dirs * nO))) then Err ValueError
        else
          let* r := np_dirs_bwd 0 nO (m_cols X) (m_rows X) (zero_rows N (m_cols X)) (split_width dirs nO (m_rows dY)) ws dws ss lengths in
          let* rest := np_layers_bwd dirs nO lengths (mkM (m_cols X) (fst r)) layers in
          Ok (fst rest, snd r :: snd rest)
    end.
  (** 816: the inputs of the layers *)
  Fixpoint layer_inputs_of (dirs nO : nat) (X : mat T) (ss : list (list dir_state)) : result (list (mat T)) :=
    match ss with
    | [] => Ok []
    | [_] => Ok [X]
    | s :: ss => let* H := join_dirs (length (m_rows X)) (map d_Y s) in
                 let* l := layer_inputs_of dirs nO (mkM (dirs * nO) H) ss in Ok (X :: l)
    end.
  Definition combine4 {A B C D} (a : list A) (b : list B) (c : list C) (d : list D) : list (A * B * C * D) := combine (combine (combine a b) c) d.
  (** 767-866. Line 808 reads the gradients' starting values from [params] instead of [d_params]. *)
  Definition np_backprop_lstm (depth dirs nO : nat) (dY : mat T) (lengths : list nat) (params : list T) (states : list (list dir_state)) (X : mat T) : result (mat T * list T) :=
    match lengths with
    | [] => Err IndexError
    | _ =>
        let* ws := all_layer_params params depth dirs nO (m_cols X) in
        let* dws := all_layer_params params depth dirs nO (m_cols X) in
        let* Xs := layer_inputs_of dirs nO X states in
        let* r := np_layers_bwd dirs nO lengths dY (rev (combine4 Xs ws dws states)) in
        let* d_params := join_layers (rev (snd r)) in
        Ok (fst r, d_params)
    end.

  (** ** ops.py: forward *)

  (** 1472-1477 for one row; the sigmoid clips its argument *)
  Definition base_activate (nO : nat) (a : list T) : list T :=
    flat_map (fun o => [sigmoid (gate a o 0); sigmoid (gate a o 1); sigmoid (gate a o 2); ntanh (gate a o 3)]) (seq 0 nO).
  Definition base_cell (nO : nat) (Wh : rows) (a y2 c2 : list T) : list T * list T * list T :=
    let g := base_activate nO (row_add a (times Wh y2)) in
    let r := lstm_gates_fwd nO g c2 in
    (g, fst r, snd r).
  (** 1465-1495: Yt2 and Ct2 start with one row and are cut to the size of the step; the step is cut to the rows of Yt2 *)
  Fixpoint base_steps (nO : nat) (Wh : rows) (order : list (nat * nat)) (s : dir_state) (y2 c2 : rows) : dir_state :=
    match order with
    | [] => s
    | (start, b) :: order =>
        let y2 := firstn b y2 in
        let c2 := firstn b c2 in
        let g3 := firstn (length y2) (slice start b (d_G s)) in
        let cells := map (fun k => base_cell nO Wh (nth k g3 []) (nth k y2 []) (nth k c2 [])) (seq 0 (length g3)) in
        let y3 := map (fun r => snd (fst r)) cells in
        let c3 := map snd cells in
        base_steps nO Wh order (mkDir (splice start (map (fun r => fst (fst r)) cells) (d_G s)) (splice start y3 (d_Y s)) (splice start c3 (d_C s))) y3 c3
    end.
  (** 1457-1463 *)
  Definition base_dir_fwd (d nO : nat) (X : rows) (w : triple T) (lengths : list nat) (h0 c0 : list T) : dir_state :=
    let '(Wx, Wh, bias) := w in
    let N := length X in
    let order := match d with 0 => order_ltr 0 lengths | S _ => rev (order_ltr 0 lengths) end in
    base_steps nO (m_rows Wh) order (mkDir (map (fun x => row_add (times (m_rows Wx) x) bias) X) (zero_rows N nO) (zero_rows N nO)) [h0] [c0].
  Fixpoint base_dirs_fwd (params : list T) (i d dirs nO nI : nat) (X : rows) (lengths : list nat) (h_init c_init : init3) (params_i : nat) : result (list dir_state * nat) :=
    match dirs with
    | 0 => Ok ([], params_i)
    | S dirs => let* r := split_weights params nO nI params_i in
                let* w := transpose_weights (fst r) in
                let s := base_dir_fwd d nO X w lengths (init_row h_init i d) (init_row c_init i d) in
                let* rest := base_dirs_fwd params i (S d) dirs nO nI X lengths h_init c_init (snd r) in
                Ok (s :: fst rest, snd rest)
    end.
  Fixpoint base_layers_fwd (params : list T) (i depth dirs nO nI : nat) (X : rows) (lengths : list nat) (h_init c_init : init3) (params_i : nat) : result (list (list dir_state) * rows) :=
    match depth with
    | 0 => Ok ([], X)
    | S depth => let* r := base_dirs_fwd params i 0 dirs nO nI X lengths h_init c_init params_i in
                 let* H := join_dirs (length X) (map d_Y (fst r)) in
                 let* rest := base_layers_fwd params (S i) depth dirs nO (dirs * nO) H lengths h_init c_init (snd r) in
                 Ok (fst r :: fst rest, snd rest)
    end.
  Definition base_lstm_forward (depth dirs nO : nat) (params : list T) (c_init h_init : init3) (X : mat T) (lengths : list nat) : result (mat T * list (list dir_state)) :=
    match lengths with
    | [] => Err IndexError
    | _ =>
        match depth with
        | 0 => Err NameError
        | _ => let* r := base_layers_fwd params 0 depth dirs nO (m_cols X) (m_rows X) lengths h_init c_init 0 in
               Ok (mkM (dirs * nO) (snd r), fst r)
        end
    end.

  (** ** ops.py: backward *)

  (** 1651-1676 for one row: the gates are read from four consecutive blocks, and the gradients returned likewise; [dCt3] is updated
      in the memory of the caller, so it is returned as well *)
  Definition base_gates_bwd (nO : nat) (dy dc3 g c3 c2 : list T) : list T * list T * list T :=
    let at_ (v : list T) o := nth o v (nZ 0) in
    let dct3 := map (fun o => at_ dc3 o + (at_ dy o * at_ g (2 * nO + o)%nat) * dtanh (ntanh (at_ c3 o)))%num (seq 0 nO) in
    let d_hf o := (at_ dct3 o * at_ c2 o)%num in
    let d_hi o := (at_ dct3 o * at_ g (3 * nO + o)%nat)%num in
    let d_ho o := (at_ dy o * ntanh (at_ c3 o))%num in
    let d_hc o := (at_ dct3 o * at_ g (nO + o)%nat)%num in
    (map (fun o => d_hf o * dsigmoid (at_ g o))%num (seq 0 nO) ++ map (fun o => d_hi o * dsigmoid (at_ g (nO + o)%nat))%num (seq 0 nO)
       ++ map (fun o => d_ho o * dsigmoid (at_ g (2 * nO + o)%nat))%num (seq 0 nO) ++ map (fun o => d_hc o * dtanh (at_ g (3 * nO + o)%nat))%num (seq 0 nO),
     map (fun o => at_ dct3 o * at_ g o)%num (seq 0 nO), dct3).
  (** 1572-1587. The gradients of the gates are used for dY3d, but never stored in dG. The slices are cut at N; the assertion
      of line 1658 compares their sizes. *)
  Fixpoint base_back_steps (nO : nat) (Wh : rows) (s : dir_state) (t3 size3 : nat) (order : list (nat * nat)) (dY dC : rows) : result (rows * rows) :=
    match order with
    | [] => Ok (dY, dC)
    | (t2, size2) :: order =>
        let b := Nat.min size2 size3 in
        let n := length (slice t3 b (d_G s)) in
        if negb (Nat.eqb n (length (slice t2 b (d_C s)))) then Err AssertionError
        else
          let gs := map (fun k => base_gates_bwd nO (nth (t3 + k) dY []) (nth (t3 + k) dC []) (nth (t3 + k) (d_G s) []) (nth (t3 + k) (d_C s) []) (nth (t2 + k) (d_C s) [])) (seq 0 n) in
          let dC := splice t3 (map snd gs) dC in
          let dY := splice t2 (add_rows (slice t2 n dY) (map (fun r => times_t nO Wh (fst (fst r))) gs)) dY in
          base_back_steps nO Wh s t2 size2 order dY (splice t2 (map (fun r => snd (fst r)) gs) dC)
    end.
  (** 1558-1595; [dG] is the array of zeros of line 1518, and [dC] is shared by all layers *)
  Definition base_dir_bwd (d nO nI : nat) (X : rows) (dG dC dX dY : rows) (w dw : triple T) (s : dir_state) (lengths : list nat) : result (rows * rows * triple T) :=
    let '(Wx, Wh, bias) := w in
    let '(dWx, dWh, d_bias) := dw in
    let* o := back_order d (order_ltr 0 lengths) in
    let* a := base_back_steps nO (m_rows Wh) s (fst (fst o)) (snd (fst o)) (snd o) dY dC in
    Ok (snd a, add_rows dX (map (times_t nI (m_rows Wx)) dG),
        (mkM nI (add_rows (m_rows dWx) (outer (4 * nO) nI dG X)),
         mkM nO (add_rows (m_rows dWh) (outer (4 * nO) nO dG (d_Y s))),
         row_add d_bias (map (fun j => nsum (col (nZ 0) j dG)) (seq 0 (4 * nO))))).
  Fixpoint base_dirs_bwd (d nO nI : nat) (X : rows) (dG dC dX : rows) (dYs : list rows) (ws dws : list (triple T)) (ss : list dir_state) (lengths : list nat) : result (rows * rows * list (triple T)) :=
    match dYs, ws, dws, ss with
    | dY :: dYs, w :: ws, dw :: dws, s :: ss =>
        let* r := base_dir_bwd d nO nI X dG dC dX dY w dw s lengths in
        let* rest := base_dirs_bwd (S d) nO nI X dG (fst (fst r)) (snd (fst r)) dYs ws dws ss lengths in
        Ok (fst rest, snd r :: snd rest)
    | _, _, _, _ => Ok (dC, dX, [])
    end.
  Fixpoint base_layers_bwd (dirs nO : nat) (lengths : list nat) (dG dC : rows) (dY : mat T) (layers : list (mat T * list (triple T) * list (triple T) * list dir_state)) : result (mat T * list (list (triple T))) :=
    match layers with
    | [] => Ok (dY, [])
    | (X, ws, dws, ss) :: layers =>
        let N := length (m_rows X) in
        if negb (Nat.eqb (length (m_rows dY) * m_cols dY) (N * (dirs * nO))) then Err ValueError
        else
          let* r := base_dirs_bwd 0 nO (m_cols X) (m_rows X) dG dC (zero_rows N (m_cols X)) (split_width dirs nO (m_rows dY)) ws dws ss lengths in
          let* rest := base_layers_bwd dirs nO lengths dG (fst (fst r)) (mkM (m_cols X) (snd (fst r))) layers in
          Ok (fst rest, snd r :: snd rest)
    end.
  (** 1503-1602: here the gradients start from [d_params], which is zero *)
  Definition base_backprop_lstm (depth dirs nO : nat) (dY : mat T) (lengths : list nat) (params : list T) (states : list (list dir_state)) (X : mat T) : result (mat T * list T) :=
    match lengths with
    | [] => Err IndexError
    | _ =>
        let N := length (m_rows X) in
        let* ws := all_layer_params params depth dirs nO (m_cols X) in
        let* dws := all_layer_params (zeros (length params)) depth dirs nO (m_cols X) in
        let* Xs := layer_inputs_of dirs nO X states in
        let* r := base_layers_bwd dirs nO lengths (zero_rows N (4 * nO)) (zero_rows N nO) dY (rev (combine4 Xs ws dws states)) in
        let* d_params := join_layers (rev (snd r)) in
        Ok (fst r, d_params)
    end.
End Kernels.
Arguments dir_state : clear implicits.
