(** The combinators again, with arrays as objects: thinc/layers/add.py, tuplify.py, residual.py, noop.py and the
    activation of relu.py. An array is an address in a heap; layers may return an array they were given, and
    callbacks keep addresses and read the arrays when they are called. No proofs here.
    Parameters and the affine part of Relu play no role for aliasing and are left out. *)
From Verif Require Export CombModel.

Section Alias.
  Context {T : Type} `{Num T}.
  Definition heap : Type := list (mat T).
  Definition hcallback : Type := nat -> heap -> result (nat * heap).
  Definition hlayer : Type := nat -> heap -> result (nat * hcallback * heap).

  Definition load (h : heap) (a : nat) : result (mat T) := match nth_error h a with Some m => Ok m | None => Err MemFault end.
  (** A new array. *)
  Definition alloc (m : mat T) (h : heap) : nat * heap := (length h, h ++ [m]).
  (** [y += x] on arrays: y keeps its identity. *)
  Definition h_iadd (y x : nat) (h : heap) : result heap :=
    let* m := load h y in let* n := load h x in let* r := miadd m n in Ok (set_nth y r h).
  (** [x + y]: a new array *)
  Definition h_sum (x y : nat) (h : heap) : result (nat * heap) :=
    let* m := load h x in let* n := load h y in let* r := madd m n in Ok (alloc r h).

  (** noop.py 15-21; also Dropout when it is disabled or not training (dropout.py 27-29) *)
  Definition h_noop : hlayer := fun a h => Ok (a, fun d h' => Ok (d, h'), h).
  (** relu.py 48-51 with ops.py 899-912: a new array, which the callback keeps and compares with 0 when called *)
  Definition relu_mat (m : mat T) : mat T := mkM (m_cols m) (map (map (fun x => if nltb (nZ 0) x then x else nZ 0)) (m_rows m)).
  Definition gate_mat (d y : mat T) : mat T :=
    mkM (m_cols d) (map (fun p => map (fun q => if nltb (nZ 0) (snd q) then fst q else nZ 0) (combine (fst p) (snd p)))
                        (combine (m_rows d) (m_rows y))).
  Definition h_relu : hlayer := fun a h =>
    let* m := load h a in
    let (y, h1) := alloc (relu_mat m) h in
    Ok (y, fun d h2 => let* dm := load h2 d in let* ym := load h2 y in Ok (alloc (gate_mat dm ym) h2), h1).
  (** A layer for examples: multiplies by a constant, into new arrays. *)
  Definition scale_mat (c : T) (m : mat T) : mat T := mkM (m_cols m) (map (map (nmul c)) (m_rows m)).
  Definition h_scale (c : T) : hlayer := fun a h =>
    let* m := load h a in
    let (y, h1) := alloc (scale_mat c m) h in
    Ok (y, fun d h2 => let* dm := load h2 d in Ok (alloc (scale_mat c dm) h2), h1).

  (** add.py 37-40 *)
  Fixpoint h_add_loop (ls : list hlayer) (X Y : nat) (h : heap) : result (list hcallback * heap) :=
    match ls with
    | [] => Ok ([], h)
    | l :: r => let* q := l X h in
                let* h1 := h_iadd Y (fst (fst q)) (snd q) in
                let* rest := h_add_loop r X Y h1 in
                Ok (snd (fst q) :: fst rest, snd rest)
    end.
  (** add.py 44-46 *)
  Fixpoint h_add_back (cbs : list hcallback) (dY dX : nat) (h : heap) : result heap :=
    match cbs with
    | [] => Ok h
    | c :: r => let* p := c dY h in
                let* h1 := h_iadd dX (fst p) (snd p) in
                h_add_back r dY dX h1
    end.
  (** add.py 32-48 *)
  Definition h_add (ls : list hlayer) : hlayer := fun X h =>
    match ls with
    | [] => Ok (X, fun dY h' => Ok (dY, h'), h)
    | l :: r =>
      let* q := l X h in
      let* rest := h_add_loop r X (fst (fst q)) (snd q) in
      Ok (fst (fst q),
          fun dY h2 => let* p := snd (fst q) dY h2 in
                       let* h3 := h_add_back (fst rest) dY (fst p) (snd p) in
                       Ok (fst p, h3),
          snd rest)
    end.

  (** tuplify.py 35-38 *)
  Fixpoint h_tup_loop (ls : list hlayer) (X : nat) (h : heap) : result (list (nat * hcallback) * heap) :=
    match ls with
    | [] => Ok ([], h)
    | l :: r => let* q := l X h in
                let* rest := h_tup_loop r X (snd q) in
                Ok (fst q :: fst rest, snd rest)
    end.
  (** tuplify.py 41 *)
  Fixpoint h_tup_calls (cbs : list hcallback) (dYs : list nat) (h : heap) : result (list nat * heap) :=
    match cbs, dYs with
    | c :: r, d :: s => let* p := c d h in
                        let* rest := h_tup_calls r s (snd p) in
                        Ok (fst p :: fst rest, snd rest)
    | _, _ => Ok ([], h)
    end.
  (** tuplify.py 43-44 *)
  Fixpoint h_iadds (dX : nat) (dXs : list nat) (h : heap) : result heap :=
    match dXs with
    | [] => Ok h
    | x :: r => let* h1 := h_iadd dX x h in h_iadds dX r h1
    end.
  (** tuplify.py 40-45 *)
  Definition h_tup_back (cbs : list hcallback) (dYs : list nat) (h : heap) : result (nat * heap) :=
    let* p := h_tup_calls cbs dYs h in
    match fst p with
    | [] => Err IndexError
    | dX :: r => let* h1 := h_iadds dX r (snd p) in Ok (dX, h1)
    end.
  (** tuplify.py 32-47 *)
  Definition h_tuplify (ls : list hlayer) (X : nat) (h : heap)
    : result (list nat * (list nat -> heap -> result (nat * heap)) * heap) :=
    let* q := h_tup_loop ls X h in
    Ok (map fst (fst q), h_tup_back (map snd (fst q)), snd q).

  (** residual.py 28-50 on arrays *)
  Definition h_residual (l : hlayer) : hlayer := fun X h =>
    let* q := l X h in
    let* s := h_sum X (fst (fst q)) (snd q) in
    Ok (fst s, fun d h2 => let* p := snd (fst q) d h2 in h_sum d (fst p) (snd p), snd s).
  (** residual.py 28-50 on Padded: [Y.data += X.data], [dX.data += d_output.data]. The 3d data is taken as one 2d
      array of the same numbers. *)
  Definition h_residual_padded (l : hlayer) : hlayer := fun X h =>
    let* q := l X h in
    let* h1 := h_iadd (fst (fst q)) X (snd q) in
    Ok (fst (fst q),
        fun d h2 => let* p := snd (fst q) d h2 in
                    let* h3 := h_iadd (fst p) d (snd p) in
                    Ok (fst p, h3),
        h1).
End Alias.
Arguments hlayer : clear implicits. Arguments hcallback : clear implicits. Arguments heap : clear implicits.
