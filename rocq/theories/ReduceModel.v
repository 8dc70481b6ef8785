(** Reductions over the sequences of a ragged array: thinc/backends/ops.py 1221-1348 (the portable
    versions), thinc/backends/numpy_ops.pyx 338-480 and thinc/backends/cpu_kernels.hh 83-338 (the CPU
    versions). No proofs here.
    Pointers into 2d arrays always move by whole rows, so memory is a list of rows here. 32-bit overflow,
    dtypes and NaN are not modelled; [nltb] is the order. Sums run from the first row to the last (numpy may
    add in another order). *)
From Verif Require Export MatModel.

Section Reduce.
  Context {T : Type} `{Num T}.
  Local Open Scope num_scope.
  Local Notation rows := (list (list T)).

  (** ** C++ kernels *)

  (** cpu_kernels.hh 83-91 [vec_add] *)
  Definition vec_add (X Y : list T) (scale : T) : list T := vmap2 (fun x y => x + scale * y) X Y.
  (** The loop [for i < n: vec_add(acc, X, scale); X += O]; returns the row and the moved pointer. *)
  Fixpoint add_rows (scale : T) (n : nat) (acc : list T) (X : rows) : result (list T * rows) :=
    match n with
    | O => Ok (acc, X)
    | S n' => match X with [] => Err MemFault | x :: X' => add_rows scale n' (vec_add acc x scale) X' end
    end.
  (** 291-320 [cpu_reduce_sum], 205-235 [cpu_reduce_mean]. The branch [length == 0] compares the pointer,
      not the length, and is never taken. [scale] is 1 or 1/length. The output was zeroed by the caller. *)
  Fixpoint cpu_reduce (scale : Z -> T) (O : nat) (T_ : Z) (X : rows) (lengths : list Z) : result rows :=
    match lengths with
    | [] => Ok []
    | len :: lengths' =>
      if (len <? 0)%Z then Err ValueError
      else if (T_ <? len)%Z then Err IndexError
      else
        let* p := add_rows (scale len) (Z.to_nat len) (zeros O) X in
        let* rest := cpu_reduce scale O (T_ - len)%Z (snd p) lengths' in
        Ok (fst p :: rest)
    end.
  (** 322-338 [cpu_backprop_reduce_sum], 237-254 [cpu_backprop_reduce_mean]: rows of the zeroed [dX] *)
  Fixpoint cpu_backprop_reduce (scale : Z -> T) (O : nat) (dY : rows) (lengths : list Z) : result rows :=
    match lengths with
    | [] => Ok []
    | len :: lengths' =>
      let* rest := cpu_backprop_reduce scale O (tl dY) lengths' in
      match Z.to_nat len, dY with
      | O, _ => Ok rest
      | _, [] => Err MemFault
      | n, d :: _ => Ok (repeat (vec_add (zeros O) d (scale len)) n ++ rest)
      end
    end.
  (** 163-172: the loop over the rows [i = 1 .. length-1] of a sequence *)
  Fixpoint max_loop (n : nat) (i : Z) (best : list (T * Z)) (X : rows) : result (list (T * Z) * rows) :=
    match n with
    | O => Ok (best, X)
    | S n' =>
      match X with
      | [] => Err MemFault
      | x :: X' =>
        max_loop n' (i + 1)%Z (map (fun p => if fst (fst p) <? snd p then (snd p, i) else fst p) (combine best x)) X'
      end
    end.
  (** 147-179 [cpu_reduce_max]; [which] was zeroed by the caller *)
  Fixpoint cpu_reduce_max (T_ : Z) (X : rows) (lengths : list Z) : result (list (list (T * Z))) :=
    match lengths with
    | [] => Ok []
    | len :: lengths' =>
      if (len <=? 0)%Z then Err ValueError
      else if (T_ <? len)%Z then Err IndexError
      else
        match X with
        | [] => Err MemFault
        | x :: X' =>
          let* p := max_loop (Z.to_nat len - 1) 1 (map (fun v => (v, 0%Z)) x) X' in
          let* rest := cpu_reduce_max (T_ - len)%Z (snd p) lengths' in
          Ok (fst p :: rest)
        end
    end.
  (** 189-198: one sequence starting at row [start] of dX; [cols] lists the columns still to do as
      (column, which, gradient) *)
  Fixpoint put_max (start len : Z) (cols : list (nat * (Z * T))) (dX : rows) : result rows :=
    match cols with
    | [] => Ok dX
    | (j, (item, d)) :: cols' =>
      if (len <=? item)%Z then Err IndexError
      else if (start + item <? 0)%Z then Err MemFault
      else if (Z.of_nat (length dX) <=? start + item)%Z then Err MemFault
      else put_max start len cols' (set_cell (Z.to_nat (start + item)) j d dX)
    end.
  (** 181-203 [cpu_backprop_reduce_max] *)
  Fixpoint cpu_backprop_reduce_max (start : Z) (dY : rows) (which : list (list Z)) (lengths : list Z) (dX : rows) : result rows :=
    match lengths with
    | [] => Ok dX
    | len :: lengths' =>
      match dY, which with
      | d :: dY', w :: which' =>
        let* dX' := put_max start len (combine (seq 0 (length d)) (combine w d)) dX in
        cpu_backprop_reduce_max (start + len)%Z dY' which' lengths' dX'
      | _, _ => Err MemFault
      end
    end.

  (** ** numpy_ops.pyx. [&X[0, 0]] is bounds-checked: it raises for an array without rows. *)

  Definition zsum (l : list Z) : Z := fold_right Z.add 0%Z l.
  Definition scale1 : Z -> T := fun _ => nZ 1.
  Definition scale_inv : Z -> T := fun len => nZ 1 / nZ len.
  (** 385-404 [reduce_sum], 338-357 [reduce_mean] *)
  Definition np_reduce (scale : Z -> T) (X : mat T) (lengths : list Z) : result (mat T) :=
    if (length lengths =? 0)%nat || (m_cols X =? 0)%nat then Ok (mzeros (length lengths) (m_cols X))
    else match m_rows X with
         | [] => Err IndexError
         | _ => let* r := cpu_reduce scale (m_cols X) (Z.of_nat (m_len X)) (m_rows X) lengths in Ok (mkM (m_cols X) r)
         end.
  Definition np_reduce_sum := np_reduce scale1.
  Definition np_reduce_mean := np_reduce scale_inv.
  (** 406-430 [backprop_reduce_sum], 359-383 [backprop_reduce_mean] *)
  Definition np_backprop_reduce (scale : Z -> T) (dY : mat T) (lengths : list Z) : result (mat T) :=
    if existsb (fun len => (len <? 0)%Z) lengths then Err ValueError
    else
      let T_ := zsum lengths in
      if (T_ =? 0)%Z || (m_cols dY =? 0)%nat then Ok (mzeros (Z.to_nat T_) (m_cols dY))
      else match m_rows dY with
           | [] => Err IndexError
           | _ => let* r := cpu_backprop_reduce scale (m_cols dY) (m_rows dY) lengths in Ok (mkM (m_cols dY) r)
           end.
  Definition np_backprop_reduce_sum := np_backprop_reduce scale1.
  Definition np_backprop_reduce_mean := np_backprop_reduce scale_inv.
  (** 432-454 [reduce_max] *)
  Definition np_reduce_max (X : mat T) (lengths : list Z) : result (mat T * list (list Z)) :=
    if (length lengths =? 0)%nat || (m_cols X =? 0)%nat
    then Ok (mzeros (length lengths) (m_cols X), repeat (repeat 0%Z (m_cols X)) (length lengths))
    else match m_rows X with
         | [] => Err IndexError
         | _ => let* r := cpu_reduce_max (Z.of_nat (m_len X)) (m_rows X) lengths in
                Ok (mkM (m_cols X) (map (map fst) r), map (map snd) r)
         end.
  (** 456-482 [backprop_reduce_max]; [which] has the shape of [d_maxes] *)
  Definition np_backprop_reduce_max (dY : mat T) (which : list (list Z)) (lengths : list Z) : result (mat T) :=
    if existsb (fun len => (len <=? 0)%Z) lengths then Err ValueError
    else
      let T_ := zsum lengths in
      if (T_ =? 0)%Z || (m_cols dY =? 0)%nat then Ok (mzeros (Z.to_nat T_) (m_cols dY))
      else match m_rows dY, which with
           | [], _ | _, [] => Err IndexError
           | _, _ => let* r := cpu_backprop_reduce_max 0 (m_rows dY) which lengths (m_rows (mzeros (Z.to_nat T_) (m_cols dY))) in
                     Ok (mkM (m_cols dY) r)
           end.

  (** ** ops.py *)

  (** [rows.sum(axis=0)] *)
  Definition sum0 (O : nat) (X : rows) : list T := map (fun j => nsum (col (nZ 0) j X)) (seq 0 O).
  Definition mean0 (O : nat) (X : rows) : list T := map (fun s => s / nnat (length X)) (sum0 O X).
  (** 1221-1234 [reduce_sum], 1259-1272 [reduce_mean] with [f] the reduction of a non-empty sequence *)
  Fixpoint op_reduce_loop (f : rows -> list T) (O start : nat) (X : rows) (lengths : list Z) : result rows :=
    match lengths with
    | [] => Ok []
    | len :: lengths' =>
      if (len <? 0)%Z then Err ValueError
      else if (Z.of_nat (length X) <? Z.of_nat start + len)%Z then Err IndexError
      else
        let n := Z.to_nat len in
        let* rest := op_reduce_loop f O (start + n) X lengths' in
        Ok ((if (n =? 0)%nat then zeros O else f (slice_rows start (start + n) X)) :: rest)
    end.
  Definition op_reduce_sum (X : mat T) (lengths : list Z) : result (mat T) :=
    let* r := op_reduce_loop (sum0 (m_cols X)) (m_cols X) 0 (m_rows X) lengths in Ok (mkM (m_cols X) r).
  Definition op_reduce_mean (X : mat T) (lengths : list Z) : result (mat T) :=
    let* r := op_reduce_loop (mean0 (m_cols X)) (m_cols X) 0 (m_rows X) lengths in Ok (mkM (m_cols X) r).
  (** 1274-1287 [reduce_max]: [X.argmax(axis=0)] is the first position of the maximum *)
  Fixpoint argmax_from (best : T) (w i : Z) (l : list T) : T * Z :=
    match l with
    | [] => (best, w)
    | x :: l' => if best <? x then argmax_from x i (i + 1) l' else argmax_from best w (i + 1) l'
    end.
  (** max and argmax of a non-empty column (an empty one cannot occur: the lengths are positive) *)
  Definition argmax (l : list T) : T * Z :=
    match l with [] => (nZ 0, 0%Z) | x :: l' => argmax_from x 0 1 l' end.
  Definition max0 (O : nat) (X : rows) : list (T * Z) := map (fun j => argmax (col (nZ 0) j X)) (seq 0 O).
  Fixpoint op_reduce_max_loop (O start : nat) (X : rows) (lengths : list Z) : result (list (list (T * Z))) :=
    match lengths with
    | [] => Ok []
    | len :: lengths' =>
      if (len <=? 0)%Z then Err ValueError
      else if (Z.of_nat (length X) <? Z.of_nat start + len)%Z then Err IndexError
      else
        let n := Z.to_nat len in
        let* rest := op_reduce_max_loop O (start + n) X lengths' in
        Ok (max0 O (slice_rows start (start + n) X) :: rest)
    end.
  Definition op_reduce_max (X : mat T) (lengths : list Z) : result (mat T * list (list Z)) :=
    let* r := op_reduce_max_loop (m_cols X) 0 (m_rows X) lengths in
    Ok (mkM (m_cols X) (map (map fst) r), map (map snd) r).

  (** 1311-1321 [backprop_reduce_sum], 1323-1333 [backprop_reduce_mean]. The array is allocated with
      [lengths.sum()] rows: a negative sum raises ValueError, like any negative length. Slices of the rows
      past the end are empty. *)
  Fixpoint op_backprop_loop (f : Z -> T -> T) (dY : rows) (i : nat) (lengths : list Z) : result rows :=
    match lengths with
    | [] => Ok []
    | len :: lengths' =>
      if (len <? 0)%Z then Err ValueError
      else
        let* d := py_get dY i in
        let* rest := op_backprop_loop f dY (S i) lengths' in
        Ok (repeat (map (f len) d) (Z.to_nat len) ++ rest)
    end.
  Definition op_backprop_reduce_sum (dY : mat T) (lengths : list Z) : result (mat T) :=
    if (zsum lengths <? 0)%Z then Err ValueError
    else let* r := op_backprop_loop (fun _ x => x) (m_rows dY) 0 lengths in Ok (mkM (m_cols dY) r).
  Definition op_backprop_reduce_mean (dY : mat T) (lengths : list Z) : result (mat T) :=
    if (zsum lengths <? 0)%Z then Err ValueError
    else let* r := op_backprop_loop (fun len x => x / nZ len) (m_rows dY) 0 lengths in Ok (mkM (m_cols dY) r).

  (** 1335-1348 [backprop_reduce_max]: [put_along_axis] on the slice of a sequence accepts negative
      positions, counted from the end of the slice *)
  Fixpoint op_put_max (start len : nat) (cols : list (nat * (Z * T))) (dX : rows) : result rows :=
    match cols with
    | [] => Ok dX
    | (j, (item, d)) :: cols' =>
      match norm_index len item with
      | Some i => op_put_max start len cols' (set_cell (start + i) j d dX)
      | None => Err IndexError
      end
    end.
  Fixpoint op_backprop_max_loop (start : nat) (dY : rows) (which : list (list Z)) (i : nat) (lengths : list Z) (dX : rows) : result rows :=
    match lengths with
    | [] => Ok dX
    | len :: lengths' =>
      if (len <=? 0)%Z then Err ValueError
      else
        let* w := py_get which i in
        let* d := py_get dY i in
        let* dX' := op_put_max start (Z.to_nat len) (combine (seq 0 (length d)) (combine w d)) dX in
        op_backprop_max_loop (start + Z.to_nat len) dY which (S i) lengths' dX'
    end.
  Definition op_backprop_reduce_max (dY : mat T) (which : list (list Z)) (lengths : list Z) : result (mat T) :=
    if (zsum lengths <? 0)%Z then Err ValueError
    else
      let* r := op_backprop_max_loop 0 (m_rows dY) which 0 lengths (m_rows (mzeros (Z.to_nat (zsum lengths)) (m_cols dY))) in
      Ok (mkM (m_cols dY) r).

  Fixpoint zcumsum_from (acc : Z) (l : list Z) : list Z :=
    match l with [] => [] | x :: l' => (acc + x)%Z :: zcumsum_from (acc + x) l' end.
  Definition zcumsum := zcumsum_from 0.
  (** 1236-1247 [reduce_first] *)
  Definition op_reduce_first (X : mat T) (lengths : list Z) : result (mat T * list Z) :=
    match lengths with
    | [] => Ok (mzeros 0 (m_cols X), lengths)
    | _ =>
      if negb (forallb (fun len => (0 <? len)%Z) lengths) then Err ValueError
      else
        let starts_ends := 0%Z :: zcumsum lengths in
        let* e := py_getz starts_ends (-1) in
        if negb (e =? Z.of_nat (m_len X))%Z then Err IndexError
        else
          let* r := mapM (py_getz (m_rows X)) (removelast starts_ends) in
          Ok (mkM (m_cols X) r, starts_ends)
    end.
  (** 1249-1257 [reduce_last] *)
  Definition op_reduce_last (X : mat T) (lengths : list Z) : result (mat T * list Z) :=
    match lengths with
    | [] => Ok (mzeros 0 (m_cols X), lengths)
    | _ =>
      if negb (forallb (fun len => (0 <? len)%Z) lengths) then Err ValueError
      else
        let lasts := map (fun e => (e - 1)%Z) (zcumsum lengths) in
        let* e := py_getz lasts (-1) in
        if negb (e + 1 =? Z.of_nat (m_len X))%Z then Err IndexError
        else
          let* r := mapM (py_getz (m_rows X)) lasts in
          Ok (mkM (m_cols X) r, lasts)
    end.
  (** [dX[ids] = d]: a single row is broadcast, any other number of rows must match *)
  Fixpoint put_rows (ids : list Z) (d dX : rows) : result rows :=
    match ids, d with
    | [], _ => Ok dX
    | id :: ids', r :: d' =>
      match norm_index (length dX) id with
      | Some i => put_rows ids' d' (set_nth i r dX)
      | None => Err IndexError
      end
    | _, [] => Err ValueError
    end.
  Definition assign_rows (dX : rows) (ids : list Z) (d : rows) : result rows :=
    if (length d =? length ids)%nat then put_rows ids d dX
    else match d with [r] => put_rows ids (repeat r (length ids)) dX | _ => Err ValueError end.
  (** 1289-1300 [backprop_reduce_first]; a negative last entry cannot be allocated *)
  Definition op_backprop_reduce_first (dY : mat T) (starts_ends : list Z) : result (mat T) :=
    match starts_ends with
    | [] => Ok (mzeros 0 (m_cols dY))
    | [_] => Err ValueError
    | _ =>
      let* e := py_getz starts_ends (-1) in
      if (e <? 0)%Z then Err ValueError
      else
        let* r := assign_rows (m_rows (mzeros (Z.to_nat e) (m_cols dY))) (removelast starts_ends) (m_rows dY) in
        Ok (mkM (m_cols dY) r)
    end.
  (** 1302-1309 [backprop_reduce_last] *)
  Definition op_backprop_reduce_last (dY : mat T) (lasts : list Z) : result (mat T) :=
    match lasts with
    | [] => Ok (mzeros 0 (m_cols dY))
    | _ =>
      let* e := py_getz lasts (-1) in
      if (e + 1 <? 0)%Z then Err ValueError
      else
        let* r := assign_rows (m_rows (mzeros (Z.to_nat (e + 1)) (m_cols dY))) lasts (m_rows dY) in
        Ok (mkM (m_cols dY) r)
    end.
End Reduce.
