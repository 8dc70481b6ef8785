(** Layers that convert between sequence formats: thinc/layers/with_array.py, with_array2d.py, with_list.py,
    with_ragged.py, with_padded.py, list2array.py, list2ragged.py, ragged2list.py, list2padded.py,
    padded2list.py. No proofs here. Only [forward] is modelled; the [init] functions convert in the same way. *)
From Verif Require Export SeqModel.

Section Adapt.
  Context {T : Type} (z : T).

  (** The values these layers handle. [VPair] and [VQuad] are the tuples (data, lengths) and
      (data, size_at_t, lengths, indices). *)
  Inductive seqval :=
  | VList (Xs : list (nda T)) | VRagged (r : ragged T) | VPadded (p : padded T)
  | VArr (a : nda T) | VArr3 (a : arr3 T)
  | VPair (a : nda T) (lengths : list nat) | VQuad (a : arr3 T) (size_at_t lengths indices : list nat).

  (** A layer maps its input to the output and the backprop callback. *)
  Definition slayer : Type := seqval -> result (seqval * (seqval -> result seqval)).

  (** Using a value of another type (Python fails at the first attribute or operation it lacks). *)
  Definition as_list (v : seqval) : result (list (nda T)) := match v with VList l => Ok l | _ => Err TypeError end.
  Definition as_ragged (v : seqval) : result (ragged T) := match v with VRagged r => Ok r | _ => Err TypeError end.
  Definition as_padded (v : seqval) : result (padded T) := match v with VPadded p => Ok p | _ => Err TypeError end.
  Definition as_arr (v : seqval) : result (nda T) := match v with VArr a => Ok a | _ => Err TypeError end.
  Definition as_arr3 (v : seqval) : result (arr3 T) := match v with VArr3 a => Ok a | _ => Err TypeError end.

  (** ** with_array.py *)

  (** 70-84 *)
  Definition wa_list (L : slayer) (pad : nat) (Xs : list (nda T)) : result (seqval * (seqval -> result seqval)) :=
    let lengths := map a_len Xs in
    let* Xf := flatten z Xs pad 2 in
    let* yb := L (VArr Xf) in
    let* Yf := as_arr (fst yb) in
    Ok (VList (unflatten Yf lengths pad),
        fun dY => let* dYs := as_list dY in
                  let* dYf := flatten z dYs pad 2 in
                  let* dX := snd yb (VArr dYf) in
                  let* dXf := as_arr dX in
                  Ok (VList (unflatten dXf lengths pad))).
  (** 87-96 *)
  Definition wa_ragged (L : slayer) (Xr : ragged T) : result (seqval * (seqval -> result seqval)) :=
    let* yb := L (VArr (dataXd Xr)) in
    let* Y := as_arr (fst yb) in
    Ok (VRagged (mk_ragged Y (r_lengths Xr)),
        fun dY => let* dYr := as_ragged dY in
                  let* dX := snd yb (VArr (dataXd dYr)) in
                  let* d := as_arr dX in
                  Ok (VRagged (mk_ragged d (r_lengths dYr)))).
  (** 99-110 *)
  Definition wa_padded (L : slayer) (Xp : padded T) : result (seqval * (seqval -> result seqval)) :=
    let* yb := L (VArr3 (p_data Xp)) in
    let* Y := as_arr3 (fst yb) in
    Ok (VPadded (mkPad Y (p_size_at_t Xp) (p_lengths Xp) (p_indices Xp)),
        fun dY => match dY with
                  | VPadded dYp =>
                    let* dX := snd yb (VArr3 (p_data dYp)) in
                    let* d := as_arr3 dX in
                    Ok (VPadded (mkPad d (p_size_at_t dYp) (p_lengths dYp) (p_indices dYp)))
                  | _ => Err AssertionError
                  end).
  (** 32-42 [forward]. A tuple is treated like a list; the two tuples here hold arrays that cannot be
      flattened together (the data has another rank than the lengths), so concatenation raises. *)
  Definition with_array (L : slayer) (pad : nat) : slayer := fun X =>
    match X with
    | VRagged r => wa_ragged L r
    | VPadded p => wa_padded L p
    | VList l => wa_list L pad l
    | VPair _ _ | VQuad _ _ _ _ => Err ValueError
    | _ => L X
    end.

  (** ** with_array2d.py *)

  (** [a.reshape((n,) + tail)] *)
  Definition reshape_to (a : nda T) (n : nat) (tail : list nat) : result (nda T) :=
    if Nat.eqb (a_size a) (n * shape_size tail)
    then Ok (mkA tail (map (fun i => firstn (shape_size tail) (skipn (i * shape_size tail) (concat (a_rows a)))) (seq 0 n)))
    else Err ValueError.
  (** [reshape2(data, shape[0] * shape[1], shape[2])] of a 3d array *)
  Definition reshape2 (a : arr3 T) : result (nda T) :=
    match a3_tail a with
    | [w] => Ok (mkA [w] (concat (a3_cells a)))
    | [] => Err IndexError
    | _ => Err ValueError
    end.
  (** [reshape3f(a, n0, n1, a.shape[1])] of a 2d array *)
  Definition reshape3 (a : nda T) (n0 n1 : nat) : result (arr3 T) :=
    match a_tail a with
    | [w] => if Nat.eqb (a_len a * w) (n0 * n1 * w)
             then Ok (mkA3 n1 [w] (map (fun i => firstn n1 (skipn (i * n1) (a_rows a))) (seq 0 n0))) else Err ValueError
    | [] => Err IndexError
    | _ => Err ValueError
    end.
  (** 89-99 *)
  Definition wa2_ragged (L : slayer) (Xr : ragged T) : result (seqval * (seqval -> result seqval)) :=
    let* yb := L (VArr (r_data Xr)) in
    let* Y := as_arr (fst yb) in
    Ok (VRagged (mk_ragged Y (r_lengths Xr)),
        fun dY => let* dYr := as_ragged dY in
                  let* dX := snd yb (VArr (dataXd dYr)) in
                  let* d := as_arr dX in
                  let* d' := reshape_to d (a_len (dataXd Xr)) (r_tail Xr) in
                  Ok (VRagged (mk_ragged d' (r_lengths dYr)))).
  (** 102-125 *)
  Definition wa2_padded (L : slayer) (Xp : padded T) : result (seqval * (seqval -> result seqval)) :=
    let* X := reshape2 (p_data Xp) in
    let* yb := L (VArr X) in
    let* Y2d := as_arr (fst yb) in
    let* Y := reshape3 Y2d (length (a3_cells (p_data Xp))) (a3_n1 (p_data Xp)) in
    Ok (VPadded (mkPad Y (p_size_at_t Xp) (p_lengths Xp) (p_indices Xp)),
        fun dY => match dY with
                  | VPadded dYp =>
                    let* d := reshape2 (p_data dYp) in
                    let* dX := snd yb (VArr d) in
                    let* dX2d := as_arr dX in
                    let* dX3 := reshape3 dX2d (length (a3_cells (p_data dYp))) (a3_n1 (p_data dYp)) in
                    Ok (VPadded (mkPad dX3 (p_size_at_t dYp) (p_lengths dYp) (p_indices dYp)))
                  | _ => Err AssertionError
                  end).
  (** 31-42 [forward]; 72-86 is the same code as in with_array.py *)
  Definition with_array2d (L : slayer) (pad : nat) : slayer := fun X =>
    match X with
    | VRagged r => wa2_ragged L r
    | VPadded p => wa2_padded L p
    | VList l => wa_list L pad l
    | VPair _ _ | VQuad _ _ _ _ => Err ValueError
    | _ => L X
    end.

  (** ** with_list.py *)

  (** 51-69 *)
  Definition wl_ragged (L : slayer) (Xr : ragged T) : result (seqval * (seqval -> result seqval)) :=
    let* yb := L (VList (unflatten (r_data Xr) (r_lengths Xr) 0)) in
    let* Ys := as_list (fst yb) in
    let* Yf := flatten z Ys 0 2 in
    Ok (VRagged (mk_ragged Yf (r_lengths Xr)),
        fun dY => let* dYr := as_ragged dY in
                  let* dX := snd yb (VList (unflatten (r_data dYr) (r_lengths dYr) 0)) in
                  let* dXs := as_list dX in
                  let* dXf := flatten z dXs 0 2 in
                  Ok (VRagged (mk_ragged dXf (r_lengths dYr)))).
  (** 72-87 *)
  Definition wl_padded (L : slayer) (Xp : padded T) : result (seqval * (seqval -> result seqval)) :=
    let* Xs := padded2list Xp in
    let* yb := L (VList Xs) in
    let* Ys := as_list (fst yb) in
    let* Yp := list2padded z Ys in
    Ok (VPadded Yp,
        fun dY => let* dYp := as_padded dY in
                  let* dYs := padded2list dYp in
                  let* dX := snd yb (VList dYs) in
                  let* dXs := as_list dX in
                  let* dXp := list2padded z dXs in
                  Ok (VPadded dXp)).
  (** 21-30 *)
  Definition with_list (L : slayer) : slayer := fun X =>
    match X with
    | VPadded p => wl_padded L p
    | VRagged r => wl_ragged L r
    | _ => L X
    end.

  (** ** with_ragged.py *)

  (** 70-79 *)
  Definition wr_tuple (L : slayer) (data : nda T) (lengths : list nat) : result (seqval * (seqval -> result seqval)) :=
    let* yb := L (VRagged (mk_ragged data lengths)) in
    let* Yr := as_ragged (fst yb) in
    Ok (VPair (r_data Yr) (r_lengths Yr),
        fun dY => match dY with
                  | VPair d l =>
                    let* dX := snd yb (VRagged (mk_ragged d l)) in
                    let* dXr := as_ragged dX in
                    Ok (VPair (r_data dXr) (r_lengths dXr))
                  | _ => Err TypeError
                  end).
  (** 82-111 *)
  Definition wr_padded (L : slayer) (Xp : padded T) : result (seqval * (seqval -> result seqval)) :=
    let* Xs := padded2list Xp in
    let lengths := map a_len Xs in
    let* Xf := flatten z Xs 0 2 in
    let* yb := L (VRagged (mk_ragged Xf lengths)) in
    let* Yr := as_ragged (fst yb) in
    let* Yp := list2padded z (unflatten (r_data Yr) (r_lengths Yr) 0) in
    Ok (VPadded Yp,
        fun dY => let* dYp := as_padded dY in
                  let* dYs := padded2list dYp in
                  let* flattened := flatten z dYs 0 2 in
                  let* dX := snd yb (VRagged (mk_ragged flattened lengths)) in
                  let* dXr := as_ragged dX in
                  let* dXp := list2padded z (unflatten (r_data dXr) lengths 0) in
                  Ok (VPadded dXp)).
  (** 114-128 *)
  Definition wr_list (L : slayer) (Xs : list (nda T)) : result (seqval * (seqval -> result seqval)) :=
    let lengths := map a_len Xs in
    let* Xf := flatten z Xs 0 2 in
    let* yb := L (VRagged (mk_ragged Xf lengths)) in
    let* Yr := as_ragged (fst yb) in
    Ok (VList (unflatten (r_data Yr) (r_lengths Yr) 0),
        fun dY => let* dYs := as_list dY in
                  let* flattened := flatten z dYs 0 2 in
                  let* dX := snd yb (VRagged (mk_ragged flattened lengths)) in
                  let* dXr := as_ragged dX in
                  Ok (VList (unflatten (r_data dXr) lengths 0))).
  (** 20-37 *)
  Definition with_ragged (L : slayer) : slayer := fun X =>
    match X with
    | VRagged _ => L X
    | VPadded p => wr_padded L p
    | VPair d l => wr_tuple L d l
    | VList l => wr_list L l
    | _ => Err TypeError
    end.

  (** ** with_padded.py *)

  (** 66-71, the array case of [_get_padded] *)
  Definition array_padded (X : arr3 T) : padded T :=
    let n0 := length (a3_cells X) in
    mkPad X (repeat (a3_n1 X) n0) (repeat n0 (a3_n1 X)) (seq 0 (a3_n1 X)).
  (** 77-92 *)
  Definition wp_array (L : slayer) (X : arr3 T) : result (seqval * (seqval -> result seqval)) :=
    let Xp := array_padded X in
    let* yb := L (VPadded Xp) in
    let* Yp := as_padded (fst yb) in
    Ok (VArr3 (p_data Yp),
        fun dY => let* d := as_arr3 dY in
                  let* dX := snd yb (VPadded (mkPad d (p_size_at_t Xp) (p_lengths Xp) (p_indices Xp))) in
                  let* dXp := as_padded dX in
                  Ok (VArr3 (p_data dXp))).
  (** 95-104 *)
  Definition wp_tuple (L : slayer) (X : arr3 T) (s l i : list nat) : result (seqval * (seqval -> result seqval)) :=
    let* yb := L (VPadded (mkPad X s l i)) in
    let* Yp := as_padded (fst yb) in
    Ok (VQuad (p_data Yp) (p_size_at_t Yp) (p_lengths Yp) (p_indices Yp),
        fun dY => match dY with
                  | VQuad d s' l' i' =>
                    let* dX := snd yb (VPadded (mkPad d s' l' i')) in
                    let* dXp := as_padded dX in
                    Ok (VQuad (p_data dXp) (p_size_at_t dXp) (p_lengths dXp) (p_indices dXp))
                  | _ => Err TypeError
                  end).
  (** 107-128 *)
  Definition wp_ragged (L : slayer) (Xr : ragged T) : result (seqval * (seqval -> result seqval)) :=
    let* Xp := list2padded z (unflatten (r_data Xr) (r_lengths Xr) 0) in
    let* yb := L (VPadded Xp) in
    let* Yp := as_padded (fst yb) in
    let* Ys := padded2list Yp in
    let* flattened := flatten z Ys 0 2 in
    Ok (VRagged (mk_ragged flattened (r_lengths Xr)),
        fun dY => let* dYr := as_ragged dY in
                  let* dYp := list2padded z (unflatten (r_data dYr) (r_lengths dYr) 0) in
                  let* dX := snd yb (VPadded dYp) in
                  let* dXp := as_padded dX in
                  let* dXs := padded2list dXp in
                  let* flattened := flatten z dXs 0 2 in
                  Ok (VRagged (mk_ragged flattened (r_lengths dYr)))).
  (** 131-143 *)
  Definition wp_list (L : slayer) (Xs : list (nda T)) : result (seqval * (seqval -> result seqval)) :=
    let* Xp := list2padded z Xs in
    let* yb := L (VPadded Xp) in
    let* Yp := as_padded (fst yb) in
    let* Ys := padded2list Yp in
    Ok (VList Ys,
        fun dY => let* dYs := as_list dY in
                  let* dYp := list2padded z dYs in
                  let* dX := snd yb (VPadded dYp) in
                  let* dXp := as_padded dX in
                  let* dXs := padded2list dXp in
                  Ok (VList dXs)).
  (** 23-43 *)
  Definition with_padded (L : slayer) : slayer := fun X =>
    match X with
    | VPadded _ => L X
    | VRagged r => wp_ragged L r
    | VQuad d s l i => wp_tuple L d s l i
    | VArr3 a => wp_array L a
    | VList l => wp_list L l
    | _ => Err TypeError
    end.

  (** ** Conversion layers *)

  (** list2array.py 24-30 *)
  Definition list2array : slayer := fun X =>
    let* Xs := as_list X in
    let lengths := map a_len Xs in
    let* Y := flatten z Xs 0 2 in
    Ok (VArr Y, fun dY => let* d := as_arr dY in Ok (VList (unflatten d lengths 0))).
  (** list2ragged.py 20-25 *)
  Definition list2ragged_layer : slayer := fun X =>
    let* Xs := as_list X in
    let* Y := flatten z Xs 0 2 in
    Ok (VRagged (mk_ragged Y (map a_len Xs)),
        fun dY => let* dYr := as_ragged dY in Ok (VList (unflatten (r_data dYr) (r_lengths dYr) 0))).
  (** ragged2list.py 17-25 *)
  Definition ragged2list : slayer := fun X =>
    let* Xr := as_ragged X in
    let lengths := r_lengths Xr in
    Ok (VList (unflatten (dataXd Xr) lengths 0),
        fun dY => let* dXs := as_list dY in let* d := flatten z dXs 0 2 in Ok (VRagged (mk_ragged d lengths))).
  (** list2padded.py 17-23 *)
  Definition list2padded_layer : slayer := fun X =>
    let* Xs := as_list X in
    let* Yp := list2padded z Xs in
    Ok (VPadded Yp, fun dY => let* dYp := as_padded dY in let* l := padded2list dYp in Ok (VList l)).
  (** padded2list.py 17-27 *)
  Definition padded2list_layer : slayer := fun X =>
    let* Xp := as_padded X in
    let* Ys := padded2list Xp in
    Ok (VList Ys, fun dY => let* dYs := as_list dY in let* dYp := list2padded z dYs in Ok (VPadded dYp)).
End Adapt.
Arguments seqval : clear implicits.
Arguments slayer : clear implicits.
