(** thinc/layers/bidirectional.py. No proofs here. *)
From Verif Require Export CombModel.

Section Bidi.
  Context {T : Type} `{Num T}.
  (** bidirectional.py 46-47: [Xp.data[::1]], the data in its own order *)
  Definition reverse_padded (X : value T) : result (value T) :=
    match X with
    | Pad w d sizes lens idx => Ok (Pad w (py_slice d 0 (Z.of_nat (length d))) sizes lens idx)
    | _ => Err AttributeError
    end.
  (** 50-56: [concatenate(axis=-1)]; the outer dimensions must agree *)
  Definition concat_padded (l2r r2l : value T) : result (value T) :=
    match l2r, r2l with
    | Pad w d sizes lens idx, Pad w' d' _ _ _ =>
      if list_eq_dec Nat.eq_dec (shape3 d) (shape3 d')
      then Ok (Pad (w + w') (map (fun p => map (fun q => fst q ++ snd q) (combine (fst p) (snd p))) (combine d d')) sizes lens idx)
      else Err ValueError
    | _, _ => Err AttributeError
    end.
  (** 59-67: [slice(None, half)] and [slice(half)] are both [:half] *)
  Definition split_padded (X : value T) : result (value T * value T) :=
    match X with
    | Pad w d sizes lens idx =>
      let half := Nat.div w 2 in
      Ok (Pad half (map (map (firstn half)) d) sizes lens idx, Pad half (map (map (firstn half)) d) sizes lens idx)
    | _ => Err AttributeError
    end.
  (** 70-71 *)
  Definition sum_padded (X Y : value T) : result (value T) :=
    match X, Y with
    | Pad w d sizes lens idx, Pad w' d' _ _ _ => let* r := add3 w d w' d' in Ok (Pad w r sizes lens idx)
    | _, _ => Err AttributeError
    end.
  (** 22-35 *)
  Definition bidirectional (l2r r2l : layer T) : layer T := fun tr theta X =>
    let* X_rev := reverse_padded X in
    let* p := l2r tr theta X in
    let* q := r2l tr theta X_rev in
    let* Z := concat_padded (fst p) (fst q) in
    Ok (Z, fun dZ g =>
      let* dd := split_padded dZ in
      let* r := snd p (fst dd) g in
      let* s := snd q (snd dd) (snd r) in
      let* dX := sum_padded (fst r) (fst s) in
      Ok (dX, snd s)).
End Bidi.
