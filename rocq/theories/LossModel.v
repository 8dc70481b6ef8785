(** Losses: thinc/util.py 253-290 (to_categorical) and thinc/loss.py 49-431. No proofs here.
    Guesses are 2d arrays. Arrays are values: [truths *= negatives_mask] on an array given by the caller also changes the
    caller's array, which is not modelled. *)
From Coq Require Import String.
From Verif Require Export SoftModel.
Local Open Scope list_scope.

Section Loss.
  Context {T : Type} `{Num T}.
  Local Open Scope num_scope.

  (** util.py 253-290, with a 1d array of labels. [xp.max] of an empty array and [xp.full] of a negative size raise ValueError;
      [label_distr[Y]] accepts negative labels down to [-n_classes]. *)
  Definition index_row {A} (rows : list A) (y : Z) : result A :=
    let n := Z.of_nat (length rows) in
    if ((- n <=? y) && (y <? n))%Z then py_get rows (Z.to_nat (if (y <? 0)%Z then y + n else y)) else Err IndexError.
  Definition to_categorical (Y : list Z) (n_classes : option Z) (label_smoothing : T) : result (mat T) :=
    let* n := match n_classes, Y with
              | Some n, _ => Ok n
              | None, [] => Err ValueError
              | None, y :: Y' => Ok (fold_left Z.max Y' y + 1)%Z
              end in
    if label_smoothing <? nZ 0 then Err ValueError else
    let* nongold_prob :=
      if label_smoothing =? nZ 0
      then if (n =? 0)%Z then Err ValueError else Ok (nZ 0)
      else if (1 <? n)%Z then Ok (label_smoothing / nZ (n - 1)) else Err ValueError in
    let max_smooth := nZ (n - 1) / nZ n in
    if ((1 <? n)%Z && negb (label_smoothing <? max_smooth))%bool then Err ValueError else
    if (n <? 0)%Z then Err ValueError else
    let k := Z.to_nat n in
    let label_distr := map (fun i => map (fun j => if Nat.eqb i j then nZ 1 - label_smoothing else nongold_prob) (seq 0 k)) (seq 0 k) in
    let* rows := mapM (index_row label_distr) Y in
    Ok (mkM k rows).

  (** ** CategoricalCrossentropy *)

  (** [missing_value: Optional[Union[str, int]]] *)
  Inductive missing_t := NoMissing | MissingInt (z : Z) | MissingStr (s : string).
  (** loss.py 54-71. The dict [_name_to_i] is computed from [names] where it is used. *)
  Record cc_t := { normalize : bool; names : option (list string); missing_value : missing_t;
                   neg_prefix : option string; label_smoothing : T }.
  (** Lists of ints and lists of strings (an element may be None), arrays of ints and 2d arrays of floats. Lists that mix ints
      and strings are not modelled. *)
  Inductive truths_t := ListInts (l : list Z) | ListStrs (l : list (option string)) | ArrInts (l : list Z) | ArrFloats (m : mat T).

  (** [self._name_to_i[s]] (69): the last position of a name *)
  Fixpoint name_to_i (names : list string) (i : nat) (s : string) : option nat :=
    match names with
    | [] => None
    | n :: names' => match name_to_i names' (S i) s with
                     | Some k => Some k
                     | None => if String.eqb n s then Some i else None
                     end
    end.
  Inductive mark := Plain | Missing | Negative (k : nat).
  (** [value == missing_value] *)
  Definition is_missing_int (m : missing_t) (v : Z) : bool := match m with MissingInt z => (v =? z)%Z | _ => false end.
  Definition is_missing_str (m : missing_t) (v : option string) : bool :=
    match m, v with NoMissing, None => true | MissingStr s, Some t => String.eqb t s | _, _ => false end.
  (** 97-109, for one value: what replaces it in [truths], and what it does to [missing] and [negatives_mask].
      Without names [_name_to_i] is empty, so line 108 is never reached with [negatives_mask] being None. *)
  Definition read_str (c : cc_t) (ns : list string) (v : option string) : result (option string * mark) :=
    if is_missing_str (missing_value c) v
    then match ns with [] => Err IndexError | n :: _ => Ok (Some n, Missing) end
    else match v, neg_prefix c with
         | Some s, Some p =>
             if (negb (String.eqb s "") && negb (String.eqb p "") && String.prefix p s)%bool
             then let t := String.substring (String.length p) (String.length s - String.length p) s in
                  match name_to_i ns 0 t with Some k => Ok (Some t, Negative k) | None => Err KeyError end
             else Ok (v, Plain)
         | _, _ => Ok (v, Plain)
         end.
  Definition lookup (ns : list string) (v : option string) : result Z :=
    match v with
    | None => Err KeyError
    | Some s => match name_to_i ns 0 s with Some k => Ok (Z.of_nat k) | None => Err KeyError end
    end.
  (** 411-415; [missing] as the list of rows *)
  Definition positions (l : list bool) : list nat := map fst (filter snd (combine (seq 0 (length l)) l)).
  Definition make_mask (guesses : mat T) (missing : list nat) : result (mat T) :=
    let r := length (m_rows guesses) in
    if existsb (Nat.leb r) missing then Err IndexError
    else Ok (mkM (m_cols guesses) (map (fun i => repeat (if existsb (Nat.eqb i) missing then nZ 0 else nZ 1) (m_cols guesses)) (seq 0 r))).
  (** 418-431. Comparing an array with a string gives False, and [mask[False] = 0.0] changes nothing. *)
  Definition mask_where (guesses : mat T) (flags : list bool) : result (mat T) :=
    if Nat.eqb (length flags) (length (m_rows guesses))
    then Ok (mkM (m_cols guesses) (map (fun b : bool => repeat (if b then nZ 0 else nZ 1) (m_cols guesses)) flags))
    else Err IndexError.
  Definition ones (guesses : mat T) : mat T := mkM (m_cols guesses) (map (fun _ => repeat (nZ 1) (m_cols guesses)) (m_rows guesses)).
  Fixpoint argmax_from (l : list T) (i best : nat) (m : T) : nat :=
    match l with
    | [] => best
    | x :: l' => if m <? x then argmax_from l' (S i) i x else argmax_from l' (S i) best m
    end.
  Definition argmax (l : list T) : nat := match l with [] => 0%nat | x :: l' => argmax_from l' 1 0 x end.
  Definition make_mask_by_value (truths : list Z + mat T) (guesses : mat T) (m : missing_t) : result (mat T) :=
    match m with
    | NoMissing => Ok (ones guesses)
    | _ =>
        match truths with
        | inl l => match m with MissingInt z => mask_where guesses (map (fun y => (y =? z)%Z) l) | _ => Ok (ones guesses) end
        | inr a =>
            if Nat.eqb (m_cols a) 0 then Err ValueError else
            match m with
            | MissingInt z => mask_where guesses (map (fun r => (Z.of_nat (argmax r) =? z)%Z) (m_rows a))
            | _ => Ok (ones guesses)
            end
        end
    end.

  (** 73-136 *)
  Definition negatives_row (width : nat) (m : mark) : list T :=
    map (fun j => match m with Negative k => if Nat.eqb j k then nZ (-1) else nZ 0 | _ => nZ 1 end) (seq 0 width).
  Definition convert_truths (c : cc_t) (truths : truths_t) (guesses : mat T) : result (mat T * mat T) :=
    (* 80-114: the labels or values, the marks of the rows, the mask *)
    let* p := match truths with
              | ListInts l =>
                  let* mask := make_mask guesses (positions (map (is_missing_int (missing_value c)) l)) in
                  Ok (inl l, map (fun _ => Plain) l, mask)
              | ListStrs [] => let* mask := make_mask guesses [] in Ok (inl [], [], mask)
              | ListStrs l =>
                  match names c with
                  | None => Err ValueError
                  | Some ns =>
                      let* vs := mapM (read_str c ns) l in
                      let* ids := mapM (fun v => lookup ns (fst v)) vs in
                      let* mask := make_mask guesses (positions (map (fun v => match snd v with Missing => true | _ => false end) vs)) in
                      Ok (inl ids, map snd vs, mask)
                  end
              | ArrInts l => let* mask := make_mask_by_value (inl l) guesses (missing_value c) in Ok (inl l, map (fun _ => Plain) l, mask)
              | ArrFloats a => let* mask := make_mask_by_value (inr a) guesses (missing_value c) in Ok (inr a, map (fun _ => Plain) (m_rows a), mask)
              end in
    let '(labels, marks, mask) := p in
    (* 115-128 *)
    let* target := match labels with
                   | inl l => to_categorical l (Some (Z.of_nat (m_cols guesses))) (label_smoothing c)
                   | inr a => if label_smoothing c =? nZ 0 then Ok a else Err ValueError
                   end in
    (* 78, 131-135 *)
    match names c with
    | Some ((_ :: _) as ns) =>
        let neg := mkM (length ns) (map (negatives_row (length ns)) marks) in
        let* target := miop nmul target neg in
        let target := mmap (fun x => if x =? nZ (-1) then nZ 0 else x) target in
        let neg := mmap (fun x => if x =? nZ (-1) then nZ 1 else x) neg in
        let* mask := miop nmul mask neg in
        Ok (target, mask)
    | _ => Ok (target, mask)
    end.

  (** 144-160 *)
  Definition outside (m : mat T) : bool := existsb (fun x => ((nZ 1 <? x) || (x <? nZ 0))%bool) (concat (m_rows m)).
  Definition get_grad (c : cc_t) (guesses : mat T) (truths : truths_t) : result (mat T) :=
    let* tm := convert_truths c truths guesses in
    let '(target, mask) := tm in
    if negb (mshape_eq guesses target) then Err ValueError
    else if outside guesses then Err ValueError
    else if outside target then Err ValueError
    else
      let* difference := mbin nsub guesses target in
      let* difference := miop nmul difference mask in
      Ok (if normalize c then mmap (fun x => x / nnat (length (m_rows guesses))) difference else difference).
  (** 162-168 *)
  Definition sum_squares (d : mat T) : T := nsum (map (fun x => x * x) (concat (m_rows d))).
  Definition get_loss (c : cc_t) (guesses : mat T) (truths : truths_t) : result T :=
    let* d_truth := get_grad c guesses truths in Ok (sum_squares d_truth).

  (** ** SequenceCategoricalCrossentropy: 217-267 *)

  Definition seq_cc (c : cc_t) : cc_t :=
    {| normalize := false; names := names c; missing_value := missing_value c; neg_prefix := neg_prefix c; label_smoothing := label_smoothing c |}.
  Definition seq_get_grad (c : cc_t) (guesses : list (mat T)) (truths : list truths_t) : result (list (mat T)) :=
    if Nat.eqb (length guesses) (length truths)
    then mapM (fun p => let* d_yh := get_grad (seq_cc c) (fst p) (snd p) in
                        Ok (if normalize c then mmap (fun x => x / nnat (length guesses)) d_yh else d_yh)) (combine guesses truths)
    else Err ValueError.
  Definition seq_get_loss (c : cc_t) (guesses : list (mat T)) (truths : list truths_t) : result T :=
    let* grads := seq_get_grad c guesses truths in
    Ok (fold_left (fun loss grad => loss + sum_squares grad) grads (nZ 0)).

  (** ** L2Distance: 314-329 *)
  Definition l2_get_grad (norm : bool) (guesses truths : mat T) : result (mat T) :=
    if negb (mshape_eq guesses truths) then Err ValueError
    else let* difference := mbin nsub guesses truths in
         Ok (if norm then mmap (fun x => x / nnat (length (m_rows guesses))) difference else difference).
  Definition l2_get_loss (norm : bool) (guesses truths : mat T) : result T :=
    if negb (mshape_eq guesses truths) then Err ValueError
    else let* d_truth := l2_get_grad norm guesses truths in Ok (sum_squares d_truth).

  (** ** CosineDistance: 345-401, row by row *)
  Definition tiny : T := nZ 1 / nZ 100000000.
  Definition norm (v : list T) : T := nsqrt (nsum (map (fun x => x * x) v)).
  Definition nabs (x : T) : T := if x <? nZ 0 then - x else x.
  Definition zero_row (t : list T) : bool := nsum (map nabs t) =? nZ 0.
  Definition add_tiny (v : list T) : list T := map (fun x => x + tiny) v.
  (** 352-357 *)
  Definition cosine (g t : list T) : T :=
    let yh := add_tiny g in let y := add_tiny t in
    nsum (vmap2 nmul yh y) / (norm yh * norm y).
  (** 371-384 *)
  Definition cosine_row (normalize ignore_zeros : bool) (n : nat) (g t : list T) : list T :=
    let yh := add_tiny g in let y := add_tiny t in
    let norm_yh := norm yh in
    let mul_norms := norm_yh * norm y in
    let c := nsum (vmap2 nmul yh y) / mul_norms in
    let d_yh := vmap2 nsub (map (fun b => b / mul_norms) y) (map (fun a => c * (a / (norm_yh * norm_yh))) yh) in
    let d_yh := if (ignore_zeros && zero_row t)%bool then map (fun _ => nZ 0) d_yh else d_yh in
    let d_yh := if normalize then map (fun x => x / nnat n) d_yh else d_yh in
    map nopp d_yh.
  Definition cosine_get_grad (normalize ignore_zeros : bool) (guesses truths : mat T) : result (mat T) :=
    if negb (mshape_eq guesses truths) then Err ValueError
    else Ok (mkM (m_cols guesses) (map (fun p => cosine_row normalize ignore_zeros (length (m_rows guesses)) (fst p) (snd p))
                                       (combine (m_rows guesses) (m_rows truths)))).
  (** 386-401 *)
  Definition cosine_get_loss (normalize ignore_zeros : bool) (guesses truths : mat T) : result T :=
    if negb (mshape_eq guesses truths) then Err ValueError
    else
      let losses := map (fun p => if (ignore_zeros && zero_row (snd p))%bool then nZ 0 else nabs (cosine (fst p) (snd p) - nZ 1))
                        (combine (m_rows guesses) (m_rows truths)) in
      let losses := if normalize then map (fun x => x / nnat (length (m_rows guesses))) losses else losses in
      Ok (nsum losses).
End Loss.
Arguments cc_t : clear implicits.
Arguments truths_t : clear implicits.
