(** Layers that combine other layers: thinc/layers/chain.py, add.py, concatenate.py, residual.py, tuplify.py,
    siamese.py, map_list.py, clone.py, noop.py, with_debug.py and the [forward] of resizable.py.
    No proofs here. Only the forward passes and their callbacks are modelled; the [init] functions are not.

    Arrays are values here: two children never share an array. What happens when they do is the subject
    of AliasModel.v. *)
From Verif Require Export MatModel.

(** ** Values *)

(** The values layers exchange: Python scalars, 1d and 2d arrays, Ragged (data, width of [data_shape],
    lengths), Padded (width, data, size_at_t, lengths, indices), lists and tuples. *)
Inductive value (A : Type) : Type :=
| Sc (x : A)
| Arr1 (v : list A)
| Arr2 (m : mat A)
| Rag (m : mat A) (w : nat) (lens : list Z)
| Pad (w : nat) (d : list (list (list A))) (sizes lens idx : list nat)
| PyList (l : list (value A))
| PyTup (l : list (value A)).
Arguments Sc {A}. Arguments Arr1 {A}. Arguments Arr2 {A}. Arguments Rag {A}. Arguments Pad {A}.
Arguments PyList {A}. Arguments PyTup {A}.

Section Comb.
  Context {T : Type} `{Num T}.

  (** What a layer returns besides its output: from the gradient of the output and the gradients of all
      parameters accumulated so far, the gradient of the input and the new accumulated gradients. *)
  Definition callback : Type := value T -> list T -> result (value T * list T).
  (** A layer is called with [is_train] and an input. [theta] are the values of all parameters of the whole
      model in one vector, so that layers may share parameters; the accumulated gradients are in the same order. *)
  Definition layer : Type := bool -> list T -> value T -> result (value T * callback).

  (** ** Addition of arrays (numpy) *)

  Definition row_add (a b : list T) : list T := vmap2 nadd a b.
  Definition mshape_eq (a b : mat T) : bool :=
    Nat.eqb (length (m_rows a)) (length (m_rows b)) && Nat.eqb (m_cols a) (m_cols b).
  (** numpy broadcasting of one dimension *)
  Definition bdim (a b : nat) : option nat :=
    if Nat.eqb a b then Some a else if Nat.eqb a 1 then Some b else if Nat.eqb b 1 then Some a else None.
  Definition bget (m : mat T) (i j : nat) : T :=
    nth (if Nat.eqb (m_cols m) 1 then 0%nat else j)
        (nth (if Nat.eqb (length (m_rows m)) 1 then 0%nat else i) (m_rows m) []) (nZ 0).
  (** [a + b] for 2d arrays *)
  Definition madd (a b : mat T) : result (mat T) :=
    if mshape_eq a b
    then Ok (mkM (m_cols a) (map (fun p => row_add (fst p) (snd p)) (combine (m_rows a) (m_rows b))))
    else match bdim (length (m_rows a)) (length (m_rows b)), bdim (m_cols a) (m_cols b) with
         | Some r, Some c => Ok (mkM c (map (fun i => map (fun j => nadd (bget a i j) (bget b i j)) (seq 0 c)) (seq 0 r)))
         | _, _ => Err ValueError
         end.
  (** [a += b] for 2d arrays: the result must have the shape of a *)
  Definition miadd (a b : mat T) : result (mat T) :=
    let* r := madd a b in if mshape_eq r a then Ok r else Err ValueError.
  (** A 1d array as the only row of a 2d array, and back *)
  Definition as_row (v : list T) : mat T := mkM (length v) [v].
  Definition first_row (m : mat T) : list T := nth 0 (m_rows m) [].
  (** [a + b] and [a += b] for 3d arrays; broadcasting of 3d arrays is not modelled *)
  Definition shape3 (d : list (list (list T))) : list nat := map (@length _) d.
  Definition add3 (w : nat) (a : list (list (list T))) (w' : nat) (b : list (list (list T))) : result (list (list (list T))) :=
    if Nat.eqb w w' && (if list_eq_dec Nat.eq_dec (shape3 a) (shape3 b) then true else false)
    then Ok (map (fun p => map (fun q => row_add (fst q) (snd q)) (combine (fst p) (snd p))) (combine a b))
    else Err ValueError.

  (** [a += b] on any two values. Lists and tuples concatenate. Ragged and Padded define no addition. An array
      plus a list (which numpy would convert) and a list plus a Ragged are not modelled and count as errors. *)
  Definition iadd (a b : value T) : result (value T) :=
    match a, b with
    | Sc x, Sc y => Ok (Sc (nadd x y))
    | Arr1 u, Arr1 v => let* m := miadd (as_row u) (as_row v) in Ok (Arr1 (first_row m))
    | Arr2 m, Arr2 n => let* r := miadd m n in Ok (Arr2 r)
    | Arr2 m, Arr1 v => let* r := miadd m (as_row v) in Ok (Arr2 r)
    | Arr1 _, Arr2 _ => Err ValueError
    | PyList l, PyList l' | PyList l, PyTup l' => Ok (PyList (l ++ l'))
    | PyList l, Arr2 m => Ok (PyList (l ++ map Arr1 (m_rows m)))
    | PyList l, Arr1 v => Ok (PyList (l ++ map Sc v))
    | PyTup l, PyTup l' => Ok (PyTup (l ++ l'))
    | _, _ => Err TypeError
    end.
  (** [a + b]: like [a += b], but arrays may broadcast the left operand, and a list only takes a list *)
  Definition vadd (a b : value T) : result (value T) :=
    match a, b with
    | Arr1 u, Arr1 v => let* m := madd (as_row u) (as_row v) in Ok (Arr1 (first_row m))
    | Arr2 m, Arr2 n => let* r := madd m n in Ok (Arr2 r)
    | Arr2 m, Arr1 v => let* r := madd m (as_row v) in Ok (Arr2 r)
    | Arr1 u, Arr2 n => let* r := madd (as_row u) n in Ok (Arr2 r)
    | PyList _, PyTup _ | PyList _, Arr1 _ | PyList _, Arr2 _ => Err TypeError
    | _, _ => iadd a b
    end.

  (** types.py 1180-1187 [Ragged.__init__] on a 2d array *)
  Definition mk_rag (m : mat T) (lens : list Z) : value T :=
    if Nat.eqb (length (m_rows m) * m_cols m) 0 then Rag (mkM 0 []) (m_cols m) lens else Rag m (m_cols m) lens.

  (** ** noop.py 15-21 *)
  Definition noop : layer := fun _ _ X => Ok (X, fun dY g => Ok (dY, g)).

  (** ** chain.py *)

  (** 53-56: the last output and the callbacks in order *)
  Fixpoint chain_loop (ls : list layer) (tr : bool) (theta : list T) (X : value T) : result (value T * list callback) :=
    match ls with
    | [] => Ok (X, [])
    | l :: r => let* yb := l tr theta X in
                let* rest := chain_loop r tr theta (fst yb) in
                Ok (fst rest, snd yb :: snd rest)
    end.
  (** 59-61 *)
  Fixpoint chain_back (cbs : list callback) (dY : value T) (g : list T) : result (value T * list T) :=
    match cbs with
    | [] => Ok (dY, g)
    | c :: r => let* p := c dY g in chain_back r (fst p) (snd p)
    end.
  (** 48-64. Without layers, [Y] is unbound. *)
  Definition chain (ls : list layer) : layer := fun tr theta X =>
    match ls with
    | [] => Err NameError
    | _ => let* r := chain_loop ls tr theta X in
           Ok (fst r, fun dY g => chain_back (rev (snd r)) dY g)
    end.

  (** ** add.py *)

  (** 37-40 *)
  Fixpoint add_loop (ls : list layer) (tr : bool) (theta : list T) (X Y : value T) : result (value T * list callback) :=
    match ls with
    | [] => Ok (Y, [])
    | l :: r => let* yb := l tr theta X in
                let* Y' := iadd Y (fst yb) in
                let* rest := add_loop r tr theta X Y' in
                Ok (fst rest, snd yb :: snd rest)
    end.
  (** 44-46 *)
  Fixpoint add_back (cbs : list callback) (dY : value T) (dX : value T) (g : list T) : result (value T * list T) :=
    match cbs with
    | [] => Ok (dX, g)
    | c :: r => let* p := c dY g in
                let* dX' := iadd dX (fst p) in
                add_back r dY dX' (snd p)
    end.
  (** 32-48 *)
  Definition add (ls : list layer) : layer := fun tr theta X =>
    match ls with
    | [] => Ok (X, fun dY g => Ok (dY, g))
    | l :: r => let* yb := l tr theta X in
                let* rest := add_loop r tr theta X (fst yb) in
                Ok (fst rest, fun dY g => let* p := snd yb dY g in add_back (snd rest) dY (fst p) (snd p))
    end.

  (** ** concatenate.py *)

  (** [hstack] of 2d arrays *)
  Definition hstack (ms : list (mat T)) : result (mat T) :=
    match ms with
    | [] => Err ValueError
    | m :: _ =>
      if forallb (fun n => Nat.eqb (length (m_rows n)) (length (m_rows m))) ms
      then Ok (mkM (list_sum (map m_cols ms)) (map (fun i => concat (map (fun n => nth i (m_rows n) []) ms)) (seq 0 (length (m_rows m)))))
      else Err ValueError
    end.
  (** [concatenate(ms, axis=0)] *)
  Definition vstack (ms : list (mat T)) : result (mat T) :=
    match ms with
    | [] => Err ValueError
    | m :: _ => if forallb (fun n => Nat.eqb (m_cols n) (m_cols m)) ms
                then Ok (mkM (m_cols m) (concat (map m_rows ms))) else Err ValueError
    end.
  (** [m[:, a:a+w]] *)
  Definition cols_of (m : mat T) (a w : nat) : mat T :=
    mkM (Nat.min w (m_cols m - a)) (map (fun r => firstn w (skipn a r)) (m_rows m)).
  (** An operand of the wrong type: Python raises at the first missing attribute or operation. *)
  Definition as_mat (v : value T) : result (mat T) := match v with Arr2 m => Ok m | _ => Err TypeError end.
  Definition as_seq (v : value T) : result (list (value T)) :=
    match v with PyList l | PyTup l => Ok l | _ => Err TypeError end.
  (** 86-89: [dX += gradient], or [dX.data += gradient.data] for an object that has no addition *)
  Definition acc_grad (dX gradient : value T) : result (value T) :=
    match dX, gradient with
    | Rag m w lens, Rag n _ _ => let* r := miadd m n in Ok (Rag r w lens)
    | Pad w d s l i, Pad w' d' _ _ _ => let* r := add3 w d w' d' in Ok (Pad w r s l i)
    | _, _ => iadd dX gradient
    end.
  (** 83-90 *)
  Fixpoint concat_back (cbs : list callback) (widths : list nat) (start : nat) (D : mat T) (dX : value T) (g : list T)
    : result (value T * list T) :=
    match cbs, widths with
    | c :: r, w :: ws =>
      let* p := c (Arr2 (cols_of D start w)) g in
      let* dX' := acc_grad dX (fst p) in
      concat_back r ws (start + w) D dX' (snd p)
    | _, _ => Ok (dX, g)
    end.
  (** 69-93 *)
  Definition array_forward (Ys : list (value T)) (cbs : list callback) : result (value T * callback) :=
    let* ms := mapM as_mat Ys in
    let widths := map m_cols ms in
    let* out := hstack ms in
    Ok (Arr2 out, fun d_output g =>
      let* D := as_mat d_output in
      match cbs, widths with
      | c :: r, w :: ws => let* p := c (Arr2 (cols_of D 0 w)) g in concat_back r ws w D (fst p) (snd p)
      | _, _ => Err IndexError
      end).
  Definition as_rag (v : value T) : result (mat T * nat * list Z) := match v with Rag m w l => Ok (m, w, l) | _ => Err TypeError end.
  (** 108-113 *)
  Fixpoint rag_back (cbs : list callback) (widths : list nat) (start : nat) (D : mat T) (lens : list Z) (dX : value T) (g : list T)
    : result (value T * list T) :=
    match cbs, widths with
    | c :: r, w :: ws =>
      let* p := c (mk_rag (cols_of D start w) lens) g in
      let* dX' := iadd dX (fst p) in
      rag_back r ws (start + w) D lens dX' (snd p)
    | _, _ => Ok (dX, g)
    end.
  (** 96-116 *)
  Definition ragged_forward (Ys : list (value T)) (cbs : list callback) : result (value T * callback) :=
    let* rs := mapM as_rag Ys in
    let widths := map (fun r => snd (fst r)) rs in
    let* out := hstack (map (fun r => fst (fst r)) rs) in
    Ok (mk_rag out (match rs with r :: _ => snd r | [] => [] end), fun d_output g =>
      let* D := as_rag d_output in
      match cbs, widths with
      | c :: r, w :: ws => let* p := c (mk_rag (cols_of (fst (fst D)) 0 w) (snd D)) g in
                           rag_back r ws w (fst (fst D)) (snd D) (fst p) (snd p)
      | _, _ => Err IndexError
      end).
  (** [ops.unflatten] of a 2d array without padding *)
  Definition unflatten2 (m : mat T) (lens : list nat) : value T :=
    PyList (map (fun a => Arr2 (mkM (m_cols m) (a_rows a))) (unflatten (mkA [m_cols m] (m_rows m)) lens 0)).
  (** [len(x)] *)
  Definition vlen (v : value T) : result nat :=
    match v with
    | Sc _ => Err TypeError | Arr1 u => Ok (length u) | Arr2 m => Ok (length (m_rows m))
    | Rag _ _ l => Ok (length l) | Pad _ _ _ l _ => Ok (length l) | PyList l | PyTup l => Ok (length l)
    end.
  (** 129-133 *)
  Fixpoint list_back (cbs : list callback) (widths : list nat) (start : nat) (D : mat T) (lens : list nat) (dX : value T) (g : list T)
    : result (value T * list T) :=
    match cbs, widths with
    | c :: r, w :: ws =>
      let* p := c (unflatten2 (cols_of D start w) lens) g in
      let* dX' := iadd dX (fst p) in
      list_back r ws (start + w) D lens dX' (snd p)
    | _, _ => Ok (dX, g)
    end.
  (** 119-140 *)
  Definition list_forward (X : value T) (Ys : list (value T)) (cbs : list callback) : result (value T * callback) :=
    let* Xs := as_seq X in
    let* lens := mapM vlen Xs in
    let* ms := mapM (fun Y => let* l := as_seq Y in let* l' := mapM as_mat l in vstack l') Ys in
    let widths := map m_cols ms in
    let* out := hstack ms in
    Ok (unflatten2 out lens, fun d_output g =>
      let* dl := as_seq d_output in
      let* dm := mapM as_mat dl in
      let* D := vstack dm in
      match cbs, widths with
      | c :: r, w :: ws => let* p := c (unflatten2 (cols_of D 0 w) lens) g in
                           list_back r ws w D lens (fst p) (snd p)
      | _, _ => Err IndexError
      end).
  (** 57: every layer on the same input *)
  Definition call_all (ls : list layer) (tr : bool) (theta : list T) (X : value T) : result (list (value T * callback)) :=
    mapM (fun l : layer => l tr theta X) ls.
  (** 56-66. Without layers, unpacking the empty zip raises. *)
  Definition concatenation (ls : list layer) : layer := fun tr theta X =>
    let* ybs := call_all ls tr theta X in
    let Ys := map fst ybs in
    let cbs := map snd ybs in
    match Ys with
    | [] => Err ValueError
    | PyList _ :: _ => list_forward X Ys cbs
    | Rag _ _ _ :: _ => ragged_forward Ys cbs
    | _ => array_forward Ys cbs
    end.

  (** ** residual.py *)

  (** 32 and 43: [[a[i] + b[i] for i in range(len(a))]] *)
  Fixpoint add_items (a b : list (value T)) : result (list (value T)) :=
    match a with
    | [] => Ok []
    | x :: r => match b with
                | [] => Err IndexError
                | y :: s => let* z := vadd x y in let* rest := add_items r s in Ok (z :: rest)
                end
    end.
  (** 28-50 *)
  Definition residual (l : layer) : layer := fun tr theta X =>
    let* yb := l tr theta X in
    let back : callback := fun d_output g =>
      let* p := snd yb d_output g in
      let* dX := match d_output with
                 | PyList ds => let* xs := as_seq (fst p) in let* r := add_items ds xs in Ok (PyList r)
                 | Rag m w lens => let* x := as_rag (fst p) in
                                   let* r := madd m (fst (fst x)) in Ok (mk_rag r (snd x))
                 | _ => match X, fst p, d_output with
                        | Pad _ _ _ _ _, Pad w d s le i, Pad w' d' _ _ _ =>
                          let* r := add3 w d w' d' in Ok (Pad w r s le i)
                        | Pad _ _ _ _ _, _, _ => Err TypeError
                        | _, x, _ => vadd d_output x
                        end
                 end in
      Ok (dX, snd p) in
    let* Y := match X with
              | PyList xs => let* ys := as_seq (fst yb) in let* r := add_items xs ys in Ok (PyList r)
              | Rag m w lens => let* y := as_rag (fst yb) in
                                let* r := madd m (fst (fst y)) in Ok (mk_rag r lens)
              | Pad w d s le i => match fst yb with
                                  | Pad w' d' s' le' i' => let* r := add3 w' d' w d in Ok (Pad w' r s' le' i')
                                  | _ => Err TypeError
                                  end
              | _ => vadd X (fst yb)
              end in
    Ok (Y, back).

  (** ** tuplify.py *)

  (** 41: callbacks are called in order on the gradients, up to the shorter list *)
  Fixpoint call_back (cbs : list callback) (dYs : list (value T)) (g : list T) : result (list (value T) * list T) :=
    match cbs, dYs with
    | c :: r, dY :: s => let* p := c dY g in
                         let* rest := call_back r s (snd p) in
                         Ok (fst p :: fst rest, snd rest)
    | _, _ => Ok ([], g)
    end.
  (** 43-44 *)
  Fixpoint iadd_all (dX : value T) (dXs : list (value T)) : result (value T) :=
    match dXs with
    | [] => Ok dX
    | d :: r => let* dX' := iadd dX d in iadd_all dX' r
    end.
  (** 32-47 *)
  Definition tuplify (ls : list layer) : layer := fun tr theta X =>
    let* ybs := call_all ls tr theta X in
    Ok (PyTup (map fst ybs), fun dYs g =>
      let* ds := as_seq dYs in
      let* p := call_back (map snd ybs) ds g in
      match fst p with
      | [] => Err IndexError
      | dX :: r => let* d := iadd_all dX r in Ok (d, snd p)
      end).

  (** ** siamese.py 27-41 *)
  Definition as_pair (v : value T) : result (value T * value T) :=
    match v with PyTup [a; b] | PyList [a; b] => Ok (a, b) | PyTup _ | PyList _ => Err ValueError | _ => Err TypeError end.
  Definition siamese (l similarity : layer) : layer := fun tr theta X =>
    let* x := as_pair X in
    let* v1 := l tr theta (fst x) in
    let* v2 := l tr theta (snd x) in
    let* out := similarity tr theta (PyTup [fst v1; fst v2]) in
    Ok (fst out, fun d_output g =>
      let* p := snd out d_output g in
      let* d := as_pair (fst p) in
      let* p1 := snd v1 (fst d) (snd p) in
      let* p2 := snd v2 (snd d) (snd p1) in
      Ok (PyTup [fst p1; fst p2], snd p2)).

  (** ** map_list.py 14-28 *)
  Definition map_list (l : layer) : layer := fun tr theta X =>
    let* xs := as_seq X in
    let* ybs := mapM (fun x => l tr theta x) xs in
    Ok (PyList (map fst ybs), fun dYs g =>
      let* ds := as_seq dYs in
      let* p := call_back (map snd ybs) ds g in
      Ok (PyList (fst p), snd p)).

  (** ** clone.py 13-24. [copies i] is the i-th [orig.copy()]: the same function on parameters of its own.
      [chain] takes at least two layers, so a negative n raises. *)
  Definition clone (orig : layer) (copies : nat -> layer) (n : Z) : result layer :=
    if Z.eqb n 0 then Ok noop
    else if Z.eqb n 1 then Ok orig
    else if Z.ltb n 0 then Err TypeError
    else Ok (chain (orig :: map copies (seq 0 (Z.to_nat (n - 1))))).

  (** ** with_debug.py 28-36. The hooks only observe, or raise. *)
  Definition with_debug (l : layer) (on_forward : value T -> bool -> result unit) (on_backprop : value T -> result unit) : layer :=
    fun tr theta X =>
      let* _ := on_forward X tr in
      let* yb := l tr theta X in
      Ok (fst yb, fun dY g => let* _ := on_backprop dY in snd yb dY g).

  (** ** resizable.py 24-31 *)
  Definition resizable (l : layer) : layer := fun tr theta X =>
    let* yb := l tr theta X in Ok (fst yb, fun dY g => snd yb dY g).
End Comb.
Arguments layer : clear implicits. Arguments callback : clear implicits.
