(** Layers that change the shape of what another layer gets: thinc/layers/with_getitem.py, with_flatten.py, with_flatten_v2.py,
    with_reshape.py, array_getitem.py (also floats_getitem and ints_getitem). No proofs here.
    A layer gives its output and its callback; the callback also changes a state (the accumulated gradients). [is_train] is only
    passed on and is left out. *)
From Verif Require Export NumModel SeqModel.

Definition back (G A B : Type) : Type := B -> G -> result (A * G).
Definition slayer (G A B : Type) : Type := A -> result (B * back G A B).

(** ** with_getitem.py 24-34: items are tuples *)
Definition with_getitem {G V} (idx : Z) (layer : slayer G V V) : slayer G (list V) (list V) := fun items =>
  let* x := py_getz items idx in
  let* (Y_i, backprop_item) := layer x in
  Ok (py_slice items 0 idx ++ [Y_i] ++ py_slice items (idx + 1) (Z.of_nat (length items)), fun d_output s =>
    let* d := py_getz d_output idx in
    let* (dY_i, s) := backprop_item d s in
    Ok (py_slice d_output 0 idx ++ [dY_i] ++ py_slice d_output (idx + 1) (Z.of_nat (length d_output)), s)).

(** ** with_flatten_v2.py 21-55: lists of lists *)
Definition v2_flatten {A} (nested : list (list A)) : list A * list nat := (concat nested, map (@length A) nested).
Fixpoint v2_unflatten {A} (flat : list A) (lens : list nat) : list (list A) :=
  match lens with
  | [] => []
  | l :: lens => firstn l flat :: v2_unflatten (skipn l flat) lens
  end.
Definition with_flatten_v2 {G A B} (layer : slayer G (list A) (list B)) : slayer G (list (list A)) (list (list B)) := fun Xnest =>
  let (Xflat, lens) := v2_flatten Xnest in
  let* (Yflat, backprop_layer) := layer Xflat in
  Ok (v2_unflatten Yflat lens, fun dYnest s =>
    let (dYflat, _) := v2_flatten dYnest in
    let* (dXflat, s) := backprop_layer dYflat s in
    Ok (v2_unflatten dXflat lens, s)).

(** ** with_flatten.py 19-44: the layer takes a list of items and gives an array *)
(** [xp.split(X, points, axis=-1)]: the columns, or the rows of a 1d array; arrays of more than two axes are not modelled *)
Fixpoint split_cols {T} (st : nat) (points : list nat) (n : nat) (rows : list (list T)) : list (nda T) :=
  match points with
  | [] => [mkA [n - st] (map (skipn st) rows)]
  | p :: points => mkA [Nat.min p n - Nat.min st n] (map (slice_rows st p) rows) :: split_cols p points n rows
  end.
Definition split_last {T} (points : list nat) (X : nda T) : list (nda T) :=
  match a_tail X with
  | [] => split_from 0 points X
  | n :: _ => split_cols 0 points n (a_rows X)
  end.
Definition with_flatten_v1 {G A T} (z : T) (layer : list A -> result (nda T * back G (nda T) (nda T))) (Xnest : list (list A)) : result (list (nda T) * back G (list (nda T)) (list (nda T))) :=
  let* (Yflat, backprop_layer) := layer (concat Xnest) in
  let splits := cumsum (map (@length A) (removelast Xnest)) in
  Ok (split_from 0 splits Yflat, fun dYnest s =>
    let* dYflat := flatten z dYnest 0 2 in
    let* (dXflat, s) := backprop_layer dYflat s in
    Ok (split_last splits dXflat, s)).

(** ** Arrays of any number of axes: the shape, and the elements in row-major order *)
Record nd (T : Type) := mkNd { nd_shape : list nat; nd_data : list T }.
Arguments mkNd {T}. Arguments nd_shape {T}. Arguments nd_data {T}.


(** [a.reshape(shape)]; [None] stands for -1 *)
Definition reshape {T} (a : nd T) (shape : list (option nat)) : result (nd T) :=
  let known := shape_size (map (fun d => match d with Some n => n | None => 1 end) shape) in
  match length (filter (fun d => match d with Some _ => false | None => true end) shape) with
  | 0 => if Nat.eqb (length (nd_data a)) known then Ok (mkNd (map (fun d => match d with Some n => n | None => 0 end) shape) (nd_data a)) else Err ValueError
  | 1 => if Nat.eqb known 0 then Err ValueError
         else if Nat.eqb (Nat.modulo (length (nd_data a)) known) 0
         then Ok (mkNd (map (fun d => match d with Some n => n | None => Nat.div (length (nd_data a)) known end) shape) (nd_data a))
         else Err ValueError
  | _ => Err ValueError
  end.

(** ** with_reshape.py 23-37. [nO] is what [layer.get_dim("nO")] gives. [reshape3] takes exactly three numbers. *)
Definition with_reshape {G T} (nO : result nat) (layer : slayer G (nd T) (nd T)) : slayer G (nd T) (nd T) := fun X =>
  let initial_shape := nd_shape X in
  let* n := nO in
  let final_shape := removelast initial_shape ++ [n] in
  let* nB := py_get initial_shape 0 in
  let* nT := py_get initial_shape 1 in
  let* nI := py_get initial_shape 2 in
  let* X2d := reshape X [None; Some nI] in
  let* (Y2d, Y2d_backprop) := layer X2d in
  let* Y := match final_shape with [a; b; c] => reshape Y2d [Some a; Some b; Some c] | _ => Err TypeError end in
  Ok (Y, fun dY s =>
    let* reshaped := reshape dY [Some (nB * nT); None] in
    let* d := match initial_shape with [a; b; c] => reshape reshaped [Some a; Some b; Some c] | _ => Err TypeError end in
    Y2d_backprop d s).

(** ** array_getitem.py 38-51 *)
(** Indices: integers and slices (with a positive step) for the first axes, or slices with one sequence of integers among them.
    Sequences together with integers, several sequences, negative steps, None and Ellipsis are not modelled. *)
Inductive basic := AInt (i : Z) | ASlice (s : pyslice).
Inductive index := Basic (l : list basic) | Fancy (pre : list pyslice) (ids : list Z) (post : list pyslice).
(** One axis: whether it is kept, and the positions taken from it *)
Definition axis (n : nat) (a : basic) : result (bool * list nat) :=
  match a with
  | AInt i => match norm_index n i with Some k => Ok (false, [k]) | None => Err IndexError end
  | ASlice s => if Nat.eqb (sl_step s) 0 then Err ValueError else Ok (true, slice_positions n s)
  end.
Definition axis_ids (n : nat) (ids : list Z) : result (bool * list nat) :=
  let* ks := mapM (fun i => match norm_index n i with Some k => Ok k | None => Err IndexError end) ids in Ok (true, ks).
(** All axes the index names; more than the array has raise IndexError *)
Fixpoint axes (dims : list nat) (l : list (nat -> result (bool * list nat))) {struct l} : result (list (bool * list nat)) :=
  match l, dims with
  | [], _ => Ok []
  | f :: l, n :: dims => let* a := f n in let* r := axes dims l in Ok (a :: r)
  | _, [] => Err IndexError
  end.
Definition index_axes (dims : list nat) (ix : index) : result (list (bool * list nat)) :=
  axes dims (match ix with
             | Basic l => map (fun a n => axis n a) l
             | Fancy pre ids post => map (fun s n => axis n (ASlice s)) pre ++ [fun n => axis_ids n ids] ++ map (fun s n => axis n (ASlice s)) post
             end).
(** The shape of the selection, and the positions of its elements in the data *)
Fixpoint sel_shape (sel : list (bool * list nat)) (dims : list nat) : list nat :=
  match sel, dims with
  | (keep, ps) :: sel, _ :: dims => if keep then length ps :: sel_shape sel dims else sel_shape sel dims
  | _, _ => dims
  end.
Fixpoint cells (sel : list (bool * list nat)) (dims : list nat) : list nat :=
  match sel, dims with
  | (_, ps) :: sel, _ :: dims => flat_map (fun p => map (fun q => p * shape_size dims + q) (cells sel dims)) ps
  | _, _ => seq 0 (shape_size dims)
  end.
(** Elements of [a] in the shape [dims] (broadcasting): axes of length 1 are repeated; the source has as many axes *)
Fixpoint expand {T} (src dims : list nat) (data : list T) : result (list T) :=
  match src, dims with
  | [], [] => Ok data
  | s :: src, d :: dims =>
      if Nat.eqb s d then let* l := mapM (fun i => expand src dims (slice_rows (i * shape_size src) (S i * shape_size src) data)) (seq 0 s) in Ok (concat l)
      else if Nat.eqb s 1 then let* l := expand src dims data in Ok (concat (repeat l d))
      else Err ValueError
  | _, _ => Err ValueError
  end.
(** For an assignment: leading axes of length 1 are added or dropped *)
Fixpoint drop_ones (n : nat) (src : list nat) : result (list nat) :=
  match n, src with
  | O, _ => Ok src
  | S n, 1 :: src => drop_ones n src
  | _, _ => Err ValueError
  end.
Definition broadcast_to {T} (dims : list nat) (a : nd T) : result (list T) :=
  let src := nd_shape a in
  let* src := drop_ones (length src - length dims) src in
  expand (repeat 1 (length dims - length src) ++ src) dims (nd_data a).
(** [dX[cells] = values], in order *)
Fixpoint write {T} (cs : list nat) (values : list T) (data : list T) : list T :=
  match cs, values with
  | c :: cs, v :: values => write cs values (set_nth c v data)
  | _, _ => data
  end.
Section GetItem.
  Context {G T : Type} (z : T).
  Definition array_getitem (ix : index) : slayer G (nd T) (nd T) := fun X =>
    let shape := nd_shape X in
    let backprop_get_column : back G (nd T) (nd T) := fun dY s =>
      let* sel := index_axes shape ix in
      let* v := broadcast_to (sel_shape sel shape) dY in
      Ok (mkNd shape (write (cells sel shape) v (repeat z (shape_size shape))), s) in
    match shape with
    | [] => Err TypeError
    | 0 :: _ => Ok (X, backprop_get_column)
    | _ => let* sel := index_axes shape ix in
           Ok (mkNd (sel_shape sel shape) (map (fun c => nth c (nd_data X) z) (cells sel shape)), backprop_get_column)
    end.
End GetItem.
