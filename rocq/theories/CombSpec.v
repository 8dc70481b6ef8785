(** Vocabulary of the theorems about combinators: shapes, curves through values and what it means that a
    layer's callback is the adjoint of the derivative of its forward pass. *)
From Verif Require Export CombModel MatSpec.

Local Open Scope R_scope.

(** The same value with every scalar replaced. *)
Fixpoint vmap {A B} (f : A -> B) (v : value A) : value B :=
  match v with
  | Sc x => Sc (f x)
  | Arr1 u => Arr1 (map f u)
  | Arr2 m => Arr2 (mkM (m_cols m) (map (map f) (m_rows m)))
  | Rag m w lens => Rag (mkM (m_cols m) (map (map f) (m_rows m))) w lens
  | Pad w d s l i => Pad w (map (map (map f)) d) s l i
  | PyList l => PyList (map (vmap f) l)
  | PyTup l => PyTup (map (vmap f) l)
  end.
(** All scalars of a value, in order. *)
Fixpoint leaves {A} (v : value A) : list A :=
  match v with
  | Sc x => [x]
  | Arr1 u => u
  | Arr2 m => concat (m_rows m)
  | Rag m _ _ => concat (m_rows m)
  | Pad _ d _ _ _ => concat (map (@concat A) d)
  | PyList l | PyTup l => concat (map leaves l)
  end.
(** Two values of the same structure and shape. *)
Definition like {A B} (v : value A) (w : value B) : Prop := vmap (fun _ => tt) v = vmap (fun _ => tt) w.
(** The arrays in a value are rectangular, and a Ragged is as its constructor leaves it. *)
Fixpoint wfv {A} (v : value A) : Prop :=
  match v with
  | Sc _ | Arr1 _ => True
  | Arr2 m => wf_mat m
  | Rag m w _ => wf_mat m /\ (if Nat.eqb (length (m_rows m) * m_cols m) 0 then m = mkM 0 [] else w = m_cols m)
  | Pad w d _ _ _ => Forall (Forall (fun r => length r = w)) d
  | PyList l | PyTup l => fold_right and True (map wfv l)
  end.
Definition inner (v w : value R) : R := dot (leaves v) (leaves w).

(** A scalar that moves along a curve, with its velocity at time 0. *)
Definition jet : Type := (R -> R) * R.
Definition at_time (s : R) (j : jet) : R := fst j s.
Definition velocity (j : jet) : R := snd j.
Definition smooth (j : jet) : Prop := derivable_pt_lim (fst j) 0 (snd j).

(** [differentiates L tr theta X Y]: the layer maps X to Y, and for every gradient dY of the output its callback
    returns the gradient dX of the input and adds to the accumulated gradients g, such that along every curve of
    inputs and parameters through X and theta, the outputs form a curve, and its velocity weighted with dY is the
    velocity of the input weighted with dX plus that of the parameters weighted with what was added. *)
Definition differentiates (L : layer R) (tr : bool) (theta : list R) (X Y : value R) : Prop :=
  exists b, L tr theta X = Ok (Y, b) /\ wfv Y /\
  forall dY g, like dY Y -> length g = length theta ->
  exists dX g', b dY g = Ok (dX, g') /\ like dX X /\ length g' = length theta /\
  forall (P : list jet) (K : value jet),
    map (at_time 0) P = theta -> vmap (at_time 0) K = X -> Forall smooth P -> Forall smooth (leaves K) ->
  exists K' : value jet, Forall smooth (leaves K') /\
    (forall s, exists b', L tr (map (at_time s) P) (vmap (at_time s) K) = Ok (vmap (at_time s) K', b')) /\
    inner dY (vmap velocity K')
    = inner dX (vmap velocity K) + (dot g' (map velocity P) - dot g (map velocity P)).

(** Values that numpy adds elementwise. *)
Definition is_array {A} (v : value A) : Prop := match v with Arr1 _ | Arr2 _ => True | _ => False end.
Definition is_mat {A} (v : value A) : Prop := match v with Arr2 _ => True | _ => False end.
Definition rows_in {A} (v : value A) : nat := match v with Arr2 m => length (m_rows m) | _ => 0%nat end.
(** Values with a [data] array, or arrays. *)
Definition has_data {A} (v : value A) : Prop := match v with Arr1 _ | Arr2 _ | Rag _ _ _ | Pad _ _ _ _ _ => True | _ => False end.
(** Values [residual] can add: arrays, Padded, Ragged that are not empty, and lists of arrays. *)
Definition can_residual {A} (v : value A) : Prop :=
  match v with
  | Arr1 _ | Arr2 _ | Pad _ _ _ _ _ => True
  | Rag m _ _ => (length (m_rows m) * m_cols m)%nat <> 0%nat
  | PyList l => Forall is_array l
  | _ => False
  end.

(** The output of a layer. *)
Definition gives (L : layer R) (tr : bool) (theta : list R) (X Y : value R) : Prop := exists b, L tr theta X = Ok (Y, b).

(** Layers applied one after the other. *)
Inductive chained (good : layer R -> value R -> value R -> Prop) : list (layer R) -> value R -> value R -> Prop :=
| chained_one l X Y : good l X Y -> chained good [l] X Y
| chained_more l ls X Y Z : good l X Y -> chained good ls Y Z -> chained good (l :: ls) X Z.

(** Every layer that can be built from sound children with the combinators, however nested, with the input it is
    given and the output it has. *)
Inductive built (tr : bool) (theta : list R) : layer R -> value R -> value R -> Prop :=
| b_child l X Y : differentiates l tr theta X Y -> built tr theta l X Y
| b_noop X : wfv X -> built tr theta noop X X
| b_chain ls X Y : built_chain tr theta ls X Y -> built tr theta (chain ls) X Y
| b_add l ls X Y Ys Z : is_array X -> is_array Y -> built tr theta l X Y -> built_all tr theta ls X Ys ->
    Forall (fun Y' => like Y' Y) Ys -> gives (add (l :: ls)) tr theta X Z -> built tr theta (add (l :: ls)) X Z
| b_concat ls X Ys n Z : has_data X -> ls <> [] -> built_all tr theta ls X Ys -> Forall is_mat Ys ->
    Forall (fun Y => rows_in Y = n) Ys -> gives (concatenation ls) tr theta X Z -> built tr theta (concatenation ls) X Z
| b_residual l X Y Z : can_residual X -> wfv X -> like Y X -> built tr theta l X Y ->
    gives (residual l) tr theta X Z -> built tr theta (residual l) X Z
| b_tuplify ls X Ys : is_array X -> ls <> [] -> built_all tr theta ls X Ys -> built tr theta (tuplify ls) X (PyTup Ys)
| b_siamese l sim X1 X2 Y1 Y2 Z : built tr theta l X1 Y1 -> built tr theta l X2 Y2 ->
    built tr theta sim (PyTup [Y1; Y2]) Z -> built tr theta (siamese l sim) (PyTup [X1; X2]) Z
| b_map l Xs Ys : built_map tr theta l Xs Ys -> built tr theta (map_list l) (PyList Xs) (PyList Ys)
| b_clone l copies n c X Y : clone l copies n = Ok c -> (n <> 0)%Z ->
    built_chain tr theta (l :: map copies (seq 0 (Z.to_nat (n - 1)))) X Y -> built tr theta c X Y
| b_debug l f b X Y : (forall X' tr', f X' tr' = Ok tt) -> (forall d, b d = Ok tt) -> built tr theta l X Y ->
    built tr theta (with_debug l f b) X Y
| b_resizable l X Y : built tr theta l X Y -> built tr theta (resizable l) X Y
with built_chain (tr : bool) (theta : list R) : list (layer R) -> value R -> value R -> Prop :=
| bc_one l X Y : built tr theta l X Y -> built_chain tr theta [l] X Y
| bc_more l ls X Y Z : built tr theta l X Y -> built_chain tr theta ls Y Z -> built_chain tr theta (l :: ls) X Z
with built_all (tr : bool) (theta : list R) : list (layer R) -> value R -> list (value R) -> Prop :=
| ba_nil X : built_all tr theta [] X []
| ba_cons l ls X Y Ys : built tr theta l X Y -> built_all tr theta ls X Ys -> built_all tr theta (l :: ls) X (Y :: Ys)
with built_map (tr : bool) (theta : list R) : layer R -> list (value R) -> list (value R) -> Prop :=
| bm_nil l : built_map tr theta l [] []
| bm_cons l X Xs Y Ys : built tr theta l X Y -> built_map tr theta l Xs Ys -> built_map tr theta l (X :: Xs) (Y :: Ys).

(** A layer for examples: multiplies a 2d array by the i-th parameter. *)
Definition scale {T} `{Num T} (i : nat) : layer T := fun _ theta X =>
  match nth_error theta i, X with
  | Some a, Arr2 m =>
    Ok (Arr2 (mkM (m_cols m) (map (map (nmul a)) (m_rows m))), fun dY g =>
      match dY with
      | Arr2 d => Ok (Arr2 (mkM (m_cols d) (map (map (nmul a)) (m_rows d))),
                      set_nth i (nadd (nth i g (nZ 0)) (nsum (vmap2 nmul (concat (m_rows d)) (concat (m_rows m))))) g)
      | _ => Err TypeError
      end)
  | _, _ => Err TypeError
  end.
