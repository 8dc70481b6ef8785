(** Vocabulary of the theorems about the shape adapters. *)
From Verif Require Export ShapeModel.

(** An array whose data has the size of its shape. *)
Definition nd_wf {T} (a : nd T) : Prop := length (nd_data a) = fold_right Nat.mul 1 (nd_shape a).
(** Multi-indices: one position for each axis, and the element there. *)
Definition inside (dims ks : list nat) : Prop := Forall2 (fun k d => k < d) ks dims.
Fixpoint offset (dims ks : list nat) : nat :=
  match dims, ks with
  | _ :: dims, k :: ks => k * fold_right Nat.mul 1 dims + offset dims ks
  | _, _ => 0
  end.
Definition entry {T} (z : T) (a : nd T) (ks : list nat) : T := nth (offset (nd_shape a) ks) (nd_data a) z.

(** Python positions: an integer names a position of an axis of length n, counting from the end if negative. *)
Definition names (n : nat) (i : Z) (k : nat) : Prop := k < n /\ (i = Z.of_nat k \/ i = (Z.of_nat k - Z.of_nat n)%Z).
(** The end of a slice: clamped into the axis *)
Definition bound (n : nat) (default : nat) (o : option Z) : Z :=
  match o with
  | None => Z.of_nat default
  | Some i => if (i <? 0)%Z then Z.max 0 (i + Z.of_nat n) else Z.min i (Z.of_nat n)
  end.
Inductive rising : list nat -> Prop :=
| rise_nil : rising []
| rise_cons k l : Forall (fun x => k < x) l -> rising l -> rising (k :: l).
(** The positions of a slice, in increasing order: start, start + step... below stop *)
Definition slices (n : nat) (s : pyslice) (ps : list nat) : Prop :=
  0 < sl_step s /\ rising ps /\ forall k, In k ps <-> (bound n 0 (sl_start s) <= Z.of_nat k < bound n n (sl_stop s))%Z /\ exists m, Z.of_nat k = (bound n 0 (sl_start s) + Z.of_nat (m * sl_step s))%Z.
(** One axis: whether it is kept, and the positions *)
Definition axis_is (n : nat) (a : basic) (p : bool * list nat) : Prop :=
  match a with AInt i => exists k, names n i k /\ p = (false, [k]) | ASlice s => exists ps, slices n s ps /\ p = (true, ps) end.
Inductive axes_are : list nat -> list basic -> list (bool * list nat) -> Prop :=
| axes_nil dims : axes_are dims [] []
| axes_cons n dims a l p sel : axis_is n a p -> axes_are dims l sel -> axes_are (n :: dims) (a :: l) (p :: sel).
Definition selects (dims : list nat) (ix : index) (sel : list (bool * list nat)) : Prop :=
  match ix with
  | Basic l => axes_are dims l sel
  | Fancy pre ids post => exists s1 ks s2 n, sel = s1 ++ (true, ks) :: s2 /\ axes_are (firstn (length pre) dims) (map ASlice pre) s1 /\ nth_error dims (length pre) = Some n /\
      Forall2 (names n) ids ks /\ axes_are (skipn (S (length pre)) dims) (map ASlice post) s2
  end.
(** The lengths of all axes of a selection (1 for an integer); the axes the result keeps; where the result comes from *)
Definition sel_dims (sel : list (bool * list nat)) (dims : list nat) : list nat := map (fun p => length (snd p)) sel ++ skipn (length sel) dims.
Definition keep_axes (sel : list (bool * list nat)) (l : list nat) : list nat :=
  map snd (filter (fun p => fst (fst p)) (combine sel l)) ++ skipn (length sel) l.
Definition source (sel : list (bool * list nat)) (ks : list nat) : list nat :=
  map (fun p => nth (snd p) (snd (fst p)) 0) (combine sel ks) ++ skipn (length sel) ks.
(** Every slice of an index has a positive step. *)
Definition steps_ok (ix : index) : Prop :=
  match ix with
  | Basic l => Forall (fun a => match a with AInt _ => True | ASlice s => 0 < sl_step s end) l
  | Fancy pre _ post => Forall (fun s => 0 < sl_step s) (pre ++ post)
  end.

(** The layer of the examples: rows [x; x + 1]; the gradient passes through. *)
Definition pairs : list nat -> result (nda nat * back unit (nda nat) (nda nat)) := fun xs => Ok (mkA [2] (map (fun x => [x; S x]) xs), fun d s => Ok (d, s)).
(** The first element of each row; the callback insists on two axes. *)
Definition heads : slayer unit (nd nat) (nd nat) := fun X =>
  match nd_shape X with
  | [n; w] => Ok (mkNd [n; 1] (map (fun i => nth (i * w) (nd_data X) 0) (seq 0 n)), fun d s => match nd_shape d with [_; _] => Ok (d, s) | _ => Err ValueError end)
  | _ => Err ValueError
  end.
