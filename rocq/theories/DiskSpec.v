(** Vocabulary of the theorems about bytes and files. *)
From Coq Require Import String.
From Verif Require Export DiskModel SerialSpec GraphSpec ShapeModel.
Local Open Scope string_scope.

Section ValueInd.
  Variable P : pyval -> Prop.
  Hypothesis H0 : P VNone.
  Hypothesis H1 : forall b, P (VBool b).
  Hypothesis H2 : forall z, P (VInt z).
  Hypothesis H3 : forall z, P (VFloat z).
  Hypothesis H4 : forall s, P (VStr s).
  Hypothesis H5 : forall s, P (VBytes s).
  Hypothesis H6 : forall l, Forall P l -> P (VList l).
  Hypothesis H7 : forall l, Forall P l -> P (VTuple l).
  Hypothesis H8 : forall d, Forall (fun p => P (snd p)) d -> P (VDict d).
  Hypothesis H9 : forall k, P (VObj k).
  Fixpoint pyval_ind' (v : pyval) : P v :=
    let go := fix go l : Forall P l := match l with [] => Forall_nil _ | v :: l => Forall_cons _ (pyval_ind' v) (go l) end in
    match v with
    | VNone => H0 | VBool b => H1 b | VInt z => H2 z | VFloat z => H3 z | VStr s => H4 s | VBytes s => H5 s
    | VList l => H6 l (go l) | VTuple l => H7 l (go l)
    | VDict d => H8 d ((fix god d : Forall (fun p => P (snd p)) d :=
                          match d with [] => Forall_nil _ | p :: d => Forall_cons _ (pyval_ind' (snd p)) (god d) end) d)
    | VObj k => H9 k
    end.
End ValueInd.

(** Values that msgpack can write. *)
Inductive writable : pyval -> Prop :=
| w_none : writable VNone | w_bool b : writable (VBool b) | w_int z : writable (VInt z) | w_float z : writable (VFloat z)
| w_str s : writable (VStr s) | w_bytes s : writable (VBytes s)
| w_list l : (forall v, In v l -> writable v) -> writable (VList l)
| w_tuple l : (forall v, In v l -> writable v) -> writable (VTuple l)
| w_dict d : (forall k v, In (k, v) d -> writable v) -> writable (VDict d).
(** Values without tuples. *)
Inductive tuple_free : pyval -> Prop :=
| t_none : tuple_free VNone | t_bool b : tuple_free (VBool b) | t_int z : tuple_free (VInt z) | t_float z : tuple_free (VFloat z)
| t_str s : tuple_free (VStr s) | t_bytes s : tuple_free (VBytes s)
| t_list l : (forall v, In v l -> tuple_free v) -> tuple_free (VList l)
| t_dict d : (forall k v, In (k, v) d -> tuple_free v) -> tuple_free (VDict d)
| t_obj k : tuple_free (VObj k).
(** The index that numpy takes a value for: an integer, a tuple of integers for the first axes, or a list of positions. *)
Definition ints_of (l : list pyval) : option (list Z) :=
  fold_right (fun v r => match v, r with VInt z, Some r => Some (z :: r)%list | _, _ => None end) (Some []) l.
Definition index_of (v : pyval) : option index :=
  match v with
  | VInt z => Some (Basic [AInt z])
  | VTuple l => option_map (fun zs => Basic (map AInt zs)) (ints_of l)
  | VList l => option_map (fun zs => Fancy [] zs []) (ints_of l)
  | _ => None
  end.
