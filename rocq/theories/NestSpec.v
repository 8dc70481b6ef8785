(** What recursive conversion means, without the functions of the model. *)
From Coq Require Import String.
From Verif Require Export NestModel.

Section Spec.
  Context {A : Type}.
  Variable keq : obj A -> obj A -> bool.
  Variable hashable : obj A -> bool.
  Variable m : obj A -> bool.

  (** Keys that can make up a dict: hashable, and no two equal *)
  Definition keys_ok (ks : list (obj A)) : Prop := Forall (fun k => hashable k = true) ks /\ ForallOrdPairs (fun a b => keq a b = false) ks.
  Definition container (o : obj A) : bool := match o with OList _ | OTuple _ | ODict _ | OArgs _ _ => true | _ => false end.

  (** [filled o vs o']: [o'] is [o] with its matching values replaced, from left to right, by [vs]. Everything else is kept: list by
      list, tuple by tuple, entry by entry; keyword names are kept. The matching values of a dict are those of its first key, its first
      value, its second key... The dicts in [o'] have to be dicts: their keys distinct and hashable. *)
  Inductive filled : obj A -> list (obj A) -> obj A -> Prop :=
  | fill_match o v : m o = true -> filled o [v] v
  | fill_atom o : m o = false -> container o = false -> filled o [] o
  | fill_list l vs l' : m (OList l) = false -> filled_all l vs l' -> filled (OList l) vs (OList l')
  | fill_tuple l vs l' : m (OTuple l) = false -> filled_all l vs l' -> filled (OTuple l) vs (OTuple l')
  | fill_dict d vs d' : m (ODict d) = false -> filled_entries d vs d' -> keys_ok (map fst d') -> filled (ODict d) vs (ODict d')
  | fill_args args kwargs vs ws args' kwargs' : m (OArgs args kwargs) = false -> filled_all args vs args' -> filled_values kwargs ws kwargs' ->
      keys_ok (map fst kwargs) -> filled (OArgs args kwargs) (vs ++ ws) (OArgs args' kwargs')
  with filled_all : list (obj A) -> list (obj A) -> list (obj A) -> Prop :=
  | all_nil : filled_all [] [] []
  | all_cons o v o' l vs l' : filled o v o' -> filled_all l vs l' -> filled_all (o :: l) (v ++ vs) (o' :: l')
  with filled_entries : list (obj A * obj A) -> list (obj A) -> list (obj A * obj A) -> Prop :=
  | entries_nil : filled_entries [] [] []
  | entries_cons k v a b k' v' l vs l' : filled k a k' -> filled v b v' -> filled_entries l vs l' -> filled_entries ((k, v) :: l) (a ++ b ++ vs) ((k', v') :: l')
  with filled_values : list (obj A * obj A) -> list (obj A) -> list (obj A * obj A) -> Prop :=
  | values_nil : filled_values [] [] []
  | values_cons s v b v' l vs l' : filled v b v' -> filled_values l vs l' -> filled_values ((OStr s, v) :: l) (b ++ vs) ((OStr s, v') :: l').

  (** The predicates the code is used with (is_xp_array, is_torch_array...): they match arrays only, no containers, integers or strings *)
  Definition arrays_only : Prop := forall o, m o = true -> exists a, o = OOther a.

  (** Dict keys without anything to convert: atoms and tuples of them *)
  Inductive key_like : obj A -> Prop :=
  | key_atom o : container o = false -> m o = false -> key_like o
  | key_tuple l : Forall key_like l -> key_like (OTuple l).
  (** Values as Python has them, with nothing to convert inside dict keys *)
  Inductive proper : obj A -> Prop :=
  | proper_atom o : container o = false -> proper o
  | proper_list l : Forall proper l -> proper (OList l)
  | proper_tuple l : Forall proper l -> proper (OTuple l)
  | proper_dict d : Forall (fun p => key_like (fst p) /\ proper (snd p)) d -> keys_ok (map fst d) -> proper (ODict d)
  | proper_args args kwargs : Forall proper args -> Forall (fun p => (exists s, fst p = OStr s) /\ proper (snd p)) kwargs -> keys_ok (map fst kwargs) -> proper (OArgs args kwargs).

End Spec.

(** Nesting depth: an upper bound on the recursion *)
Fixpoint depth {A} (o : obj A) : nat :=
  match o with
  | OList l | OTuple l => S (list_max (map depth l))
  | ODict d => S (list_max (map (fun p => Nat.max (depth (fst p)) (depth (snd p))) d))
  | OArgs args kwargs => 3 + Nat.max (list_max (map depth args)) (list_max (map (fun p => depth (snd p)) kwargs))
  | _ => 1
  end.

(** A conversion without effects *)
Definition pure_conv {A S} (f : obj A -> obj A) (o : obj A) : eff S (obj A) := done (f o).
