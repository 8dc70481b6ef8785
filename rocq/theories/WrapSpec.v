(** Vocabulary of the theorems about wrapped models, without the functions of the model. *)
From Coq Require Import String.
From Verif Require Export NestSpec WrapModel.

(** The leaves of a value from left to right: those of its elements and values, not of the keys of dicts *)
Fixpoint leaves {A} (o : obj A) : list A :=
  match o with
  | OOther a => [a]
  | OList l | OTuple l => concat (map leaves l)
  | ODict d => concat (map (fun p => leaves (snd p)) d)
  | OArgs args kwargs => concat (map leaves args) ++ concat (map (fun p => leaves (snd p)) kwargs)
  | _ => []
  end.
(** The same value with other leaves *)
Fixpoint replaced {A} (g : A -> A) (o : obj A) : obj A :=
  match o with
  | OOther a => OOther (g a)
  | OList l => OList (map (replaced g) l)
  | OTuple l => OTuple (map (replaced g) l)
  | ODict d => ODict (map (fun p => (fst p, replaced g (snd p))) d)
  | OArgs args kwargs => OArgs (map (replaced g) args) (map (fun p => (fst p, replaced g (snd p))) kwargs)
  | _ => o
  end.
Definition only {A} (p : A -> bool) (g : A -> A) (a : A) : A := if p a then g a else a.

Section Spec.
  Context {A : Type}.
  (** How an input becomes the arguments of the module, and how their gradients become that of the input *)
  Definition spread (X : obj A) : list (obj A) * list (obj A * obj A) :=
    match X with
    | OArgs args kwargs => (args, kwargs)
    | ODict d => ([], d)
    | OTuple l | OList l => (l, [])
    | _ => ([X], [])
    end.
  Definition tupled (X : obj A) : obj A := match X with OList l => OTuple l | _ => X end.
  (** Keyword arguments have names *)
  Definition named (X : obj A) : Prop := Forall (fun p => exists s, fst p = OStr s) (snd (spread X)).

  (** Leaves of the two frameworks: tensors are no arrays; copying an array gives a tensor *)
  Record frameworks (is_xp is_torch : A -> bool) (tensor_of : A -> A) (none : A) : Prop := mkFw {
    fw_disjoint : forall a, is_xp a = true -> is_torch a = false;
    fw_tensor : forall a, is_xp a = true -> is_torch (tensor_of a) = true;
    fw_none : is_torch none = false
  }.
  (** A gradient as an array, or None *)
  Definition grad_array (array_of : A -> A) (none : A) (g : option A) : A := match g with Some g => array_of g | None => none end.

  (** Arrays, other leaves, and lists and tuples of them *)
  Inductive plain : obj A -> Prop :=
  | plain_int i : plain (OInt i)
  | plain_str s : plain (OStr s)
  | plain_other a : plain (OOther a)
  | plain_list l : Forall plain l -> plain (OList l)
  | plain_tuple l : Forall plain l -> plain (OTuple l).
  (** With a dict inside *)
  Inductive dict_inside : obj A -> Prop :=
  | dict_here d : dict_inside (ODict d)
  | dict_list a x b : Forall plain a -> dict_inside x -> dict_inside (OList (a ++ x :: b))
  | dict_tuple a x b : Forall plain a -> dict_inside x -> dict_inside (OTuple (a ++ x :: b)).
  (** Arrays in lists and tuples *)
  Inductive arrays : obj A -> Prop :=
  | arr_one a : arrays (OOther a)
  | arr_list l : Forall arrays l -> arrays (OList l)
  | arr_tuple l : Forall arrays l -> arrays (OTuple l).
  (** An array on the CPU *)
  Definition moved (where_is : A -> place) (get : A -> A) (a : A) : A := match where_is a with Gpu => get a | _ => a end.
End Spec.
