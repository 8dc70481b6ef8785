(** Vocabulary of the theorems about data validation. *)
From Coq Require Import String.
From Verif Require Export ValidModel.
Local Open Scope string_scope.

(** An object is of a type. *)
Inductive has_type (other : nat -> obj -> bool) : ann -> obj -> Prop :=
| ht_any o : has_type other TAny o
| ht_array nd dt o n d : o = OArr n d -> (forall m, nd = Some m -> n = m) -> (forall k, dt = Some k -> In d (expected_types k)) -> has_type other (TArray nd dt) o
| ht_list t o l : o = OList l \/ o = OTup l -> Forall (has_type other t) l -> has_type other (TList t) o
| ht_tuple ts o l : o = OList l \/ o = OTup l -> Forall2 (has_type other) ts l -> has_type other (TTuple ts) o
| ht_union ts o t : In t ts -> has_type other t o -> has_type other (TUnion ts) o
| ht_callable : has_type other TCallable OFunc
| ht_other k o : other k o = true -> has_type other (TOther k) o.

(** Types that have all initial parts of the lists that they have: no tuples of more than five items, at the top. *)
Fixpoint cuttable (t : ann) : bool :=
  match t with
  | TTuple ts => Nat.leb (length ts) 5
  | TUnion ts => forallb cuttable ts
  | TOther _ => false
  | _ => true
  end.
