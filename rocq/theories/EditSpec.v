(** Vocabulary for the statements about editing the layer graph. *)
From Coq Require Import String.
From Verif Require Import GraphModel GraphSpec NodeModel.

Section EditSpec.
  Context {V A : Type}.
  Notation node := (node V A).
  Notation heap := (heap V A).
  Implicit Types (n : node) (h : heap).

  (** [old] becomes [new], anything else stays. *)
  Definition subst (old new : addr) (l : addr) : addr := if Nat.eqb l old then new else l.

  Definition subst_refs (old new : addr) (d : dict string (option addr)) : dict string (option addr) :=
    map (fun kv => (fst kv, option_map (subst old new) (snd kv))) d.

  (** The node with every layer and every reference to [old] redirected to [new]; name, dims,
      parameters, gradients, attributes and shims are those of [n]. *)
  Definition replaced (old new : addr) n : node :=
    with_refs (with_layers n (map (subst old new) (n_layers n))) (subst_refs old new (n_refs n)).

  (** Every reference name occurs once (a Python dict). *)
  Definition dicts_ok h := forall a n, nth_error h a = Some n -> NoDup (dkeys (n_refs n)).

  (** Nodes reachable from an object of a heap whose layers stay inside the heap exist. *)
  Definition closed h := forall a n l, nth_error h a = Some n -> In l (n_layers n) -> l < length h.

  (** Avoiding [old]: reachability through nodes other than [old]. *)
  Inductive avoid (g : graph) (old : addr) : addr -> addr -> Prop :=
  | avoid_here a : a <> old -> avoid g old a a
  | avoid_step a b c : avoid g old a b -> In c (layers g b) -> c <> old -> avoid g old a c.

  (** A reference is kept when its target is in [tree], and unset otherwise. *)
  Definition prune (tree : list addr) (r : option addr) : option addr :=
    match r with Some b => if memb b tree then Some b else None | None => None end.

End EditSpec.
