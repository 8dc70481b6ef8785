(** Python dictionaries as insertion-ordered association lists. No proofs here.
    Models CPython's [dict]: keys are unique, iteration follows insertion order,
    assigning to an existing key keeps its position. *)
From Verif Require Export Base.

Class EqD (K : Type) := eqd : forall a b : K, {a = b} + {a <> b}.
#[export] Instance eqd_nat : EqD nat := Nat.eq_dec.
#[export] Instance eqd_Z : EqD Z := Z.eq_dec.
#[export] Instance eqd_pair {A B} `{EqD A} `{EqD B} : EqD (A * B).
Proof. intros [a b] [c d]. destruct (eqd a c) as [->|n]; [destruct (eqd b d) as [->|n]|];
  [left; reflexivity | right; congruence | right; congruence]. Defined.

Definition dict (K V : Type) := list (K * V).

Section Dict.
  Context {K V : Type} `{EqD K}.

  (** [d.get(k)] *)
  Fixpoint dget (k : K) (d : dict K V) : option V :=
    match d with
    | [] => None
    | (k', v) :: d' => if eqd k k' then Some v else dget k d'
    end.

  (** [k in d] *)
  Definition dmem (k : K) (d : dict K V) : bool :=
    match dget k d with Some _ => true | None => false end.

  (** [d[k] = v] *)
  Fixpoint dset (k : K) (v : V) (d : dict K V) : dict K V :=
    match d with
    | [] => [(k, v)]
    | (k', v') :: d' => if eqd k k' then (k', v) :: d' else (k', v') :: dset k v d'
    end.

  (** [del d[k]] for a present key; no effect when absent. *)
  Fixpoint ddel (k : K) (d : dict K V) : dict K V :=
    match d with
    | [] => []
    | (k', v') :: d' => if eqd k k' then d' else (k', v') :: ddel k d'
    end.

  (** [list(d.keys())] *)
  Definition dkeys (d : dict K V) : list K := map fst d.
End Dict.

(** Membership in a Python set or list of comparable values. *)
Definition memb {K} `{EqD K} (k : K) (l : list K) : bool :=
  if in_dec eqd k l then true else false.
