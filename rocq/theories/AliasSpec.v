(** Vocabulary for theorems about aliasing. *)
From Verif Require Export AliasModel.

Section Spec.
  Context {T : Type} `{Num T}.
  (** Every array of the first heap is unchanged in the second. *)
  Definition kept (h h' : heap T) : Prop := forall i m, nth_error h i = Some m -> nth_error h' i = Some m.
  (** [acts l f g]: on any array m, the layer returns an array holding [f m] and changes no existing array, and its
      callback maps a gradient d to [g m d] without changing any existing array, as long as the input and the arrays
      the layer itself allocated are unchanged. *)
  Definition acts (l : hlayer T) (f : mat T -> mat T) (g : mat T -> mat T -> mat T) : Prop :=
    forall h a m, nth_error h a = Some m ->
    exists y b e, l a h = Ok (y, b, h ++ e) /\ nth_error (h ++ e) y = Some (f m) /\
    forall h2 d dm, nth_error h2 a = Some m ->
      (forall i, length h <= i < length h + length e -> nth_error h2 i = nth_error (h ++ e) i) ->
      nth_error h2 d = Some dm ->
      exists x e2, b d h2 = Ok (x, h2 ++ e2) /\ nth_error (h2 ++ e2) x = Some (g m dm).
  (** [acts_fresh l f g]: moreover the output and the gradient are new arrays, and the callback does not look at the
      output of the layer. *)
  Definition acts_fresh (l : hlayer T) (f : mat T -> mat T) (g : mat T -> mat T -> mat T) : Prop :=
    forall h a m, nth_error h a = Some m ->
    exists y b e, l a h = Ok (y, b, h ++ e) /\ nth_error (h ++ e) y = Some (f m) /\ length h <= y /\
    forall h2 d dm, nth_error h2 a = Some m ->
      (forall i, length h <= i < length h + length e -> i <> y -> nth_error h2 i = nth_error (h ++ e) i) ->
      nth_error h2 d = Some dm ->
      exists x e2, b d h2 = Ok (x, h2 ++ e2) /\ nth_error (h2 ++ e2) x = Some (g m dm) /\ length h2 <= x.
  (** The sum of a first array and others. *)
  Fixpoint sums (m : mat T) (ms : list (mat T)) : result (mat T) :=
    match ms with [] => Ok m | n :: r => let* s := miadd m n in sums s r end.
End Spec.
