(** Vocabulary for bidirectional: what it should do. *)
From Verif Require Export BidiModel CombSpec.

(** The sequence read backwards: the time steps in reverse order. *)
Definition backwards {A} (v : value A) : value A :=
  match v with Pad w d sizes lens idx => Pad w (rev d) sizes lens idx | _ => v end.
(** Two outputs next to each other: at every time and sequence the row of the first followed by the row of the second. *)
Definition side_by_side {A} (v1 v2 v : value A) : Prop :=
  match v1, v2, v with
  | Pad w1 d1 s l i, Pad w2 d2 _ _ _, Pad w d s' l' i' =>
    w = w1 + w2 /\ s' = s /\ l' = l /\ i' = i /\ length d = length d1 /\
    forall t b r1 r2, (exists x, nth_error d1 t = Some x /\ nth_error x b = Some r1) ->
      (exists x, nth_error d2 t = Some x /\ nth_error x b = Some r2) ->
      exists x, nth_error d t = Some x /\ nth_error x b = Some (r1 ++ r2)
  | _, _, _ => False
  end.
(** The first n columns of every row *)
Definition first_columns {A} (n : nat) (v : value A) : value A :=
  match v with Pad w d s l i => Pad (Nat.min n w) (map (map (firstn n)) d) s l i | _ => v end.
Definition width_of {A} (v : value A) : nat := match v with Pad w _ _ _ _ => w | _ => 0 end.
Definition is_pad {A} (v : value A) : Prop := match v with Pad _ _ _ _ _ => True | _ => False end.
(** The same numbers of time steps and of rows at each *)
Definition same_steps {A} (v w : value A) : Prop :=
  match v, w with Pad _ d _ _ _, Pad _ d' _ _ _ => map (@length _) d = map (@length _) d' | _, _ => False end.
(** A batch with one sequence of one step *)
Definition one_step {A} (x : A) : value A := Pad 1 [[[x]]] [1] [1] [0].
