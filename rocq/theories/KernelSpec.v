(** Vocabulary of the theorems about maxout, gather_add and scatter_add. *)
From Verif Require Export Seq2colSpec KernelModel.

(** B x O x P arrays. *)
Definition wf3 {T} (X : arr3 T) : Prop := length (t_cells X) = t_b X * t_o X /\ Forall (fun c => length c = t_p X) (t_cells X).
(** A vector of [P] elements that is zero except for [d] at position [w]. *)
Definition only_at {T} `{Num T} (P : nat) (w : Z) (d : T) : list T := map (fun k => if (Z.of_nat k =? w)%Z then d else nZ 0) (seq 0 P).
(** Positions of the shape of a matrix, all within [0, P). *)
Definition positions_in {T} (P : Z) (which : list (list Z)) (dY : mat T) : Prop :=
  length which = m_len dY /\ Forall (fun w => length w = m_cols dY) which /\ Forall (Forall (fun k => (0 <= k < P)%Z)) which.
Definition ids_in (n : nat) (ids : list Z) : Prop := Forall (fun k => (0 <= k < Z.of_nat n)%Z) ids.
(** The looked-up rows. *)
Definition lookup {A} (table : list (list A)) (ids : list Z) : list (list A) := map (fun k => nth (Z.to_nat k) table []) ids.
(** The rows of [values] whose id is [t], in order. *)
Definition with_id {A} (t : nat) (ids : list Z) (values : list (list A)) : list (list A) :=
  map snd (filter (fun p => (fst p =? Z.of_nat t)%Z) (combine ids values)).
