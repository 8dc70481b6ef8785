(** Vocabulary of the theorems about uniqued. *)
From Coq Require Import Reals.
From Verif Require Export UniqModel KernelSpec MatSpec.

(** The values of column c. *)
Definition column_of (c : nat) (rows : list (list Z)) : list Z := map (fun r => nth c r 0%Z) rows.
(** The rows of [values] whose key is k, in order. *)
Definition with_key {A} (k : Z) (keys : list Z) (values : list A) : list A :=
  map snd (filter (fun p => Z.eqb (fst p) k) (combine keys values)).
(** The distinct keys, in increasing order. *)
Inductive ascending : list Z -> Prop :=
| asc_nil : ascending []
| asc_cons k l : Forall (fun x => (k < x)%Z) l -> ascending l -> ascending (k :: l).
Definition distinct_keys (U keys : list Z) : Prop := ascending U /\ forall k, In k U <-> In k keys.

(** Layers that act on each row by itself *)
Definition rowwise {T G} `{Num T} (L : ulayer (T := T) (G := G)) (w nO : nat) (f : list Z -> list T) : Prop :=
  forall rows, Forall (fun r => length r = w) rows -> exists b, L (mkM w rows) = Ok (mkM nO (map f rows), b).

Local Open Scope R_scope.
(** Layers that act on each row by itself, depending only on the key in column c: [f] gives the output row, [J k] the derivatives of
    that row by each parameter, and [B k] what the callback returns for a row, as a linear map. *)
Definition keyed (L : ulayer (T := R) (G := list R)) (c w nO np : nat) (f : Z -> list R) (J B : Z -> list (list R)) : Prop :=
  forall rows, Forall (fun r => length r = w) rows ->
  exists b, L (mkM w rows) = Ok (mkM nO (map (fun r => f (nth c r 0%Z)) rows), b) /\
  forall dY g, m_cols dY = nO -> length (m_rows dY) = length rows -> wf_mat dY -> length g = np ->
    b dY g = Ok (mkM w (map (fun p => map (fun e => dot e (snd p)) (B (fst p))) (combine (column_of c rows) (m_rows dY))),
                 map (fun i => nth i g 0 + msum (map (fun p => dot (nth i (J (fst p)) []) (snd p)) (combine (column_of c rows) (m_rows dY)))) (seq 0 np)).
(** Such a layer. *)
Definition keyed_layer (c w nO np : nat) (f : Z -> list R) (J B : Z -> list (list R)) : ulayer (T := R) (G := list R) := fun X =>
  Ok (mkM nO (map (fun r => f (nth c r 0%Z)) (m_rows X)), fun dY g =>
    Ok (mkM w (map (fun p => map (fun e => dot e (snd p)) (B (fst p))) (combine (column_of c (m_rows X)) (m_rows dY))),
        map (fun i => nth i g 0 + msum (map (fun p => dot (nth i (J (fst p)) []) (snd p)) (combine (column_of c (m_rows X)) (m_rows dY)))) (seq 0 np))).
