(** uniqued: thinc/layers/uniqued.py 30-54. No proofs here. The input is a 2d array of integers, the outputs and the gradients are
    2d arrays of floats. [fast]: whether NumpyOps.scatter_add uses the compiled function (KernelModel.v). *)
From Verif Require Export KernelModel DenseModel.

(** ** numpy.unique of integers *)
Fixpoint insert_uniq (k : Z) (l : list Z) : list Z :=
  match l with
  | [] => [k]
  | x :: l' => if (k =? x)%Z then l else if (k <? x)%Z then k :: l else x :: insert_uniq k l'
  end.
Definition np_unique (keys : list Z) : list Z := fold_right insert_uniq [] keys.
(** The first position of a value (return_index for [u] in the keys; return_inverse for a key in the unique keys) *)
Fixpoint index_of (k : Z) (l : list Z) : nat :=
  match l with [] => 0 | x :: l' => if (x =? k)%Z then 0 else S (index_of k l') end.
(** return_counts *)
Definition count_of (k : Z) (l : list Z) : nat := length (filter (fun x => (x =? k)%Z) l).

Section Uniq.
  Context {T : Type} `{Num T} {G : Type}.
  (** A layer: its output and its callback, which also changes a state (the accumulated gradients) *)
  Definition ucallback : Type := mat T -> G -> result (mat T * G).
  Definition ulayer : Type := mat Z -> result (mat T * ucallback).

  (** 30-54 *)
  Definition uniqued (fast : bool) (layer : ulayer) (column : Z) : ulayer := fun X =>
    if Nat.ltb (length (m_rows X) * m_cols X) 2 then layer X
    else
      let* c := match norm_index (m_cols X) column with Some c => Ok c | None => Err IndexError end in
      let keys := map (fun r => nth c r 0%Z) (m_rows X) in
      let uniq_keys := np_unique keys in
      let ind := map (fun u => index_of u keys) uniq_keys in
      let inv := map (fun k => index_of k uniq_keys) keys in
      let counts := map (fun u => count_of u keys) uniq_keys in
      let X_uniq := mkM (m_cols X) (map (fun i => nth i (m_rows X) []) ind) in
      let* (Y_uniq, bp_Y_uniq) := layer X_uniq in
      let* Y := mapM (py_get (m_rows Y_uniq)) inv in
      Ok (mkM (m_cols Y_uniq) Y, fun dY s =>
        let dY_uniq := mzeros (length (m_rows Y_uniq)) (m_cols Y_uniq) in
        let* dY_uniq := np_scatter_add fast dY_uniq (map Z.of_nat inv) dY in
        let* (d_uniques, s) := bp_Y_uniq dY_uniq s in
        let* q := mbin ndiv d_uniques (mkM 1 (map (fun n => [nnat n]) counts)) in
        let* dX := mapM (py_get (m_rows q)) inv in
        Ok (mkM (m_cols q) dX, s)).
End Uniq.
