(** C54: uniqued is transparent. *)
From Coq Require Import QArith.
From Coq Require Import Reals.
From Verif Require Import NumQ NumR UniqModel UniqSpec UniqProofs.
Local Open Scope nat_scope.

(** Layers that act row by row and depend only on the key column: uniqued gives the same output, and its callback adds the same to the
    gradients of the parameters. The gradients of the inputs are averaged over the rows with the same key. *)
Theorem C54_transparent : forall fast L column X c nO np f J B, keyed L c (m_cols X) nO np f J B -> wf_mat X -> norm_index (m_cols X) column = Some c ->
  (forall k, length (f k) = nO) -> (forall k, Forall (fun e => length e = nO) (B k) /\ length (B k) = m_cols X) -> (forall k, Forall (fun e => length e = nO) (J k) /\ length (J k) = np) ->
  let keys := column_of c (m_rows X) in
  exists Y b b', L X = Ok (Y, b) /\ uniqued fast L column X = Ok (Y, b') /\
    forall dY g, wf_mat dY -> m_cols dY = nO -> length (m_rows dY) = length (m_rows X) -> length g = np ->
    exists dX g', b dY g = Ok (dX, g') /\
      b' dY g = Ok (mkM (m_cols X) (map (fun k => map (fun x => (x / INR (count_occ Z.eq_dec keys k))%R) (colsum (m_cols X) (with_key k keys (m_rows dX)))) keys), g').
Proof. exact uniqued_keyed. Qed.
Print Assumptions C54_transparent.
(** Any layer: it is called with one row for each distinct key, the first one with that key; its callback is called with the sums of
    the gradients of the rows with the same key. *)
Theorem C54_unique_rows : forall G fast (L : ulayer (T := R) (G := G)) column X c U YU b, wf_mat X -> 2 <= length (m_rows X) * m_cols X -> norm_index (m_cols X) column = Some c ->
  let keys := column_of c (m_rows X) in distinct_keys U keys ->
  L (mkM (m_cols X) (map (fun u => hd [] (with_key u keys (m_rows X))) U)) = Ok (YU, b) -> length (m_rows YU) = length U -> wf_mat YU ->
  exists b', uniqued fast L column X = Ok (mkM (m_cols YU) (map (fun k => hd [] (with_key k U (m_rows YU))) keys), b') /\
    forall dY g, wf_mat dY -> m_cols dY = m_cols YU -> length (m_rows dY) = length (m_rows X) ->
      let D := mkM (m_cols YU) (map (fun u => colsum (m_cols YU) (with_key u keys (m_rows dY))) U) in
      (forall e, b D g = Err e -> b' dY g = Err e) /\
      (forall d g', b D g = Ok (d, g') -> wf_mat d -> length (m_rows d) = length U ->
        b' dY g = Ok (mkM (m_cols d) (map (fun k => map (fun x => (x / INR (count_occ Z.eq_dec keys k))%R) (hd [] (with_key k U (m_rows d)))) keys), g')).
Proof. exact uniqued_run. Qed.
Print Assumptions C54_unique_rows.
(** A layer that acts row by row: each row gets the output of the first row with its key. *)
Theorem C54_first_row : forall T (N : Num T) G fast (L : ulayer (T := T) (G := G)) column X c nO f, wf_mat X -> 2 <= length (m_rows X) * m_cols X -> norm_index (m_cols X) column = Some c ->
  let keys := column_of c (m_rows X) in rowwise L (m_cols X) nO f ->
  exists b, uniqued fast L column X = Ok (mkM nO (map (fun k => f (hd [] (with_key k keys (m_rows X)))) keys), b).
Proof. exact uniqued_rowwise. Qed.
Print Assumptions C54_first_row.
(** Inputs of at most one element: the layer itself. *)
Theorem C54_small : forall T (N : Num T) G fast (L : ulayer (T := T) (G := G)) column X, length (m_rows X) * m_cols X < 2 -> uniqued fast L column X = L X.
Proof. exact uniqued_small. Qed.
Print Assumptions C54_small.

(** Layers of this kind: any row function with its derivatives. *)
Example C54_keyed_ex : forall c w nO np f J B, keyed (keyed_layer c w nO np f J B) c w nO np f J B.
Proof. exact keyed_layer_ok. Qed.
(** A run: the key times the only parameter, 10; the callback counts the rows it sees. *)
Definition ex_layer : ulayer (T := Q) (G := list Q * nat) := fun X =>
  Ok (mkM 1 (map (fun r => [10 * inject_Z (nth 1 r 0%Z)]%Q) (m_rows X)),
      fun dY g => Ok (mkM 2 (map (fun r => [0; 10 * nth 0 r 0]%Q) (m_rows dY)),
                      ([fold_left Qplus (map (fun p => inject_Z (nth 1 (fst p) 0%Z) * nth 0 (snd p) 0)%Q (combine (m_rows X) (m_rows dY))) (nth 0 (fst g) 0)%Q], length (m_rows dY) + snd g))).
Definition ex_red (r : result (mat Q * (list Q * nat))) := match r with Ok (m, (g, n)) => Ok (mkM (m_cols m) (map (map Qred) (m_rows m)), (map Qred g, n)) | Err e => Err e end.
Definition ex_X : mat Z := mkM 2 [[7; 5]; [8; 2]; [9; 5]; [9; 5]]%Z.
Example C54_ex : forall fast,
  match uniqued fast ex_layer (-1) ex_X, ex_layer ex_X with
  | Ok (Y, b'), Ok (Y', b) =>
      map (map Qred) (m_rows Y) = [[50]; [20]; [50]; [50]]%Q /\ map (map Qred) (m_rows Y') = [[50]; [20]; [50]; [50]]%Q /\
      ex_red (b' (mkM 1 [[1]; [2]; [3]; [5]]%Q) ([1%Q], 0)) = Ok (mkM 2 [[0; 30]; [0; 20]; [0; 30]; [0; 30]]%Q, ([50%Q], 2)) /\
      ex_red (b (mkM 1 [[1]; [2]; [3]; [5]]%Q) ([1%Q], 0)) = Ok (mkM 2 [[0; 10]; [0; 20]; [0; 30]; [0; 50]]%Q, ([50%Q], 4))
  | _, _ => False
  end /\ match uniqued fast ex_layer 2 ex_X with Err IndexError => True | _ => False end.
Proof. intros [|]; vm_compute; repeat split. Qed.

(** Finding: the input gradients are not those of the layer, only their averages over equal keys. *)
Theorem C54_inputs_refuted : exists X dY, match uniqued true ex_layer 1 X, ex_layer X with
  | Ok (_, b'), Ok (_, b) => match ex_red (b' dY ([], 0)), ex_red (b dY ([], 0)) with Ok (dX', _), Ok (dX, _) => dX' <> dX | _, _ => False end
  | _, _ => False end.
Proof. exists (mkM 2 [[0; 1]; [0; 1]]%Z), (mkM 1 [[1]; [3]]%Q). vm_compute. intro H. discriminate H. Qed.
Print Assumptions C54_inputs_refuted.
(** Finding: for a layer that looks at another column too, the outputs are wrong. *)
Theorem C54_other_columns_refuted : exists X, match uniqued true ex_layer 0 X, ex_layer X with Ok (Y, _), Ok (Y', _) => Y <> Y' | _, _ => False end.
Proof. exists (mkM 2 [[0; 1]; [0; 2]]%Z). vm_compute. intro H. discriminate H. Qed.
Print Assumptions C54_other_columns_refuted.
