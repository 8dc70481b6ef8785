(** Embed and HashEmbed: thinc/layers/embed.py 48-71 and thinc/layers/hashembed.py 59-91, on NumpyOps.
    No proofs here. The dropout mask that get_dropout_mask drew is a parameter. [fast]: the arrays have the dtypes
    and layout of the compiled scatter_add. The backward functions return the gradient of the table, the
    gradient of the ids (zeros) and the contents of the caller's gradient array afterwards, which they multiply in
    place. Reading the parameter and adding to its gradient are modelled in NodeModel and GradModel. *)
From Verif Require Export KernelModel HashModel.

Section Embed.
  Context {T : Type} `{Num T}.
  Local Open Scope num_scope.
  Local Notation rows := (list (list T)).

  (** [output *= drop_mask]: each row times the mask *)
  Definition apply_mask (mask : option (list T)) (x : mat T) : mat T :=
    match mask with None => x | Some m => mkM (m_cols x) (map (fun r => vmap2 nmul r m) (m_rows x)) end.

  (** embed.py 48-60 *)
  Definition embed_forward (E : mat T) (ids : list Z) (is_train : bool) (mask : option (list T)) : result (mat T) :=
    let* r := mapM (py_getz (m_rows E)) ids in
    let output := mkM (m_cols E) r in
    Ok (if is_train then apply_mask mask output else output).
  (** 62-70; [mask] is None unless drawn in training *)
  Definition embed_backward (fast : bool) (nV nO : nat) (ids : list Z) (mask : option (list T)) (d_output : mat T)
    : result (mat T * list Z * mat T) :=
    let d_output := apply_mask mask d_output in
    let d_vectors := mzeros nV nO in
    let* d_vectors := np_scatter_add fast d_vectors ids d_output in
    Ok (d_vectors, repeat 0%Z (length ids), d_output).

  (** [model.ops.hash(ids, seed) % nV]; numpy gives 0 for a zero divisor *)
  Definition hash_keys (ids : list Z) (seed : Z) (nV : nat) : result (list (list Z)) :=
    let* h := np_hash ids seed in
    Ok (map (map (fun w => if (nV =? 0)%nat then 0 else w mod Z.of_nat nV)%Z) h).
  (** hashembed.py 59-79: the keys and the mask are only bound for non-empty batches *)
  Definition hashembed_forward (E : mat T) (seed : Z) (ids : list Z) (is_train : bool) (mask : option (list T))
    : result (mat T * option (list (list Z))) :=
    match ids with
    | [] => Ok (mkM (m_cols E) [], None)
    | _ =>
      let* keys := hash_keys ids seed (m_len E) in
      let* output := np_gather_add E 4 keys in
      Ok (if is_train then apply_mask mask output else output, Some keys)
    end.
  (** one call of scatter_add per column of the keys *)
  Fixpoint scatter_columns (fast : bool) (keys : list (list Z)) (columns : list nat) (d dE : mat T) : result (mat T) :=
    match columns with
    | [] => Ok dE
    | i :: columns' =>
      let* dE' := np_scatter_add fast dE (map (fun k => nth i k 0%Z) keys) d in
      scatter_columns fast keys columns' d dE'
    end.
  (** 81-90 *)
  Definition hashembed_backward (fast : bool) (nV nO : nat) (keys : option (list (list Z))) (mask : option (list T)) (d_vectors : mat T)
    : result (mat T * list Z * mat T) :=
    match keys with
    | None => Err NameError
    | Some keys =>
      let d_vectors := apply_mask mask d_vectors in
      let* dE := scatter_columns fast keys (seq 0 4) d_vectors (mzeros nV nO) in
      Ok (dE, repeat 0%Z (length keys), d_vectors)
    end.
End Embed.
