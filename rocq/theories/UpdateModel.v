(** [finish_update] and [use_params] (thinc/model.py 336-372). No proofs here. *)
From Coq Require Import String.
From Verif Require Export NodeModel.

Section Update.
  Context {V A S : Type}.
  Notation node := (node V A).
  Notation heap := (heap V A).

  (** The optimizer as an oracle: state, key, parameter and gradient contents to new state, returned
      parameter, and the contents of the gradient array afterwards (the optimizer works in place;
      the second component of its return value is ignored by [finish_update]). *)
  Variable opt : S -> Z * string -> V -> V -> S * (V * V).
  (** [shim.finish_update(optimizer)]: its effect on the optimizer. *)
  Variable shim_finish : S -> addr -> S.

  (** One call of the optimizer: node object, key, parameter and gradient given, and what came back. *)
  Definition call_in : Type := addr * (Z * string) * V * V.
  Definition call : Type := call_in * (V * V).

  (** thinc/model.py 344-349: the loop over [node.param_names]. *)
  Fixpoint finish_names (s : S) (a : addr) (n : node) (names : list string)
    : S * node * list call * result unit :=
    match names with
    | [] => (s, n, [], Ok tt)
    | nm :: names' =>
      if has_grad n nm then
        match get_param n nm with
        | Err e => (s, n, [], Err e)
        | Ok p =>
          match get_grad n nm with
          | Err e => (s, n, [], Err e)
          | Ok g =>
            let (s1, pg) := opt s (n_id n, nm) p g in
            let n1 := set_param (with_grads n (dset nm (snd pg) (n_grads n))) nm (Some (fst pg)) in
            let '(s2, n2, log, r) := finish_names s1 a n1 names' in
            (s2, n2, ((a, (n_id n, nm), p, g), pg) :: log, r)
          end
        end
      else finish_names s a n names'
    end.

  (** thinc/model.py 343: the second loop over [self.walk()]. *)
  Fixpoint finish_nodes (s : S) (h : heap) (nodes : list addr) : S * heap * list call * result unit :=
    match nodes with
    | [] => (s, h, [], Ok tt)
    | a :: nodes' =>
      match nth_error h a with
      | None => (s, h, [], Err KeyError)
      | Some n =>
        let '(s1, n1, log1, r) := finish_names s a n (param_names n) in
        let h1 := set_nth a n1 h in
        match r with
        | Err e => (s1, h1, log1, Err e)
        | Ok _ => let '(s2, h2, log2, r2) := finish_nodes s1 h1 nodes' in (s2, h2, log1 ++ log2, r2)
        end
      end
    end.

  (** thinc/model.py 340-342: the loop over shims. *)
  Definition shims_of (h : heap) (a : addr) : list addr :=
    match nth_error h a with Some n => n_shims n | None => [] end.
  Definition finish_shims (s : S) (h : heap) (root : addr) : S :=
    fold_left (fun s a => fold_left shim_finish (shims_of h a) s) (walk (graph_of h) Bfs root) s.

  (** thinc/model.py 336-349 [finish_update]. *)
  Definition finish_update (s : S) (h : heap) (root : addr) : S * heap * list call * result unit :=
    finish_nodes (finish_shims s h root) h (walk (graph_of h) Bfs root).
End Update.

Section UseParams.
  Context {V A R : Type}.
  Notation node := (node V A).
  Notation heap := (heap V A).
  Variable params : dict (Z * string) V.

  (** thinc/model.py 357-362: back up and set; stops at the first [get_param] failure. *)
  Fixpoint sub_names (n : node) (names : list string) (backup : dict string V)
    : node * dict string V * result unit :=
    match names with
    | [] => (n, backup, Ok tt)
    | nm :: names' =>
      match dget (n_id n, nm) params with
      | None => sub_names n names' backup
      | Some v =>
        match get_param n nm with
        | Err e => (n, backup, Err e)
        | Ok old => sub_names (set_param n nm (Some v)) names' (dset nm old backup)
        end
      end
    end.

  (** thinc/model.py 370-372: restore. *)
  Definition restore (h : heap) (a : addr) (backup : dict string V) : heap :=
    upd h a (fun n => fold_left (fun n p => set_param n (fst p) (Some (snd p))) backup n).

  (** thinc/model.py 351-372 [use_params] around a body. The context managers of the layers are
      entered in order and exited in reverse. An exception from the body or from entering a layer
      propagates without reaching the restore code. Shims are not modelled: the base class's
      [use_params] (thinc/shims/shim.py 48-50) does nothing. [fuel] bounds the recursion depth. *)
  Fixpoint use_params (fuel : nat) (h : heap) (a : addr) (body : heap -> heap * result R)
    : heap * result R :=
    match fuel with
    | O => (h, Err OutOfFuel)
    | Datatypes.S f =>
      match nth_error h a with
      | None => (h, Err KeyError)
      | Some n =>
        match sub_names n (param_names n) [] with
        | (n1, _, Err e) => (set_nth a n1 h, Err e)
        | (n1, backup, Ok _) =>
          let h1 := set_nth a n1 h in
          let inner :=
            (fix enter (ls : list addr) (h : heap) : heap * result R :=
               match ls with
               | [] => body h
               | l :: ls' => use_params f h l (enter ls')
               end) in
          match inner (n_layers n) h1 with
          | (h2, Ok r) => (restore h2 a backup, Ok r)
          | (h2, Err e) => (h2, Err e)
          end
        end
      end
    end.
End UseParams.
