(** Vocabulary for [Model.copy]. *)
From Coq Require Import String.
From Verif Require Import GraphModel GraphSpec NodeModel CopyModel.

Section CopySpec.
  Context {E A B : Type}.
  Notation node := (node addr A).
  Notation cstate := (cstate E A B).

  (** The array objects a node holds. *)
  Definition arrays_of (n : node) : list addr := map snd (n_params n) ++ map snd (n_grads n).

  (** A reachable state: dictionaries have distinct keys, nothing dangles, allocated parameters are
      stored, ids have been handed out by the counter. *)
  Record wf_cstate (st : cstate) : Prop := {
    wf_has : forall a n, nth_error (c_nodes st) a = Some n -> NoDup (dkeys (n_has n));
    wf_layers : forall a n l, nth_error (c_nodes st) a = Some n -> In l (n_layers n) -> l < length (c_nodes st);
    wf_shims : forall a n s, nth_error (c_nodes st) a = Some n -> In s (n_shims n) -> s < length (c_shims st);
    wf_alloc : forall a n nm, nth_error (c_nodes st) a = Some n -> dget nm (n_has n) = Some true ->
                 exists x, dget nm (n_params n) = Some x;
    wf_arrays : forall a n x, nth_error (c_nodes st) a = Some n -> In x (arrays_of n) -> x < length (c_arrays st);
    wf_ids : forall a n, nth_error (c_nodes st) a = Some n -> (n_id n <= c_next st)%Z
  }.

  (** [n'] is a copy of [n]: [m] and [ms] send old layers and shims to new ones; [arrs] holds the
      contents of old and new arrays. *)
  Record is_copy (arrs : list E) (m ms : dict addr addr) (n n' : node) : Prop := {
    cp_name : n_name n' = n_name n;
    cp_func : n_func n' = n_func n;
    cp_dims : n_dims n' = n_dims n;
    cp_attrs : n_attrs n' = n_attrs n;
    cp_layers : map Some (n_layers n') = map (fun l => dget l m) (n_layers n);
    cp_shims : map Some (n_shims n') = map (fun s => dget s ms) (n_shims n);
    cp_names : param_names n' = param_names n;
    cp_has : forall nm, has_param n' nm = has_param n nm;
    cp_params : forall nm,
      if in_dec string_dec nm (param_names n) then
        match has_param n nm with
        | Some true => exists x x' v, get_param n nm = Ok x /\ get_param n' nm = Ok x' /\
                                      nth_error arrs x = Some v /\ nth_error arrs x' = Some v
        | _ => dget nm (n_params n') = None
        end
      else dget nm (n_params n') = None;
    cp_grads : forall nm,
      if in_dec string_dec nm (grad_names n) then
        exists x x' v, get_grad n nm = Ok x /\ get_grad n' nm = Ok x' /\
                       nth_error arrs x = Some v /\ nth_error arrs x' = Some v
      else dget nm (n_grads n') = None;
    (* aliasing between the parameters of the copy is as in the original; gradients are private *)
    cp_alias : forall nm1 nm2 x1 x2 y1 y2,
      has_param n nm1 = Some true -> has_param n nm2 = Some true ->
      get_param n nm1 = Ok x1 -> get_param n nm2 = Ok x2 -> get_param n' nm1 = Ok y1 -> get_param n' nm2 = Ok y2 ->
      (y1 = y2 <-> x1 = x2);
    cp_private : forall nm y, get_grad n' nm = Ok y ->
      (forall nm2, get_param n' nm2 <> Ok y) /\ (forall nm2, get_grad n' nm2 = Ok y -> nm2 = nm)
  }.

  (** [st'] contains [st] unchanged plus a copy of the model below [root], rooted at [r]. *)
  Record copied (st st' : cstate) (root r : addr) (m ms : dict addr addr) : Prop := {
    cd_nodes : exists new, c_nodes st' = c_nodes st ++ new;
    cd_arrays : exists new, c_arrays st' = c_arrays st ++ new;
    cd_shims : exists new, c_shims st' = c_shims st ++ new;
    cd_root : dget root m = Some r;
    (* [m] is a bijection between the nodes of the model and the new nodes *)
    cd_dom : forall a, In a (dkeys m) <-> reach (graph_of (c_nodes st)) root a;
    cd_keys : NoDup (dkeys m);
    cd_img : map snd m = seq (length (c_nodes st)) (length (c_nodes st') - length (c_nodes st));
    cd_copy : forall a c, dget a m = Some c ->
      exists n n', nth_error (c_nodes st) a = Some n /\ nth_error (c_nodes st') c = Some n' /\
                   is_copy (c_arrays st') m ms n n';
    (* [ms] is a bijection between shims used in the model and new shims, with the same contents *)
    cd_simg : map snd ms = seq (length (c_shims st)) (length (c_shims st') - length (c_shims st));
    cd_skeys : NoDup (dkeys ms);
    cd_scopy : forall s t, dget s ms = Some t -> nth_error (c_shims st') t = nth_error (c_shims st) s;
    (* ids *)
    cd_ids : forall c n', length (c_nodes st) <= c -> nth_error (c_nodes st') c = Some n' ->
      n_id n' = (c_next st + 1 + Z.of_nat (c - length (c_nodes st)))%Z;
    (* the new nodes own their arrays *)
    cd_fresh : forall c n' x, length (c_nodes st) <= c -> nth_error (c_nodes st') c = Some n' ->
      In x (arrays_of n') -> length (c_arrays st) <= x < length (c_arrays st');
    cd_own : forall c d n1 n2 x, length (c_nodes st) <= c -> length (c_nodes st) <= d ->
      nth_error (c_nodes st') c = Some n1 -> nth_error (c_nodes st') d = Some n2 ->
      In x (arrays_of n1) -> In x (arrays_of n2) -> c = d
  }.
End CopySpec.
