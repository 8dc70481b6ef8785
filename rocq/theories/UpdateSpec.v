(** Vocabulary for [finish_update] and [use_params]. *)
From Coq Require Import String.
From Verif Require Import GraphModel GraphSpec NodeModel UpdateModel.

Section UpdateSpec.
  Context {V A S : Type}.
  Notation node := (node V A).
  Notation heap := (heap V A).

  (** Python dictionaries have distinct keys: the parameter names of a node are distinct. *)
  Definition hdicts_ok (h : heap) : Prop := forall a n, nth_error h a = Some n -> NoDup (dkeys (n_has n)).

  (** The optimizer calls of one node / a whole model, read off the state before the update:
      nodes in walk order, parameters in registration order, those that have a gradient. *)
  Definition node_calls (a : addr) (n : node) (names : list string) : list (call_in (V := V)) :=
    flat_map (fun nm => match get_param n nm, get_grad n nm with
                        | Ok p, Ok g => [(a, (n_id n, nm), p, g)]
                        | _, _ => []
                        end) names.
  Definition expected_calls (h : heap) (root : addr) : list (call_in (V := V)) :=
    flat_map (fun a => match nth_error h a with Some n => node_calls a n (param_names n) | None => [] end)
      (walk (graph_of h) Bfs root).

  (** The optimizer's state is threaded through the calls in order. *)
  Inductive threaded (opt : S -> Z * string -> V -> V -> S * (V * V)) : S -> list (call (V := V)) -> S -> Prop :=
  | th_nil s : threaded opt s [] s
  | th_cons s a k p g out log s' :
      threaded opt (fst (opt s k p g)) log s' -> out = snd (opt s k p g) ->
      threaded opt s (((a, k, p, g), out) :: log) s'.

  (** Everything but parameters and gradients. *)
  Definition same_rest (n n' : node) : Prop :=
    n_id n' = n_id n /\ n_name n' = n_name n /\ n_func n' = n_func n /\ n_layers n' = n_layers n /\
    n_shims n' = n_shims n /\ n_dims n' = n_dims n /\ n_refs n' = n_refs n /\ n_attrs n' = n_attrs n.

  (** The state of one parameter: the stored array, if any, and the [has_param] flag. *)
  Definition slot (h : heap) (a : addr) (nm : string) : option V * option bool :=
    match nth_error h a with Some n => (dget nm (n_params n), dget nm (n_has n)) | None => (None, None) end.

  (** [params] addresses parameter [nm] of node [a]: it is registered there and its key is present. *)
  Definition targeted (params : dict (Z * string) V) (h : heap) (a : addr) (nm : string) : option V :=
    match nth_error h a with
    | Some n => if in_dec eqd nm (param_names n) then dget (n_id n, nm) params else None
    | None => None
    end.

  (** Same objects, differing at most in parameter values and flags. *)
  Definition shape (h h' : heap) : Prop :=
    length h' = length h /\
    forall a n, nth_error h a = Some n ->
      exists n', nth_error h' a = Some n' /\ same_rest n n' /\ n_grads n' = n_grads n /\
                 dkeys (n_has n') = dkeys (n_has n).

  (** [hin] is [h] with the parameters below [a] that [params] addresses replaced. *)
  Definition substituted (params : dict (Z * string) V) (h : heap) (a : addr) (hin : heap) : Prop :=
    shape h hin /\
    forall b nm, slot hin b nm =
      match targeted params h b nm with
      | Some v => if in_dec Nat.eq_dec b (walk (graph_of h) Bfs a) then (Some v, Some true) else slot h b nm
      | None => slot h b nm
      end.

  (** [h'] has the addressed parameters of [h] and agrees with [hout] elsewhere. *)
  Definition restored (params : dict (Z * string) V) (h : heap) (a : addr) (hout h' : heap) : Prop :=
    length h' = length hout /\
    forall b nm, slot h' b nm =
      match targeted params h b nm with
      | Some v => if in_dec Nat.eq_dec b (walk (graph_of h) Bfs a) then slot h b nm else slot hout b nm
      | None => slot hout b nm
      end.
End UpdateSpec.
