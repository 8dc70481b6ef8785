(** Gradient accumulation with array aliasing (thinc/model.py 252-270,
    thinc/backends/_param_server.py 41-79). No proofs here.
    Arrays are mutable objects in a store; a caller refers to its arrays by handle. *)
From Coq Require Import String.
From Verif Require Export Base DictModel NodeModel.

Section Grad.
  Context {E : Type} (add : E -> E -> E).

  (** numpy's elementwise [+] on two arrays of the same length. *)
  Fixpoint vadd (x y : list E) : list E :=
    match x, y with
    | a :: x', b :: y' => add a b :: vadd x' y'
    | _, _ => []
    end.

  (** [st_arrays]: contents of every array object; [st_handles]: the arrays the caller created;
      [st_grads]: the dictionary [_grads] of the node's ParamServer (array objects by name). *)
  Record gstate := mkG {
    st_arrays : list (list E);
    st_handles : list addr;
    st_grads : dict string addr
  }.

  Inductive grad_op :=
  | UNew (v : list E)                     (* caller creates an array *)
  | UWrite (u : nat) (v : list E)         (* caller overwrites the contents of its u-th array *)
  | GInc (name : string) (u : nat)        (* model.inc_grad(name, array u) *)
  | GSet (name : string) (u : nat).       (* model.set_grad(name, array u) *)

  Definition alloc (s : gstate) (v : list E) : gstate * addr :=
    (mkG (st_arrays s ++ [v]) (st_handles s) (st_grads s), length (st_arrays s)).

  (** _param_server.py 65-79 [inc_grad] (no proxy). numpy arrays have [copy], so line 72 is the one
      taken. In-place [+=] between arrays of different shapes raises ValueError (broadcasting a
      smaller increment is not modelled). *)
  Definition ps_inc_grad (s : gstate) (name : string) (a : addr) (v : list E) : gstate * result unit :=
    match dget name (st_grads s) with
    | None =>
      let (s1, c) := alloc s v in
      (mkG (st_arrays s1) (st_handles s1) (dset name c (st_grads s1)), Ok tt)
    | Some g =>
      match nth_error (st_arrays s) g with
      | None => (s, Err KeyError)                       (* dangling: impossible *)
      | Some old =>
        if Nat.eqb (length old) (length v)
        then (mkG (set_nth g (vadd old v) (st_arrays s)) (st_handles s) (st_grads s), Ok tt)
        else (s, Err ValueError)
      end
    end.

  (** _param_server.py 59-63 [set_grad]: the array object itself is stored. *)
  Definition ps_set_grad (s : gstate) (name : string) (a : addr) : gstate * result unit :=
    (mkG (st_arrays s) (st_handles s) (dset name a (st_grads s)), Ok tt).

  Definition grad_step (s : gstate) (o : grad_op) : gstate * result unit :=
    match o with
    | UNew v =>
      let (s1, a) := alloc s v in
      (mkG (st_arrays s1) (st_handles s1 ++ [a]) (st_grads s1), Ok tt)
    | UWrite u v =>
      match nth_error (st_handles s) u with
      | None => (s, Err NameError)
      | Some a => (mkG (set_nth a v (st_arrays s)) (st_handles s) (st_grads s), Ok tt)
      end
    | GInc name u =>
      match nth_error (st_handles s) u with
      | None => (s, Err NameError)
      | Some a => match nth_error (st_arrays s) a with
                  | None => (s, Err NameError)
                  | Some v => ps_inc_grad s name a v
                  end
      end
    | GSet name u =>
      match nth_error (st_handles s) u with
      | None => (s, Err NameError)
      | Some a => ps_set_grad s name a
      end
    end.

  Fixpoint grad_run (s : gstate) (ops : list grad_op) : gstate * list (result unit) :=
    match ops with
    | [] => (s, [])
    | o :: ops' =>
      let (s1, r) := grad_step s o in
      let (s2, rs) := grad_run s1 ops' in (s2, r :: rs)
    end.

  Definition grad_init : gstate := mkG [] [] [].

  (** thinc/model.py 256-258 [get_grad]: the contents of the stored array. *)
  Definition read_grad (s : gstate) (name : string) : result (list E) :=
    match dget name (st_grads s) with
    | None => Err KeyError
    | Some g => match nth_error (st_arrays s) g with Some v => Ok v | None => Err KeyError end
    end.

  (** The contents of the caller's u-th array. *)
  Definition read_user (s : gstate) (u : nat) : option (list E) :=
    match nth_error (st_handles s) u with
    | None => None
    | Some a => nth_error (st_arrays s) a
    end.
End Grad.
Arguments grad_op : clear implicits.
Arguments gstate : clear implicits.
