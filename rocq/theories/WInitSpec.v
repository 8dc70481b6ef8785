(** Vocabulary of the theorems about the initialization of wrappers and of the other layers with parameters. *)
From Coq Require Import String.
From Verif Require Export WInitModel InitSpec.

(** The addresses of the nodes of a model. *)
Fixpoint waddrs (p : wnet) : list addr :=
  match p with WLeaf a => [a] | WNode _ a ps => a :: flat_map waddrs ps end.

Section WInitSpec.
  Context {T : Type} `{Num T} `{Trans T}.
  Notation ist := (ist (T := T)).
  Notation inode := (inode (T := T)).
  Local Open Scope string_scope.

  (** The number of parameters of an LSTM: every layer and direction has, for each of the four gates, a matrix for its
      inputs, a matrix for its states and two biases. *)
  Definition lstm_size (nO dirs nI depth : Z) : Z :=
    let nH := Z.quot nO dirs in
    (dirs * (4 * (nH * nI + nH * nH + 2 * nH)) + (depth - 1) * (dirs * (4 * (nH * (nH * dirs) + nH * nH + 2 * nH))))%Z.
  (** The shape of a parameter as a function of dims, by kind of layer. *)
  Definition shape_rule (func : nat) (param : string) : option (list string * (list Z -> list Z)) :=
    match func with
    | 10 | 11 => if string_dec param "W" then Some (["nO"; "nI"], fun zs => zs)
                 else if string_dec param "b" then Some (["nO"], fun zs => zs) else None
    | 12 | 13 => if string_dec param "E" then Some (["nV"; "nO"], fun zs => zs) else None
    | 14 => if string_dec param "W" then Some (["nI"], fun zs => zs) else None
    | 15 | 18 => if string_dec param "Q" then Some (["nO"], fun zs => zs) else None
    | 16 => if string_dec param "W" then Some (["nO"; "length"], fun zs => match zs with [a; b] => [a * b]%Z | _ => [] end)
            else if string_dec param "b" then Some (["nO"], fun zs => zs) else None
    | 17 => if string_dec param "LSTM"
            then Some (["nO"; "dirs"; "nI"; "depth"], fun zs => match zs with [o; d; i; n] => [lstm_size o d i n] | _ => [] end)
            else if string_dec param "HC0"
            then Some (["nO"; "dirs"; "depth"], fun zs => match zs with [o; d; n] => [2; n; d; Z.quot o d]%Z | _ => [] end)
            else None
    | _ => None
    end.
  (** Every parameter has the shape that the dims of its node say, and those dims are set. *)
  Definition ruled_node (n : inode) : Prop :=
    forall param x names f, dget param (n_params n) = Some x -> shape_rule (n_func n) param = Some (names, f) ->
    exists zs, Forall2 (fun name z => dget name (n_dims n) = Some (Some z)) names zs /\ has_shape x (f zs).
  Definition all_ruled (s : ist) : Prop := Forall ruled_node (i_heap s).

  (** Two nodes with the same dims. *)
  Definition same_dims (n n' : inode) : Prop := forall name, dget name (n_dims n) = dget name (n_dims n').
  (** A wrapper whose dims are those of its layer, except that some may not be set yet. *)
  Definition mirrors (w n : inode) : Prop :=
    dkeys (n_dims w) = dkeys (n_dims n) /\ forall name v, dget name (n_dims w) = Some (Some v) -> dget name (n_dims n) = Some (Some v).

  (** [f] of the data, if there is any. *)
  Definition conv_opt (f : value T -> result (value T)) (X : option (value T)) : result (option (value T)) :=
    match X with None => Ok None | Some x => let* y := f x in Ok (Some y) end.
  (** The first item of a list or tuple, or nothing if there is none. *)
  Inductive head_item : option (value T) -> option (value T) -> Prop :=
  | head_none : head_item None None
  | head_nil : head_item (Some (PyList [])) None
  | head_cons x xs : head_item (Some (PyList (x :: xs))) (Some x)
  | head_tnil : head_item (Some (PyTup [])) None
  | head_tcons x xs : head_item (Some (PyTup (x :: xs))) (Some x).
  (** Item [i] of a list or tuple *)
  Inductive item_of (i : nat) : option (value T) -> option (value T) -> Prop :=
  | item_none : item_of i None None
  | item_list l x : nth_error l i = Some x -> item_of i (Some (PyList l)) (Some x)
  | item_tuple l x : nth_error l i = Some x -> item_of i (Some (PyTup l)) (Some x).
  (** A parameter of a node; a parameter whose numbers are all [x] *)
  Definition param_at (s : ist) (a : addr) (name : string) : option (arr T) :=
    match nth_error (i_heap s) a with Some n => dget name (n_params n) | None => None end.
  Definition filled_with (x : T) (p : option (arr T)) : Prop := exists v, p = Some v /\ Forall (eq x) (a_data v).
  (** The wrappers that take their dims from their layer when they are built and never again. *)
  Definition forgetful (c : comb) : bool := match c with KList | KPadded | KCpu | KResizable => true | _ => false end.
  (** Conversions that leave arrays as they are. *)
  Definition no_conv (c : conversion) (v : value T) : result (value T) := Ok v.
  (** Forward passes that are never called. *)
  Definition no_fwd (h : list inode) (p : wnet) (v : value T) : result (value T) := Err NotImplementedError.
End WInitSpec.
