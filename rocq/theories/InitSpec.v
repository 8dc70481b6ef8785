(** Vocabulary of the theorems about initialization. *)
From Coq Require Import String.
From Verif Require Export InitModel MatSpec.

Section InitSpec.
  Context {T : Type} `{Num T} `{Trans T}.
  Notation ist := (ist (T := T)).
  Notation inode := (inode (T := T)).
  Local Open Scope string_scope.

  (** The value of a dim of a node, if the node exists, has the dim and it is set. *)
  Definition dim_of (n : inode) (name : string) : option Z :=
    match dget name (n_dims n) with Some v => v | None => None end.
  Definition dim_at (s : ist) (a : addr) (name : string) : option Z :=
    match nth_error (i_heap s) a with Some n => dim_of n name | None => None end.

  (** A later state of a node: the same names of dims, dims that are set keep their values, parameters that are set
      stay set (perhaps with other values), and nothing else has changed. *)
  Record later_node (n n' : inode) : Prop := {
    later_dims : dkeys (n_dims n') = dkeys (n_dims n);
    later_kept : forall name v, dget name (n_dims n) = Some (Some v) -> dget name (n_dims n') = Some (Some v);
    later_set : forall name, In name (dkeys (n_params n)) -> In name (dkeys (n_params n'));
    later_has : forall name, In name (dkeys (n_has n)) -> In name (dkeys (n_has n'));
    later_rest : n_id n' = n_id n /\ n_name n' = n_name n /\ n_func n' = n_func n /\ n_layers n' = n_layers n /\
                 n_shims n' = n_shims n /\ n_grads n' = n_grads n /\ n_refs n' = n_refs n /\ n_attrs n' = n_attrs n
  }.
  Definition later (s s' : ist) : Prop := Forall2 later_node (i_heap s) (i_heap s').

  (** The dims that make up the shape of a parameter, by kind of layer. *)
  Definition shape_names (func : nat) (param : string) : option (list string) :=
    match func with
    | 0 | 1 | 2 => if string_dec param "W" then Some ["nO"; "nI"] else if string_dec param "b" then Some ["nO"] else None
    | 3 => if string_dec param "W" then Some ["nO"; "nP"; "nI"] else if string_dec param "b" then Some ["nO"; "nP"] else None
    | 4 => if string_dec param "G" then Some ["nI"] else if string_dec param "b" then Some ["nI"] else None
    | _ => None
    end.
  Definition volume (shape : list nat) : nat := fold_right Nat.mul 1 shape.
  (** An array of the given shape. *)
  Definition has_shape (x : arr T) (zs : list Z) : Prop :=
    Forall (fun z => 0 <= z)%Z zs /\ a_shape x = map Z.to_nat zs /\ length (a_data x) = volume (map Z.to_nat zs).
  (** Every parameter has the shape that the dims of its node say, and those dims are set. *)
  Definition sized_node (n : inode) : Prop :=
    forall param x names, dget param (n_params n) = Some x -> shape_names (n_func n) param = Some names ->
    exists zs, Forall2 (fun name z => dget name (n_dims n) = Some (Some z)) names zs /\ has_shape x zs.
  Definition all_sized (s : ist) : Prop := Forall sized_node (i_heap s).
  (** What is asked of initializers: an array of the shape asked for. *)
  Definition shape_ok (draw : nat -> list Z -> result (arr T)) : Prop :=
    forall n shape x, draw n shape = Ok x -> has_shape x shape.
  (** No dimension is 0 or negative. *)
  Definition all_positive (s : ist) : Prop := forall a name z, dim_at s a name = Some z -> (0 < z)%Z.

  (** Models without tuplify, whose layers map arrays of two dimensions to arrays of two dimensions. *)
  Fixpoint plain (p : net) : Prop :=
    match p with
    | NLeaf _ => True
    | NChain _ ps | NAdd _ ps | NConcat _ ps => fold_right and True (map plain ps)
    | NResidual _ p => plain p
    | NTuplify _ _ => False
    end.
  (** Models whose initialization tries out, or needs not try out, whether the widths fit together: layers without
      sublayers, chains of any plain models, and concatenations of such. *)
  Fixpoint tried (p : net) : Prop :=
    match p with
    | NLeaf _ => True
    | NChain _ _ => plain p
    | NConcat _ ps => ps <> [] /\ fold_right and True (map tried ps)
    | _ => False
    end.

  (** The model maps every batch of width w to a batch of width w' with as many rows. *)
  Definition maps_widths (numpy : bool) (s : ist) (p : net) (w w' : nat) : Prop :=
    forall m : mat T, wf_mat m -> m_cols m = w ->
    exists y, predict numpy p (Arr2 m) s = (s, Ok (Arr2 y)) /\ wf_mat y /\ m_cols y = w' /\ length (m_rows y) = length (m_rows m).

  (** Layers in a row, each with the output width it was created with, if any: the first takes width w, each gives
      its own width, or v if it was created without, and the next takes what the one before gives. *)
  Fixpoint wired (s : ist) (v w : Z) (layers : list (addr * option Z)) : Prop :=
    match layers with
    | [] => True
    | (a, o) :: r => let w' := match o with Some z => z | None => v end in
                     dim_at s a "nI" = Some w /\ dim_at s a "nO" = Some w' /\ wired s v w' r
    end.
  Fixpoint last_width (v w : Z) (layers : list (addr * option Z)) : Z :=
    match layers with
    | [] => w
    | (_, o) :: r => last_width v (match o with Some z => z | None => v end) r
    end.

  (** A linear layer at the address, created with the given output width, if any, and without input width. *)
  Definition unset_linear (h : list inode) (q : addr * option Z) : Prop :=
    (exists id, nth_error h (fst q) = Some (new_linear id (snd q) None)) /\ match snd q with Some z => 0 < z | None => True end%Z.
  (** Initializers that give an array for every shape of positive widths. *)
  Definition always_draws (draw : nat -> list Z -> result (arr T)) : Prop :=
    forall n shape, Forall (fun z => 0 < z)%Z shape -> exists x, draw n shape = Ok x.

  (** The addresses of the nodes of a model. *)
  Fixpoint addrs (p : net) : list addr :=
    match p with
    | NLeaf a => [a]
    | NChain a ps | NAdd a ps | NConcat a ps | NTuplify a ps => a :: flat_map addrs ps
    | NResidual a p => a :: addrs p
    end.

  (** How often the initializers are called by [initialize] without data. *)
  Definition leaf_calls (h : list inode) (a : addr) : nat :=
    match nth_error h a with
    | Some n => match n_func n with 0 | 1 | 2 | 3 => 2 | _ => 0 end
    | None => 0
    end.
  Fixpoint calls (h : list inode) (p : net) : nat :=
    match p with
    | NLeaf a => leaf_calls h a
    | NChain _ ps | NTuplify _ ps => 2 * list_sum (map (calls h) ps)
    | NAdd _ ps | NConcat _ ps => list_sum (map (calls h) ps)
    | NResidual _ p => calls h p
    end.
  (** A leaf in d chains, one inside the other. *)
  Fixpoint nested (chains : list addr) (b : addr) : net :=
    match chains with [] => NLeaf b | a :: r => NChain a [nested r b] end.
  (** Zeros of the shape. *)
  Definition zero_draw (n : nat) (shape : list Z) : result (arr T) :=
    if forallb (fun z => 0 <=? z)%Z shape then Ok (mkArr (map Z.to_nat shape) (repeat (nZ 0) (volume (map Z.to_nat shape)))) else Err ValueError.
End InitSpec.
