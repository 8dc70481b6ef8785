(** Resizable layers: thinc/layers/resizable.py, with linear.py 49-61 and 35-39. No proofs here.
    A layer is a node (NodeModel.v) whose parameters are arrays of one or two dimensions. The model's own layers are addresses. *)
From Coq Require Import String.
From Verif Require Export NodeModel DenseModel.

Inductive parr (T : Type) := P1 (v : list T) | P2 (m : mat T).
Arguments P1 {T}. Arguments P2 {T}.

Section Resize.
  Context {T : Type} `{Num T} {A : Type}.
  Local Open Scope string_scope.
  Definition pnode : Type := node (parr T) A.

  (** [len(array)] *)
  Definition plen (p : parr T) : nat := match p with P1 v => length v | P2 m => length (m_rows m) end.
  (** An array broadcast to [k] rows of [c] columns: the assignment [target[...] = p] for a 2d target *)
  Definition to_shape2 (k c : nat) (p : parr T) : result (list (list T)) :=
    let m := match p with P1 v => as_row v | P2 m => m end in
    if ((Nat.eqb (length (m_rows m)) k || Nat.eqb (length (m_rows m)) 1) && (Nat.eqb (m_cols m) c || Nat.eqb (m_cols m) 1))%bool
    then Ok (map (fun i => map (fun j => bget m i j) (seq 0 c)) (seq 0 k)) else Err ValueError.
  (** The same for a 1d target: a source of two dimensions must have one row *)
  Definition to_shape1 (k : nat) (p : parr T) : result (list T) :=
    match p with
    | P1 v => if Nat.eqb (length v) k then Ok v else if Nat.eqb (length v) 1 then Ok (repeat (nth 0 v (nZ 0)) k) else Err ValueError
    | P2 m => if Nat.eqb (length (m_rows m)) 1 then let* r := to_shape2 1 k p in Ok (nth 0 r []) else Err ValueError
    end.
  (** resizable.py 90-92: [larger[: len(smaller)] = smaller] and [larger[len(smaller) :] = filler] *)
  Definition overwrite (larger smaller : parr T) (filler : T) : result (parr T) :=
    let n := plen smaller in
    match larger with
    | P1 v => let* h := to_shape1 (Nat.min n (length v)) smaller in Ok (P1 (h ++ repeat filler (length v - n))%list)
    | P2 m => let* h := to_shape2 (Nat.min n (length (m_rows m))) (m_cols m) smaller in
              Ok (P2 (mkM (m_cols m) (h ++ repeat (repeat filler (m_cols m)) (length (m_rows m) - n))%list))
    end.
  (** 86-93 *)
  Definition resize_parameter (name : string) (layer new_layer : pnode) (filler : T) : result pnode :=
    let* larger := get_param new_layer name in
    let* smaller := get_param layer name in
    let* p := overwrite larger smaller filler in
    Ok (set_param new_layer name (Some p)).
  (** 79-82: the loop over the names of the parameters *)
  Fixpoint resize_all (names : list string) (fill_defaults : dict string T) (layer new_layer : pnode) : result pnode :=
    match names with
    | [] => Ok new_layer
    | name :: names =>
        match has_param layer name with
        | Some true =>
            let filler := match dget name fill_defaults with Some f => f | None => nZ 0 end in
            let* n := resize_parameter name layer new_layer filler in resize_all names fill_defaults layer n
        | _ => resize_all names fill_defaults layer new_layer
        end
    end.
  (** 66-78: the new layer before [initialize] ([Model.__init__]); the new id is given *)
  Definition blank (new_id : Z) (layer : pnode) (new_nO : Z) : pnode :=
    mkNode new_id (n_name layer) (n_func layer) [] [] (dset "nO" (Some new_nO) (n_dims layer)) (map (fun p => (fst p, false)) (n_has layer)) [] [] [] (n_attrs layer).
  (** 48-83. [init] is the initializer of the layer, called without data. Returns the layer passed, and the new layer if
      there is one; None means that the layer itself was returned. [fill_defaults] is [] for None. *)
  Definition resize_linear_weighted (init : pnode -> result pnode) (new_id : Z) (layer : pnode) (new_nO : Z) (fill_defaults : dict string T) : pnode * result (option pnode) :=
    match n_layers layer, n_refs layer, n_shims layer with
    | [], [], [] =>
        match has_dim layer "nO" with
        | None => let r := set_dim layer "nO" new_nO false in (fst r, let* _ := snd r in Ok None)
        | _ =>
            match get_dim layer "nO" with
            | Err e => (layer, Err e)
            | Ok nO =>
                if (new_nO =? nO)%Z then (layer, Ok None)
                else match has_dim layer "nI" with
                     | None => let r := set_dim layer "nO" new_nO true in (fst r, let* _ := snd r in Ok None)
                     | _ => (layer, let* n := init (blank new_id layer new_nO) in
                                    let* n := resize_all (param_names layer) fill_defaults layer n in Ok (Some n))
                     end
            end
        end
    | _, _, _ => (layer, Err AssertionError)
    end.

  (** ** linear.py *)

  (** linear.py 49-61 without data. [init_W] and [init_b] are the initializers, for a shape; an array cannot have a negative dimension *)
  Definition linear_init (init_W : nat -> nat -> mat T) (init_b : nat -> list T) (n : pnode) : result pnode :=
    let* nO := get_dim n "nO" in
    let* nI := get_dim n "nI" in
    if ((nO <? 0) || (nI <? 0))%Z%bool then Err ValueError
    else
      let n := set_param n "W" (Some (P2 (init_W (Z.to_nat nO) (Z.to_nat nI)))) in
      Ok (set_param n "b" (Some (P1 (init_b (Z.to_nat nO))))).
  (** 35-39 *)
  Definition linear_predict (n : pnode) (X : mat T) : result (mat T) :=
    let* W := get_param n "W" in
    let* b := get_param n "b" in
    match W, b with
    | P2 W, P1 b => let* Y := gemm X W false true in miadd Y (as_row b)
    | _, _ => Err TypeError
    end.

  (** ** The container *)

  (** resizable.py 11-21: the dimensions are copied from the layer *)
  Definition resizable (new_id : Z) (layers : list pnode) (l : addr) (attrs : dict string A) (func : nat) : option pnode :=
    match nth_error layers l with
    | None => None
    | Some layer => Some (mkNode new_id ("resizable(" ++ n_name layer ++ ")") func [l] [] (n_dims layer) [] [] [] [] attrs)
    end.
  (** 41-45, where the attribute [resize_layer] is [resize_linear_weighted]: the nodes of the program and the container *)
  Definition resize_model (init : pnode -> result pnode) (new_id : Z) (fill_defaults : dict string T) (nodes : list pnode) (model : pnode) (new_nO : Z) : list pnode * pnode * result unit :=
    match n_layers model with
    | [] => (nodes, model, Err IndexError)
    | l :: rest =>
        match nth_error nodes l with
        | None => (nodes, model, Err MemFault)
        | Some layer =>
            let r := resize_linear_weighted init new_id layer new_nO fill_defaults in
            let nodes := (firstn l nodes ++ fst r :: skipn (S l) nodes)%list in
            match snd r with
            | Err e => (nodes, model, Err e)
            | Ok None => (nodes, model, Ok tt)
            | Ok (Some n) => ((nodes ++ [n])%list, with_layers model (length nodes :: rest), Ok tt)
            end
        end
    end.
End Resize.
Arguments pnode : clear implicits.
