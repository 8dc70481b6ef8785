(** TensorFlow and MXNet models as layers: shims/tensorflow.py and shims/mxnet.py, and the part of layers/tensorflowwrapper.py that calls them.
    No proofs here.
    The frameworks are outside: the gradients a tape gives, the weights a model gets when it is made from its configuration, and the optimizer
    are parameters. Devices, files and Keras' own serialization are left out. *)
From Coq Require Import String.
From Verif Require Export NumModel.
Local Open Scope string_scope.

(** An array, and a weight of a Keras layer or a parameter of an MXNet block *)
Record arr (T : Type) := mkArr { a_shape : list nat; a_data : list T }.
Arguments mkArr {T}. Arguments a_shape {T}. Arguments a_data {T}.
Record weight (T : Type) := mkWeight { w_name : string; w_trainable : bool; w_value : arr T }.
Arguments mkWeight {T}. Arguments w_name {T}. Arguments w_trainable {T}. Arguments w_value {T}.
(** A Keras model: the weights of its layers *)
Definition keras (T : Type) := list (list (weight T)).

Section Foreign.
  Context {T : Type} `{Num T}.
  Definition count (shape : list nat) : nat := fold_right Nat.mul 1 shape.
  (** [a.reshape(shape)] of a flat array *)
  Definition reshape (l : list T) (shape : list nat) : result (arr T) := if Nat.eqb (length l) (count shape) then Ok (mkArr shape l) else Err ValueError.

  (** ** shims/tensorflow.py *)
  Record tf_shim := mkTf { t_model : option (keras T); t_gradients : option (list (arr T)) }.
  Definition trainable (m : keras T) : list (weight T) := filter w_trainable (concat m).

  (** What gradients are asked for: an argument, a row of the first argument, a trainable variable *)
  Inductive wrt := WArg (i : nat) | WRow (i : nat) | WVar (i : nat).
  (** [tape.gradient]: None for what the output does not depend on *)
  Variable tape_gradient : wrt -> option (arr T).

  (** [variable.assign_add] *)
  Definition assign_add (v : arr T) (g : option (arr T)) : result (arr T) :=
    match g with
    | None => Err ValueError
    | Some g => if list_eq_dec Nat.eq_dec (a_shape v) (a_shape g) then Ok (mkArr (a_shape v) (vmap2 nadd (a_data v) (a_data g))) else Err ValueError
    end.
  (** [tf.Variable(g)] *)
  Definition new_variable (g : option (arr T)) : result (arr T) := match g with None => Err ValueError | Some g => Ok g end.
  (** Adding one gradient after the other: what came before stays when one raises *)
  Fixpoint accumulate (vs : list (arr T)) (gs : list (option (arr T))) : list (arr T) * result unit :=
    match vs, gs with
    | v :: vs, g :: gs =>
        match assign_add v g with
        | Ok v' => let (vs', r) := accumulate vs gs in (v' :: vs', r)
        | Err e => (v :: vs, Err e)
        end
    | _, _ => (vs, Ok tt)
    end.
  (** 104-129: the callback, for n arguments of which the first has [rows] rows and a model with nv trainable variables *)
  Definition tf_backprop (n rows nv : nat) (gradients : option (list (arr T))) : option (list (arr T)) * result (list (option (arr T))) :=
    match n with
    | O => (gradients, Err IndexError)
    | _ =>
        let inputs := if Nat.eqb n 1 then [WArg 0] else map WRow (seq 0 rows) in
        let all := map tape_gradient (inputs ++ map WVar (seq 0 nv)) in
        let dX := firstn n all in
        let opt_grads := skipn 1 all in
        match gradients with
        | Some vs =>
            if Nat.eqb (length opt_grads) (length vs) then
              match accumulate vs opt_grads with (vs, Ok _) => (Some vs, Ok dX) | (vs, Err e) => (Some vs, Err e) end
            else (gradients, Err AssertionError)
        | None => match mapM new_variable opt_grads with Ok vs => (Some vs, Ok dX) | Err e => (None, Err e) end
        end
    end.

  (** 133-163 [finish_update]. The optimizer gets and gives back flat arrays, and keeps a state *)
  Context {S : Type}.
  Variable optimizer : list T -> list T -> S -> S * result (list T * list T).
  Fixpoint split_back (flat : list T) (shapes : list (list nat)) : result (list (arr T)) :=
    match shapes with
    | [] => Ok []
    | sh :: shapes => let* a := reshape (firstn (count sh) flat) sh in let* l := split_back (skipn (count sh) flat) shapes in Ok (a :: l)
    end.
  (** Assigning to the trainable variables in order *)
  Fixpoint assign_layer (l : list (weight T)) (vs : list (arr T)) : list (weight T) * list (arr T) :=
    match l with
    | [] => ([], vs)
    | w :: l => if w_trainable w then match vs with
                                      | v :: vs => let (l, vs) := assign_layer l vs in (mkWeight (w_name w) true v :: l, vs)
                                      | [] => (w :: l, [])
                                      end
                else let (l, vs) := assign_layer l vs in (w :: l, vs)
    end.
  Fixpoint assign_all (m : keras T) (vs : list (arr T)) : keras T :=
    match m with
    | [] => []
    | l :: m => let (l, vs) := assign_layer l vs in l :: assign_all m vs
    end.
  (** The model is present; if an optimizer gave back another number of values the assignments before the first that fails would stay:
      that is left out, the result is the error *)
  Definition tf_finish_update (m : keras T) (gradients : option (list (arr T))) (s : S) : S * result (keras T * option (list (arr T))) :=
    match gradients with
    | None => (s, Err ValueError)
    | Some gs =>
        let vars := trainable m in
        if negb (Nat.eqb (length gs) (length vars)) then (s, Err AssertionError)
        else match vars with
             | [] => (s, Err IndexError)
             | _ :: _ =>
                 let (s, r) := optimizer (concat (map (fun w => a_data (w_value w)) vars)) (concat (map a_data gs)) s in
                 (s, let* (flat, _) := r in let* vs := split_back flat (map (fun w => a_shape (w_value w)) vars) in Ok (assign_all m vs, None))
             end
    end.

  (** 176-183: weights by name; later ones win *)
  Definition state_dict (m : keras T) : list (string * arr T) := rev (map (fun w => (w_name w, w_value w)) (concat m)).
  Definition lookup_name (d : list (string * arr T)) (n : string) : result (arr T) :=
    match find (fun p => String.eqb (fst p) n) d with Some (_, a) => Ok a | None => Err KeyError end.
  (** [layer.set_weights]: as many arrays as weights, of their shapes *)
  Definition set_weight (w : weight T) (a : arr T) : result (weight T) :=
    if list_eq_dec Nat.eq_dec (a_shape (w_value w)) (a_shape a) then Ok (mkWeight (w_name w) (w_trainable w) a) else Err ValueError.
  Definition load_layer (d : list (string * arr T)) (l : list (weight T)) : result (list (weight T)) :=
    let* l' := mapM (fun w => let* a := lookup_name d (w_name w) in Ok (w, a)) l in mapM (fun p => set_weight (fst p) (snd p)) l'.
  (** 164-174: layer by layer; those before one that raises stay loaded *)
  Fixpoint load_weights (d : list (string * arr T)) (m : keras T) : keras T * result unit :=
    match m with
    | [] => ([], Ok tt)
    | l :: m => match load_layer d l with
                | Ok l' => let (m', r) := load_weights d m in (l' :: m', r)
                | Err e => (l :: m, Err e)
                end
    end.

  (** 185-204 [use_params]: keys of the parameters are strings or pairs of a number and a name. [body]: what happens in the block *)
  Inductive pkey := KStr (s : string) | KPair (i : nat) (s : string).
  (** [k.startswith(p)], and the rest. [k.replace(p, "")] also removes later occurrences of p, which names of weights are assumed not to have *)
  Fixpoint strip (p k : string) : option string :=
    match p, k with
    | EmptyString, _ => Some k
    | String a p, String b k => if Ascii.eqb a b then strip p k else None
    | String _ _, EmptyString => None
    end.
  Definition own_params (prefix : string) (params : list (pkey * arr T)) : list (string * arr T) :=
    concat (map (fun p => match fst p with KStr k => match strip prefix k with Some n => [(n, snd p)] | None => [] end | KPair _ _ => [] end) params).
  Definition use_params {X} (prefix : string) (params : list (pkey * arr T)) (body : keras T -> keras T * result X) (m : keras T) : keras T * result X :=
    match own_params prefix params with
    | [] => body m
    | d =>
        let backup := state_dict m in
        match load_weights (rev d) m with
        | (m, Err e) => (m, Err e)
        | (m, Ok _) =>
            match body m with
            | (m, Err e) => (m, Err e)
            | (m, Ok x) => match load_weights backup m with (m, Ok _) => (m, Ok x) | (m, Err e) => (m, Err e) end
            end
        end
    end.

  (** 206-214 [_clone_model] and 216-223 [copy]: [from_json] gives new weights to a model of the same configuration *)
  Variable from_json : keras T -> keras T.
  Definition tf_clone (m : keras T) : keras T * result unit := let m := from_json m in load_weights (state_dict m) m.
  (** The shim itself, and its copy *)
  Definition tf_copy (sh : tf_shim) : tf_shim * result tf_shim :=
    match t_model sh with
    | None => (sh, Err AttributeError)
    | Some m =>
        let sh := mkTf None (t_gradients sh) in
        let m := from_json m in
        match load_weights (state_dict m) m with
        | (m, Ok _) => (sh, Ok (mkTf (Some m) (t_gradients sh)))
        | (_, Err e) => (sh, Err e)
        end
    end.
  (** 86-97: calling a model that is not there *)
  Definition tf_call {X} (sh : tf_shim) (f : keras T -> result X) : result X := match t_model sh with None => Err TypeError | Some m => f m end.
  (** 266-277: [from_bytes] for the weights of a subclassed model: the new model goes to another attribute *)
  Definition tf_from_weights (sh : tf_shim) (ws : list (arr T)) : tf_shim * result unit :=
    match t_model sh with
    | None => (sh, Err AttributeError)
    | Some m =>
        if Nat.eqb (length ws) (length (concat m)) then
          match mapM (fun p => set_weight (fst p) (snd p)) (combine (concat m) ws) with
          | Ok l => (mkTf (Some ((fix regroup (m : keras T) (l : list (weight T)) := match m with [] => [] | x :: m => firstn (length x) l :: regroup m (skipn (length x) l) end) m l)) (t_gradients sh), Ok tt)
          | Err e => (sh, Err e)
          end
        else (sh, Err ValueError)
    end.

  (** ** layers/tensorflowwrapper.py 114-137 [forward]: the callback of a prediction names a variable that is not bound *)
  Definition tf_forward {X Y D} (begin_update : X -> result (Y * (D -> result X))) (predict : X -> result Y) (is_train : bool) (x : X) : result (Y * (D -> result X)) :=
    if is_train then begin_update x else let* y := predict x in Ok (y, fun _ => Err NameError).

  (** ** shims/mxnet.py 62-86 [finish_update]: parameters with their gradients, which are set to zero *)
  Definition mx_finish_update (params : list (weight T * arr T)) (s : S) : S * result (list (weight T * arr T)) :=
    match params with
    | [] => (s, Ok [])
    | _ :: _ =>
        let (s, r) := optimizer (concat (map (fun p => a_data (w_value (fst p))) params)) (concat (map (fun p => a_data (snd p)) params)) s in
        (s, let* (flat, _) := r in
            let* vs := split_back flat (map (fun p => a_shape (w_value (fst p))) params) in
            Ok (map (fun q => (mkWeight (w_name (fst (fst q))) (w_trainable (fst (fst q))) (snd q), mkArr (a_shape (snd (fst q))) (map (fun _ => nZ 0) (a_data (snd (fst q)))))) (combine params vs)))
    end.
End Foreign.
Arguments tf_shim : clear implicits.

(** shims/mxnet.py: the framework's global flags *)
Record mx_flags := mkMx { m_training : bool; m_recording : bool }.
(** 33-43 [predict]: while the block runs nothing is recorded *)
Definition mx_predict {Y} (block : mx_flags -> result Y) (f : mx_flags) : mx_flags * result Y :=
  match block (mkMx false false) with
  | Ok y => (mkMx true (m_recording f), Ok y)
  | Err e => (mkMx false (m_recording f), Err e)
  end.
(** 45-60 [begin_update] and its callback *)
Definition mx_begin_update {Y D X} (block : mx_flags -> result Y) (backward : D -> result X) (f : mx_flags) : mx_flags * result (Y * (D -> mx_flags -> mx_flags * result X)) :=
  let f := mkMx true true in
  (f, let* y := block f in Ok (y, fun d f => (mkMx (m_training f) false, backward d))).
(** 88-103: what the attribute [_model] of a shim holds: a block, or by [to_device] another shim *)
Inductive mx_model (B : Type) := Block (b : B) | AShim (s : mx_model B).
Arguments Block {B}. Arguments AShim {B}.
(** [copy] of a shim of a block: the shim of a copied block *)
Definition mx_copy {B} (copy_block : B -> B) (m : mx_model B) : result (mx_model B) := match m with Block b => Ok (Block (copy_block b)) | AShim _ => Err AttributeError end.
Definition mx_to_device {B} (copy_block : B -> B) (device : string) (m : mx_model B) : mx_model B * result unit :=
  if (String.eqb device "cpu" || String.eqb device "gpu")%bool then match mx_copy copy_block m with Ok c => (AShim c, Ok tt) | Err e => (m, Err e) end
  else (m, Err ValueError).
(** Methods of blocks, like [collect_params] in [finish_update] *)
Definition mx_block {B} (m : mx_model B) : result B := match m with Block b => Ok b | AShim _ => Err AttributeError end.
