(** Keras and MXNet models: how they are built, saved and loaded. thinc/layers/tensorflowwrapper.py 26-114, shims/tensorflow.py 21-60 and 233-277,
    layers/mxnetwrapper.py 10-48, shims/mxnet.py 104-123 and util.py 595-600 (the gradients and copies of these shims are in ForeignModel). No proofs here.
    TensorFlow, h5py and MXNet are outside: what their functions do are parameters. Attributes of Keras models are those of their class;
    inheritance between decorated classes and the device contexts of TensorFlow are left out. *)
From Coq Require Import String.
From Verif Require Export NodeModel.
Local Open Scope string_scope.

(** A function that was given or is a default *)
Inductive given := ByDefault | ByUser (i : nat).
(** A layer of the wrappers: its attributes [convert_inputs] and [convert_outputs], and what its shim holds *)
Record layer (M : Type) := mkLayer { l_name : string; l_inputs : given; l_outputs : given; l_model : M; l_optimizer : option nat; l_dims : list string }.
Arguments mkLayer {M}. Arguments l_model {M}. Arguments l_name {M}. Arguments l_optimizer {M}. Arguments l_inputs {M}. Arguments l_outputs {M}. Arguments l_dims {M}.

Section Keras.
  (** [V]: example data and shapes; [A]: arguments of constructors; [W]: lists of weights; [B]: bytes *)
  Context {V A W B M : Type}.
  Record kclass := mkKc { kc_name : option string; kc_shape : option V; kc_compile : option (dict string string); kc_x : option V; kc_y : option V; kc_inits : nat }.
  (** Classes, and the registry [keras_model_fns] *)
  Record kstate := mkKs { k_classes : list kclass; k_registry : dict string nat }.
  (** An instance: of a class, TensorFlow's side, and [eg_args] *)
  Record kinst := mkKi { ki_class : nat; ki_model : M; ki_args : option A }.
  Inductive kcall := KCompile (args : dict string string) | KBuild (shape : V) | KPredict (x : V) | KTrain.

  (** The constructor of a class as it was written, whether arguments can be written as JSON, and the methods of Keras *)
  Variable init : nat -> A -> result M.
  Variable json_ok : A -> bool.
  Variable get_config : kinst -> result unit.
  Variable call : kcall -> M -> M * result unit.
  Variable save_h5 : kinst -> result B.
  Variable load_h5 : B -> result kinst.
  Variable get_weights : M -> W.
  Variable set_weights : M -> W -> M * result unit.
  Variable no_args : A.

  (** layers/tensorflowwrapper.py 46-50: [{**compile_defaults, **compile_args}] *)
  Definition compile_defaults : dict string string := [("optimizer", "adam"); ("loss", "mse")].
  Definition compile_with (args : option (dict string string)) : dict string string :=
    match args with None => compile_defaults | Some a => fold_left (fun d p => dset (fst p) (snd p) d) a compile_defaults end.
  Fixpoint set_class (l : list kclass) (i : nat) (c : kclass) : list kclass :=
    match l, i with [], _ => [] | _ :: l, 0 => c :: l | x :: l, S i => x :: set_class l i c end.
  (** 26-85 [keras_subclass], as it changes the class *)
  Definition keras_subclass (name : string) (X Y shape : V) (args : option (dict string string)) (c : nat) (s : kstate) : kstate :=
    match nth_error (k_classes s) c with
    | None => s
    | Some k => mkKs (set_class (k_classes s) c (mkKc (Some name) (Some shape) (Some (compile_with args)) (Some X) (Some Y) (S (kc_inits k)))) (dset name c (k_registry s))
    end.
  (** 65-81: each decoration wraps the constructor once more; all of them write [eg_args] *)
  Fixpoint wrapped_init (n c : nat) (args : A) : result (M * option A) :=
    match n with
    | 0 => let* m := init c args in Ok (m, None)
    | S n => let* (m, _) := wrapped_init n c args in if json_ok args then Ok (m, Some args) else Err ValueError
    end.
  Definition construct (s : kstate) (c : nat) (args : A) : result kinst :=
    match nth_error (k_classes s) c with
    | None => Err MemFault
    | Some k => let* (m, a) := wrapped_init (kc_inits k) c args in Ok (mkKi c m a)
    end.
  (** 60-62 [create_component], found in the registry (whose error is a ValueError) *)
  Definition create (s : kstate) (name : string) (args : A) : result kinst :=
    match dget name (k_registry s) with None => Err ValueError | Some c => construct s c args end.

  Fixpoint do_calls (l : list kcall) (m : M) : M * result unit :=
    match l with
    | [] => (m, Ok tt)
    | c :: l => match call c m with (m, Ok _) => do_calls l m | (m, Err e) => (m, Err e) end
    end.
  (** shims/tensorflow.py 21-60 [maybe_handshake_model] *)
  Definition handshake (s : kstate) (i : kinst) : kinst * result unit :=
    let subclassed :=
      match nth_error (k_classes s) (ki_class i) with
      | None => (i, Err MemFault)
      | Some k =>
          match kc_name k, kc_x k, kc_y k, kc_shape k with
          | Some _, Some x, Some _, Some shape =>
              match kc_compile k with
              | None => (i, Err AttributeError)
              | Some args => let (m, r) := do_calls [KCompile args; KBuild shape; KPredict x; KTrain] (ki_model i) in (mkKi (ki_class i) m (ki_args i), r)
              end
          | _, _, _, _ => (i, Err ValueError)
          end
      end in
    match get_config i with
    | Ok _ => (i, Ok tt)
    | Err AttributeError => subclassed
    | Err NotImplementedError => subclassed
    | Err e => (i, Err e)
    end.
  (** layers/tensorflowwrapper.py 88-114 [TensorFlowWrapper]: [model] is None if it is no Keras model. The model is changed even if this raises. *)
  Definition tensorflow_layer (installed : bool) (s : kstate) (model : option kinst) (ci co : option given) (optimizer : option nat) (name : option string)
      : option kinst * result (layer kinst) :=
    if negb installed then (model, Err ImportError) else
    match model with
    | None => (model, Err ValueError)
    | Some i =>
        match handshake s i with
        | (i, Err e) => (Some i, Err e)
        | (i, Ok _) => (Some i, Ok (mkLayer match name with Some n => n | None => "tensorflow" end match ci with Some f => f | None => ByDefault end
                                     match co with Some f => f | None => ByDefault end i optimizer []))
        end
    end.

  (** shims/tensorflow.py 233-247 [to_bytes] *)
  Inductive tf_data := H5 (b : B) | ByName (name : string) (w : W).
  Definition tf_to_bytes (s : kstate) (model : option kinst) : result tf_data :=
    match model with
    | None => Err AttributeError
    | Some i =>
        match save_h5 i with
        | Ok b => Ok (H5 b)
        | Err NotImplementedError =>
            match nth_error (k_classes s) (ki_class i) with
            | None => Err MemFault
            | Some k => match kc_name k with
                        | None => Err ValueError
                        | Some n => if dmem n (k_registry s) then Ok (ByName n (get_weights (ki_model i))) else Err ValueError
                        end
            end
        | Err e => Err e
        end
    end.
  (** 249-277 [from_bytes]: a new model is kept in another attribute ([_model_initialized]) than the one that is used next; the arguments for the
      constructor are looked for on the model that is not there *)
  Definition tf_from_bytes (s : kstate) (model : option kinst) (data : tf_data) : option kinst * result unit :=
    match data with
    | H5 b => match load_h5 b with Ok i => (Some i, Ok tt) | Err e => (model, Err e) end
    | ByName n w =>
        match model with
        | None =>
            match create s n no_args with
            | Err e => (None, Err e)
            | Ok i => match handshake s i with (_, Err e) => (None, Err e) | (_, Ok _) => (None, Err AttributeError) end
            end
        | Some i => let (m, r) := set_weights (ki_model i) w in (Some (mkKi (ki_class i) m (ki_args i)), r)
        end
    end.
End Keras.

Section Mxnet.
  (** [M]: blocks *)
  Context {M : Type}.
  Definition bytes := list Z.
  Definition fs := dict string bytes.
  Variable bufsize : nat.
  Variable fresh : fs -> string.
  Variable save_parameters : M -> result bytes.
  Variable load_parameters : M -> bytes -> M * result unit.
  (** layers/mxnetwrapper.py 10-48 *)
  Definition mxnet_layer (model : M) (ci co : option given) (name : option string) : layer M :=
    mkLayer match name with Some n => n | None => "mxnet" end match ci with Some f => f | None => ByDefault end match co with Some f => f | None => ByDefault end model None [].
  Record mx_msg := mkMx { mx_config : dict string string; mx_state : bytes }.
  Record mx_shim := mkMxs { mxs_cfg : dict string string; mxs_model : M }.
  (** util.py 595-600 [make_tempfile]: closed and removed only if nothing raised. What is written to a file object stays in its buffer as long as it fits. *)
  Definition written (f : fs) (name : string) (data : bytes) : fs := if Nat.leb (length data) bufsize then f else dset name data f.
  (** shims/mxnet.py 104-111 [to_bytes]: the block writes under the name of the file *)
  Definition mx_to_bytes (sh : mx_shim) (f : fs) : fs * result mx_msg :=
    let name := fresh f in
    let f := dset name [] f in
    match save_parameters (mxs_model sh) with
    | Err e => (f, Err e)
    | Ok data => let f := dset name data f in
                 (ddel name f, match dget name f with Some d => Ok (mkMx (mxs_cfg sh) d) | None => Err MemFault end)
    end.
  (** 113-123 [from_bytes], [_load_params]: the block reads under the name of the file, before the buffer is flushed *)
  Definition mx_from_bytes (sh : mx_shim) (msg : mx_msg) (f : fs) : mx_shim * fs * result unit :=
    let name := fresh f in
    let f := written (dset name [] f) name (mx_state msg) in
    match dget name f with
    | None => (sh, f, Err MemFault)
    | Some data =>
        match load_parameters (mxs_model sh) data with
        | (m, Err e) => (mkMxs (mx_config msg) m, f, Err e)
        | (m, Ok _) => (mkMxs (mx_config msg) m, ddel name f, Ok tt)
        end
    end.
End Mxnet.
