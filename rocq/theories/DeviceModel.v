(** Choosing backends, devices and frameworks: thinc/compat.py, thinc/util.py, thinc/backends/__init__.py and Model.to_gpu,
    Model.to_cpu (thinc/model.py). No proofs here.
    CuPy, PyTorch and TensorFlow are outside; what they report is in [machine]. *)
From Coq Require Import String ZArith List Bool.
From Verif Require Export CtxModel.
Import ListNotations.
Open Scope string_scope.

(** What is installed. [k_cupy] is [None] without CuPy, [Some None] if [getDeviceCount] raises and otherwise the number of
    devices; [k_torch] has the number of CUDA devices PyTorch counts, and whether MPS is built and available. *)
Record machine := mkMachine {
  k_darwin : bool;
  k_bigendian : bool;
  k_cupy : option (option nat);
  k_torch : option (nat * bool * bool)
}.

(** thinc/compat.py 6-32 *)
Definition has_cupy (k : machine) : bool := match k_cupy k with Some _ => true | None => false end.
Definition has_cupy_gpu (k : machine) : bool := match k_cupy k with Some (Some _) => true | _ => false end.
(** thinc/compat.py 35-57. [is_available] is only asked if MPS is built. *)
Definition has_torch (k : machine) : bool := match k_torch k with Some _ => true | None => false end.
Definition has_torch_cuda_gpu (k : machine) : bool := match k_torch k with Some (n, _, _) => negb (Nat.eqb n 0) | None => false end.
Definition has_torch_mps (k : machine) : bool := match k_torch k with Some (_, built, _) => built | None => false end.
Definition has_torch_mps_gpu (k : machine) : bool := match k_torch k with Some (_, built, available) => built && available | None => false end.
(** thinc/compat.py 126 *)
Definition has_gpu (k : machine) : bool := has_cupy_gpu k || has_torch_mps_gpu k.

(** The backend classes, as numbers (CtxModel.v). An instance is determined by its class, for each constructor is called
    without arguments. *)
Definition numpy_ops : nat := 0.
Definition apple_ops : nat := 1.
Definition bigendian_ops : nat := 2.
Definition cupy_ops : nat := 3.
Definition mps_ops : nat := 4.

(** The attributes [device_type] and [device_id] their constructors set: thinc/backends/ops.py 64-68, numpy_ops.pyx 42-50,
    cupy_ops.py 26-30; MPSOps and AppleOps inherit NumpyOps. *)
Definition device_type (o : nat) : string := if Nat.eqb o cupy_ops then "gpu" else "cpu".
Definition device_id (o : nat) : Z := if Nat.eqb o cupy_ops then 0%Z else (-1)%Z.

(** registry.ops: the classes registered on import; AppleOps only on macOS (apple_ops.py), BigEndianOps if its package is
    installed. *)
Definition registered (k : machine) : dict string nat :=
  ([("numpy", numpy_ops); ("cupy", cupy_ops); ("mps", mps_ops)] ++
   (if k_darwin k then [("apple", apple_ops)] else []) ++ (if k_bigendian k then [("bigendian", bigendian_ops)] else []))%list.

(** A memory pool: its identity and the allocator it was made with. *)
Record pool := mkPool { p_id : nat; p_allocator : string }.

(** The state of a thread and of the frameworks: the context, the current devices of CuPy and PyTorch, the dictionary
    that is the default of [context_pools], the number of pools ever made, and the allocator CuPy uses. *)
Record sys := mkSys {
  y_ctx : ctx;
  y_cupy : nat;
  y_torch : nat;
  y_pools : dict string pool;
  y_made : nat;
  y_malloc : option pool
}.
Definition with_ctx (s : sys) (c : ctx) : sys := mkSys c (y_cupy s) (y_torch s) (y_pools s) (y_made s) (y_malloc s).
Definition with_cupy (s : sys) (d : nat) : sys := mkSys (y_ctx s) d (y_torch s) (y_pools s) (y_made s) (y_malloc s).
Definition with_torch (s : sys) (d : nat) : sys := mkSys (y_ctx s) (y_cupy s) d (y_pools s) (y_made s) (y_malloc s).
Definition with_pools (s : sys) (p : dict string pool) (n : nat) : sys := mkSys (y_ctx s) (y_cupy s) (y_torch s) p n (y_malloc s).
Definition with_malloc (s : sys) (p : pool) : sys := mkSys (y_ctx s) (y_cupy s) (y_torch s) (y_pools s) (y_made s) (Some p).

(** A device number CUDA accepts, of [n] devices. *)
Definition valid_id (n : nat) (id : Z) : bool := ((0 <=? id) && (id <? Z.of_nat n))%Z.

Section Device.
  Variable k : machine.

  (** thinc/util.py 189-202 [set_active_gpu]. [Device(id).use()] and [torch.cuda.set_device(id)] raise on a device that is
      not there; the second ignores negative numbers, but those have failed before. *)
  Definition set_active_gpu (s : sys) (id : Z) : sys * result unit :=
    match k_cupy k with
    | Some (Some n) =>
      if negb (valid_id n id) then (s, Err RuntimeError) else
      let s := with_cupy s (Z.to_nat id) in
      if has_torch_cuda_gpu k then
        match k_torch k with
        | Some (m, _, _) => if valid_id m id then (with_torch s (Z.to_nat id), Ok tt) else (s, Err RuntimeError)
        | None => (s, Err AttributeError)
        end
      else (s, Ok tt)
    | _ => (s, Err ValueError)
    end.

  (** thinc/util.py 205-212 [require_cpu] *)
  Definition require_cpu (s : sys) : sys * result bool :=
    match get_ops (registered k) "cpu" with
    | Err e => (s, Err e)
    | Ok o => (with_ctx s (set_current_ops (y_ctx s) o), Ok true)
    end.

  (** thinc/util.py 222-239 [require_gpu] *)
  Definition require_gpu (s : sys) (id : Z) : sys * result bool :=
    if k_darwin k && negb (has_torch_mps k) then (s, Err ValueError)
    else if negb (k_darwin k) && negb (has_cupy k) then (s, Err ValueError)
    else if negb (has_gpu k) then (s, Err ValueError)
    else if has_cupy_gpu k then
      let s := with_ctx s (set_current_ops (y_ctx s) cupy_ops) in
      match set_active_gpu s id with (s, Err e) => (s, Err e) | (s, Ok _) => (s, Ok true) end
    else (with_ctx s (set_current_ops (y_ctx s) mps_ops), Ok true).

  (** thinc/util.py 215-219 [prefer_gpu] *)
  Definition prefer_gpu (s : sys) (id : Z) : sys * result bool :=
    if has_gpu k then match require_gpu s id with (s, Err e) => (s, Err e) | (s, Ok _) => (s, Ok (has_gpu k)) end
    else (s, Ok (has_gpu k)).

  (** A [torch.device]. *)
  Inductive torch_device := TCpu | TMps | TCuda (id : nat).
  (** thinc/util.py 62-77 [get_torch_default_device]. [torch.cuda.current_device()] raises if PyTorch has no CUDA device. *)
  Definition get_torch_default_device (s : sys) : sys * result torch_device :=
    match k_torch k with
    | None => (s, Err ValueError)
    | Some (n, _, _) =>
      match get_current_ops (registered k) (y_ctx s) with
      | (c, Err e) => (with_ctx s c, Err e)
      | (c, Ok o) =>
        let s := with_ctx s c in
        if Nat.eqb o cupy_ops then (if Nat.eqb n 0 then (s, Err RuntimeError) else (s, Ok (TCuda (y_torch s))))
        else if Nat.eqb o mps_ops then (s, Ok TMps)
        else (s, Ok TCpu)
      end
    end.

  (** thinc/backends/__init__.py 68-71, 86-89: the pool of that name, made on first use, becomes CuPy's allocator.
      [cupy] is None if it is not installed. *)
  Definition route (s : sys) (name : string) : sys * result unit :=
    if negb (has_cupy k) then (s, Err AttributeError) else
    let s := if dmem name (y_pools s) then s
             else with_pools s (dset name (mkPool (y_made s) name) (y_pools s)) (S (y_made s)) in
    match dget name (y_pools s) with
    | None => (s, Err KeyError)
    | Some p => (with_malloc s p, Ok tt)
    end.
  (** thinc/backends/__init__.py 53-71 [use_pytorch_for_gpu_memory] *)
  Definition use_pytorch_for_gpu_memory (s : sys) : sys * result unit :=
    if negb (has_torch k) then (s, Err ImportError) else
    match get_torch_default_device s with
    | (s, Err e) => (s, Err e)
    | (s, Ok (TCuda _)) => route s "pytorch"
    | (s, Ok _) => (s, Ok tt)
    end.
  (** thinc/backends/__init__.py 74-89 [use_tensorflow_for_gpu_memory]; [tf] is util's [has_tensorflow] *)
  Definition use_tensorflow_for_gpu_memory (tf : bool) (s : sys) : sys * result unit :=
    if negb tf then (s, Err ImportError) else route s "tensorflow".
  (** thinc/backends/__init__.py 38-50 [set_gpu_allocator] *)
  Definition set_gpu_allocator (tf : bool) (s : sys) (allocator : string) : sys * result unit :=
    if String.eqb allocator "pytorch" then use_pytorch_for_gpu_memory s
    else if String.eqb allocator "tensorflow" then use_tensorflow_for_gpu_memory tf s
    else (s, Err ValueError).

  (** thinc/backends/__init__.py 151-156 [contextvars_eq_thread_ops]: compares classes; [type(None)] is the class of None *)
  Definition contextvars_eq_thread_ops (s : sys) : bool :=
    match x_ops (y_ctx s), x_thread (y_ctx s) with
    | Some a, Some b => Nat.eqb a b
    | None, None => true
    | _, _ => false
    end.
End Device.

(** Objects that may be arrays, and whether they are on a GPU. A PyTorch tensor is on the CPU, a CUDA or an MPS device. *)
Inductive obj_kind :=
| NumpyArray | CupyArray | TorchTensor (d : torch_device) | TfTensor (gpu : bool) | MxArray (gpu : bool) | PyObject.

(** thinc/util.py 80-90, 111-180: the tests. An object of a framework only exists if that framework is installed, which is
    why a test for [torch] need not be modelled; but [has_tensorflow] and [has_mxnet] are copies (below), so they are parameters. *)
Section Kinds.
  Variables (tf mx : bool).
  Definition is_numpy_array (x : obj_kind) : bool := match x with NumpyArray => true | _ => false end.
  Definition is_cupy_array (x : obj_kind) : bool := match x with CupyArray => true | _ => false end.
  Definition is_xp_array (x : obj_kind) : bool := is_numpy_array x || is_cupy_array x.
  Definition is_torch_array (x : obj_kind) : bool := match x with TorchTensor _ => true | _ => false end.
  Definition is_torch_cuda_array (x : obj_kind) : bool := match x with TorchTensor (TCuda _) => true | _ => false end.
  Definition is_torch_mps_array (x : obj_kind) : bool := match x with TorchTensor TMps => true | _ => false end.
  Definition is_torch_gpu_array (x : obj_kind) : bool := is_torch_cuda_array x || is_torch_mps_array x.
  Definition is_tensorflow_array (x : obj_kind) : bool := tf && match x with TfTensor _ => true | _ => false end.
  Definition is_tensorflow_gpu_array (x : obj_kind) : bool := is_tensorflow_array x && match x with TfTensor gpu => gpu | _ => false end.
  Definition is_mxnet_array (x : obj_kind) : bool := mx && match x with MxArray _ => true | _ => false end.
  Definition is_mxnet_gpu_array (x : obj_kind) : bool := is_mxnet_array x && match x with MxArray gpu => gpu | _ => false end.
  (** 80-90 [get_array_module]: numpy or cupy *)
  Definition get_array_module (x : obj_kind) : result string :=
    if is_numpy_array x then Ok "numpy" else if is_cupy_array x then Ok "cupy" else Err ValueError.
End Kinds.
(** thinc/backends/__init__.py 119-124 [get_array_ops] *)
Definition get_array_ops (x : obj_kind) : nat := if is_cupy_array x then cupy_ops else numpy_ops.

(** Names of modules: thinc/compat.py 60-96 has [has_tensorflow] and [has_mxnet], and thinc/util.py 35-50 copies their values
    when it is first imported. [m_util] is None before that. *)
Record modules := mkModules { m_tf : bool; m_mx : bool; m_util : option (bool * bool) }.
Definition modules0 : modules := mkModules false false None.
Inductive mod_op :=
| EnableTensorflow                     (* thinc.compat.enable_tensorflow() *)
| EnableMxnet                          (* thinc.compat.enable_mxnet() *)
| ImportUtil                           (* import thinc.util, or any module that imports it, such as thinc.api *)
| CallUtil.                            (* a function of thinc.util *)
Definition mod_step (m : modules) (o : mod_op) : modules :=
  match o with
  | EnableTensorflow => mkModules true (m_mx m) (m_util m)
  | EnableMxnet => mkModules (m_tf m) true (m_util m)
  | ImportUtil => match m_util m with
                  | None => mkModules (m_tf m) (m_mx m) (Some (m_tf m, m_mx m))
                  | Some _ => m
                  end
  | CallUtil => m
  end.
Definition mod_run (ops : list mod_op) : modules := fold_left mod_step ops modules0.
(** thinc/util.py 321-333 [assert_tensorflow_installed], [assert_mxnet_installed] *)
Definition assert_tensorflow_installed (m : modules) : result unit :=
  match m_util m with Some (tf, _) => if tf then Ok tt else Err ImportError | None => Err AttributeError end.
Definition assert_mxnet_installed (m : modules) : result unit :=
  match m_util m with Some (_, mx) => if mx then Ok tt else Err ImportError | None => Err AttributeError end.

(** Where an array or a module of another framework is. *)
Inductive place := Host | Gpu (id : nat).

(** Parameters and gradients: where, and the values (float32). *)
Definition arr (X : Type) : Type := (place * X)%type.

(** A shim: whether [to_device] is implemented as for PyTorch, and where its model is. *)
Record shim_obj := mkShim { sh_torch : bool; sh_place : place }.

Section ToOps.
  Context {X A : Type}.
  Variable k : machine.
  (** [cupy.asarray] of a GPU array, given the current device: whether it is copied there is CuPy's decision *)
  Variable cupy_asarray : nat -> nat -> nat.

  (** thinc/backends/numpy_ops.pyx 55-69 and cupy_ops.py 86-102 [asarray], for arrays of type float32; [current] is CuPy's
      current device *)
  Definition asarray_f (o : nat) (current : nat) (a : arr X) : arr X :=
    if Nat.eqb o cupy_ops then
      match fst a with Gpu d => (Gpu (cupy_asarray current d), snd a) | Host => (Gpu current, snd a) end
    else (Host, snd a).

  (** thinc/shims/pytorch.py 197-204, thinc/shims/shim.py 55-56 [to_device]. [cuda(id)] raises if there is no such device. *)
  Definition shim_to_device (sh : shim_obj) (ty : string) (id : Z) : result shim_obj :=
    if negb (sh_torch sh) then Err NotImplementedError
    else if String.eqb ty "cpu" then Ok (mkShim (sh_torch sh) Host)
    else if String.eqb ty "gpu" then
      match k_torch k with
      | Some (n, _, _) => if valid_id n id then Ok (mkShim (sh_torch sh) (Gpu (Z.to_nat id))) else Err RuntimeError
      | None => Err RuntimeError
      end
    else Err ValueError.

  (** The nodes, the attribute [ops] of each, and the shims. *)
  Record world := mkWorld { w_nodes : heap (arr X) A; w_ops : list nat; w_shims : list shim_obj }.

  (** thinc/model.py 542-546: the parameters and gradients of a node *)
  Definition move_param (o current : nat) (n : node (arr X) A) (name : string) : result (node (arr X) A) :=
    let* n := match has_param n name with
              | Some true => let* v := get_param n name in Ok (set_param n name (Some (asarray_f o current v)))
              | _ => Ok n
              end in
    if has_grad n name then let* g := get_grad n name in Ok (set_grad n name (asarray_f o current g)) else Ok n.
  Fixpoint move_params (o current : nat) (n : node (arr X) A) (names : list string) : result (node (arr X) A) :=
    match names with
    | [] => Ok n
    | name :: names => let* n := move_param o current n name in move_params o current n names
    end.
  (** thinc/model.py 547-548: the shims of a node, up to the first that raises *)
  Fixpoint move_shims (o : nat) (shims : list shim_obj) (l : list addr) : list shim_obj * result unit :=
    match l with
    | [] => (shims, Ok tt)
    | a :: l =>
      match nth_error shims a with
      | None => (shims, Err IndexError)
      | Some sh => match shim_to_device sh (device_type o) (device_id o) with
                   | Err e => (shims, Err e)
                   | Ok sh => move_shims o (set_nth a sh shims) l
                   end
      end
    end.
  (** thinc/model.py 538-548 [_to_ops]: the nodes of [walk] in turn *)
  Fixpoint to_ops_loop (o current : nat) (w : world) (l : list addr) : world * result unit :=
    match l with
    | [] => (w, Ok tt)
    | a :: l =>
      match nth_error (w_nodes w) a with
      | None => (w, Err IndexError)
      | Some n =>
        let w := mkWorld (w_nodes w) (set_nth a o (w_ops w)) (w_shims w) in
        match move_params o current n (param_names n) with
        | Err e => (w, Err e)
        | Ok n =>
          let '(shims, r) := move_shims o (w_shims w) (n_shims n) in
          let w := mkWorld (set_nth a n (w_nodes w)) (w_ops w) shims in
          match r with Err e => (w, Err e) | Ok _ => to_ops_loop o current w l end
        end
      end
    end.
  Definition to_ops (o current : nat) (w : world) (root : addr) : world * result unit :=
    to_ops_loop o current w (walk (graph_of (w_nodes w)) Bfs root).
  (** thinc/model.py 527-532 [to_gpu]: without CuPy the import fails; inside the block the device is current *)
  Definition to_gpu (w : world) (root : addr) (id : Z) : world * result unit :=
    match k_cupy k with
    | None => (w, Err ImportError)
    | Some n => if valid_id (match n with Some n => n | None => 0 end) id then to_ops cupy_ops (Z.to_nat id) w root else (w, Err RuntimeError)
    end.
  (** thinc/model.py 534-536 [to_cpu] *)
  Definition to_cpu (w : world) (root : addr) : world * result unit := to_ops numpy_ops 0 w root.
End ToOps.
