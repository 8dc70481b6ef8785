(** Small pieces of code between the other parts: the allocators that take memory from PyTorch and TensorFlow, the lazily
    compiled kernels, the registry of registries, SparseLinear on a GPU, PyTorchLSTM, [get_gradients], the conversions of arrays
    to and from other frameworks, [logloss] and the calls of the losses. No proofs here. *)
From Coq Require Import String.
From Verif Require Export NodeModel DeviceModel SparseModel ActModel LossModel.
Local Open Scope string_scope.
Local Open Scope list_scope.

(** ** backends/_cupy_allocators.py 8-22 and 25-46: the bytes declared to CuPy and the bytes of the float32 tensor behind them *)
Definition declared_bytes (size_in_bytes : Z) : Z := Z.max 1024 size_in_bytes.
Definition tensor_bytes (size_in_bytes : Z) : Z := 4 * (Z.max 1024 size_in_bytes / 4).

(** ** backends/_custom_kernels.py *)
(** _custom_kernels.py 14-63 [KERNELS_LIST] *)
Definition kernels_list : list string := [
    "backprop_clipped_linear<double>"; "backprop_clipped_linear<float>"; "backprop_dish<double>";
    "backprop_dish<float>"; "backprop_gelu<double>"; "backprop_gelu<float>"; "backprop_hard_swish<double>";
    "backprop_hard_swish<float>"; "backprop_hard_swish_mobilenet<double>"; "backprop_hard_swish_mobilenet<float>";
    "backprop_maxout<double>"; "backprop_maxout<float>"; "backprop_mish<double>"; "backprop_mish<float>";
    "backprop_reduce_max<double>"; "backprop_reduce_max<float>"; "backprop_reduce_mean<double>";
    "backprop_reduce_mean<float>"; "backprop_reduce_sum<double>"; "backprop_reduce_sum<float>";
    "backprop_seq2col<double>"; "backprop_seq2col<float>"; "backprop_swish<double>"; "backprop_swish<float>";
    "clipped_linear<double>"; "clipped_linear<float>"; "dish<double>"; "dish<float>"; "gather_add<double>";
    "gather_add<float>"; "gelu<double>"; "gelu<float>"; "maxout<double>"; "maxout<float>"; "mish<double>";
    "mish<float>"; "pad<double>"; "pad<float>"; "pad<int>"; "pad<long long>"; "reduce_max<double>";
    "reduce_max<float>"; "reduce_sum<double>"; "reduce_sum<float>"; "seq2col<double>"; "seq2col<float>";
    "swish<double>"; "swish<float>"].
(** _custom_kernels.py 119-178: the variables that hold a [LazyKernel], the names of the kernels, and whether [compile_mmh] is
    the callback *)
Definition lazy_kernels : list (string * string * bool) := [
    ("clipped_linear_kernel_float", "clipped_linear<float>", false);
    ("clipped_linear_kernel_double", "clipped_linear<double>", false); ("dish_kernel_float", "dish<float>", false);
    ("dish_kernel_double", "dish<double>", false); ("gather_add_kernel_float", "gather_add<float>", false);
    ("gather_add_kernel_double", "gather_add<double>", false); ("gelu_kernel_float", "gelu<float>", false);
    ("gelu_kernel_double", "gelu<double>", false); ("hash_data_kernel", "hash_data", true);
    ("maxout_kernel_float", "maxout<float>", false); ("maxout_kernel_double", "maxout<double>", false);
    ("mish_kernel_float", "mish<float>", false); ("mish_kernel_double", "mish<double>", false);
    ("pad_kernel_float", "pad<float>", false); ("pad_kernel_double", "pad<double>", false);
    ("pad_kernel_int32", "pad<int>", false); ("pad_kernel_int64", "pad<long long>", false);
    ("reduce_max_kernel_float", "reduce_max<float>", false);
    ("reduce_max_kernel_double", "reduce_max<double>", false);
    ("reduce_sum_kernel_float", "reduce_sum<float>", false);
    ("reduce_sum_kernel_double", "reduce_sum<double>", false); ("seq2col_kernel_float", "seq2col<float>", false);
    ("seq2col_kernel_double", "seq2col<double>", false); ("swish_kernel_float", "swish<float>", false);
    ("swish_kernel_double", "swish<double>", false);
    ("backprop_clipped_linear_kernel_double", "backprop_clipped_linear<double>", false);
    ("backprop_clipped_linear_kernel_float", "backprop_clipped_linear<float>", false);
    ("backprop_dish_kernel_double", "backprop_dish<double>", false);
    ("backprop_dish_kernel_float", "backprop_dish<float>", false);
    ("backprop_gelu_kernel_double", "backprop_gelu<double>", false);
    ("backprop_gelu_kernel_float", "backprop_gelu<float>", false);
    ("backprop_hard_swish_kernel_double", "backprop_hard_swish<double>", false);
    ("backprop_hard_swish_kernel_float", "backprop_hard_swish<float>", false);
    ("backprop_hard_swish_mobilenet_kernel_double", "backprop_hard_swish_mobilenet<double>", false);
    ("backprop_hard_swish_mobilenet_kernel_float", "backprop_hard_swish_mobilenet<float>", false);
    ("backprop_maxout_kernel_double", "backprop_maxout<double>", false);
    ("backprop_maxout_kernel_float", "backprop_maxout<float>", false);
    ("backprop_mish_kernel_double", "backprop_mish<double>", false);
    ("backprop_mish_kernel_float", "backprop_mish<float>", false);
    ("backprop_reduce_max_kernel_double", "backprop_reduce_max<double>", false);
    ("backprop_reduce_max_kernel_float", "backprop_reduce_max<float>", false);
    ("backprop_reduce_mean_kernel_double", "backprop_reduce_mean<double>", false);
    ("backprop_reduce_mean_kernel_float", "backprop_reduce_mean<float>", false);
    ("backprop_reduce_sum_kernel_double", "backprop_reduce_sum<double>", false);
    ("backprop_reduce_sum_kernel_float", "backprop_reduce_sum<float>", false);
    ("backprop_seq2col_kernel_double", "backprop_seq2col<double>", false);
    ("backprop_seq2col_kernel_float", "backprop_seq2col<float>", false);
    ("backprop_swish_kernel_double", "backprop_swish<double>", false);
    ("backprop_swish_kernel_float", "backprop_swish<float>", false)].
Section Lazy.
  (** A kernel, and what the compilation gives when it is tried for the n-th time: the callback, or [KERNELS.get_function(name)],
      or None because [KERNELS] is None. The compiler may raise. *)
  Context {K : Type}.
  Variable compile : nat -> result (option K).
  (** 73-96: [_kernel], and the number of compilations so far *)
  Record lazy := mkLazy { lk_kernel : option K; lk_tries : nat }.
  Definition lazy_init : lazy := mkLazy None 0.
  (** 102-112 [_compile_kernel] *)
  Definition compile_kernel (l : lazy) : lazy * result unit :=
    match lk_kernel l with
    | Some _ => (l, Ok tt)
    | None =>
        match compile (lk_tries l) with
        | Err e => (mkLazy None (S (lk_tries l)), Err e)
        | Ok None => (mkLazy None (S (lk_tries l)), Err ValueError)
        | Ok (Some k) => (mkLazy (Some k) (S (lk_tries l)), Ok tt)
        end
    end.
  (** 98-100 [__call__]: the kernel that is launched *)
  Definition lazy_call (l : lazy) : lazy * result K :=
    match compile_kernel l with
    | (l', Err e) => (l', Err e)
    | (l', Ok _) => match lk_kernel l' with Some k => (l', Ok k) | None => (l', Err TypeError) end
    end.
  Fixpoint lazy_calls (n : nat) (l : lazy) : lazy * list (result K) :=
    match n with
    | O => (l, [])
    | S n' => let '(l', r) := lazy_call l in let '(l'', rs) := lazy_calls n' l' in (l'', r :: rs)
    end.
End Lazy.
Arguments lazy : clear implicits.
(** 104-112 with 114-117: what the compilation of a variable's kernel gives, for [get_function] of the module ([None] without
    CuPy's GPU) and for the kernel of [_murmur3.cu] *)
Definition source_of {K} (get_function : option (string -> result K)) (mmh : option K) (name : string) (callback : bool) : result (option K) :=
  if callback then Ok mmh
  else match get_function with
       | Some f => match f name with Ok k => Ok (Some k) | Err e => Err e end
       | None => Ok None
       end.
(** CuPy's [RawModule.get_function] finds the instances of the templates that are in [name_expressions]; for other names CuPy
    raises (an error of the driver, here a RuntimeError). *)
Definition module_get {K} (make : string -> K) (name : string) : result K :=
  if memb name kernels_list then Ok (make name) else Err RuntimeError.

(** ** config.py 19-27 [registry.create]: the attributes of the class; the registries are what [catalogue.create] makes *)
Definition registry_create {R} (make : string -> bool -> R) (attrs : dict string R) (name : string) (entry_points : bool) : result (dict string R) :=
  if dmem name attrs then Err ValueError else Ok (dset name (make name entry_points) attrs).

(** ** layers/sparselinear.pyx 50-79 and 81-124, with the places of the arrays: a [np.ndarray] variable or argument refuses
    an array of CuPy, and [.get()] is a method of those only *)
Section SparseDevice.
  Context {T : Type} `{Num T}.
  Inductive side := OnHost | OnGpu.
  Definition sided (X : Type) : Type := (side * X)%type.
  Definition ndarray {X} (a : sided X) : result X := match fst a with OnHost => Ok (snd a) | OnGpu => Err TypeError end.
  Definition get_ {X} (a : sided X) : result (sided X) := match fst a with OnHost => Err AttributeError | OnGpu => Ok (OnHost, snd a) end.
  (** The model: the device of its operations, the dimensions and the parameters. *)
  Record slinear := mkSlinear { sl_ops : side; sl_v1 : bool; sl_nO : Z; sl_length : Z; sl_W : sided (list T); sl_b : sided (list T) }.
  (** 61-68 [init], without data *)
  Definition sl_init (ops : side) (v1 : bool) (nO len : Z) : slinear :=
    mkSlinear ops v1 nO len (ops, repeat (nZ 0) (Z.to_nat (nO * len))) (ops, repeat (nZ 0) (Z.to_nat nO)).
  (** 81-94 *)
  Definition begin_cpu (m : slinear) (keys : sided (list Z)) (values : sided (list T)) (lengths : sided (list Z)) : result (sided (mat T)) :=
    let* keys := ndarray keys in
    let* values := ndarray values in
    let* lengths := ndarray lengths in
    let* W := ndarray (sl_W m) in
    let* b := ndarray (sl_b m) in
    let* _ := ndarray (sl_ops m, tt) in
    let* scores := sparse_forward (sl_v1 m) (sl_nO m) (sl_length m) W b keys values lengths in
    Ok (OnHost, scores).
  (** 50-59 and 70-79; [xp.asarray] copies to the GPU *)
  Definition sl_forward (m : slinear) (keys : sided (list Z)) (values : sided (list T)) (lengths : sided (list Z)) : result (sided (mat T)) :=
    match fst keys with
    | OnGpu =>
        let* k := get_ keys in
        let* v := get_ values in
        let* n := get_ lengths in
        let* scores := begin_cpu m k v n in
        Ok (OnGpu, snd scores)
    | OnHost => begin_cpu m keys values lengths
    end.
  (** 103-123: the argument of the callback is a memory view, which an array of CuPy is not; the gradients that are added *)
  Definition finish_cpu (m : slinear) (keys : sided (list Z)) (values : sided (list T)) (lengths : sided (list Z)) (d : sided (mat T)) : result (list T * list T) :=
    let* d := match fst d with OnHost => Ok (snd d) | OnGpu => Err TypeError end in
    let* _ := ndarray (sl_ops m, tt) in
    let* keys := ndarray keys in
    let* values := ndarray values in
    let* lengths := ndarray lengths in
    sparse_backward (sl_v1 m) (sl_nO m) (sl_length m) keys values lengths d.
  (** 74-76 *)
  Definition sl_backward (m : slinear) (keys : sided (list Z)) (values : sided (list T)) (lengths : sided (list Z)) (d : sided (mat T)) : result (list T * list T) :=
    match fst keys with
    | OnGpu =>
        let* k := get_ keys in
        let* v := get_ values in
        let* n := get_ lengths in
        let* d := get_ d in
        finish_cpu m k v n d
    | OnHost => finish_cpu m keys values lengths d
    end.
End SparseDevice.
Arguments slinear : clear implicits.

(** ** layers/lstm.py 43-62 [PyTorchLSTM]: [noop], or a wrapped torch.nn.LSTM(nI, nH, depth) with the dimensions that are set *)
Inductive torch_lstm := TlNoop | TlRnn (input hidden layers : Z) (bidirectional : bool) (nO nI : Z).
Definition pytorch_lstm (nO nI depth : Z) (bi : bool) : torch_lstm :=
  if (depth =? 0)%Z then TlNoop
  else let nH := if bi then (nO / 2)%Z else nO in TlRnn nI nH depth bi nO nI.
(** PyTorch: the width of the output of an LSTM is the number of directions times the size of the hidden state *)
Definition torch_width (m : torch_lstm) : option Z :=
  match m with TlNoop => None | TlRnn _ h _ bi _ _ => Some ((if bi then 2 else 1) * h)%Z end.
Definition set_width (m : torch_lstm) : option Z := match m with TlNoop => None | TlRnn _ _ _ _ nO _ => Some nO end.

(** ** model.py 466-476 [get_gradients] *)
Section Gradients.
  Context {V A : Type}.
  Fixpoint add_names (n : node V A) (names : list string) (d : dict (Z * string) (V * V)) : result (dict (Z * string) (V * V)) :=
    match names with
    | [] => Ok d
    | name :: names' =>
        let* param := get_param n name in
        let* grad := NodeModel.get_grad n name in
        add_names n names' (dset (n_id n, name) (param, grad) d)
    end.
  (** An address without a node cannot occur in Python. *)
  Fixpoint add_nodes (h : heap V A) (l : list addr) (d : dict (Z * string) (V * V)) : result (dict (Z * string) (V * V)) :=
    match l with
    | [] => Ok d
    | a :: l' =>
        match nth_error h a with
        | None => add_nodes h l' d
        | Some n => let* d := add_names n (grad_names n) d in add_nodes h l' d
        end
    end.
  Definition get_gradients (h : heap V A) (root : addr) : result (dict (Z * string) (V * V)) :=
    add_nodes h (walk (graph_of h) Bfs root) [].
End Gradients.

(** ** util.py 390-515: where the result of a conversion is. [ops] is None, the NumpyOps or the CupyOps (the argument [ops]). *)
Inductive ops_arg := NoOps | WithNumpy | WithCupy.
Definition wants_numpy (o : ops_arg) : bool := match o with WithNumpy => true | _ => false end.
Definition no_ops (o : ops_arg) : bool := match o with NoOps => true | _ => false end.
(** 419-438 [torch2xp]. [cupy.asarray] takes tensors of the CPU; for one on an MPS device it raises a TypeError. *)
Definition torch2xp_kind (x : obj_kind) (o : ops_arg) : result obj_kind :=
  if is_torch_cuda_array x then (if wants_numpy o then Ok NumpyArray else Ok CupyArray)
  else if (wants_numpy o || no_ops o)%bool then Ok NumpyArray
  else if is_torch_mps_array x then Err TypeError else Ok CupyArray.
(** 464-481 [tensorflow2xp] and 501-515 [mxnet2xp]: [installed] is the copy of the flag in thinc.util *)
Definition tensorflow2xp_kind (installed : bool) (x : obj_kind) (o : ops_arg) : result obj_kind :=
  if negb installed then Err ImportError
  else if is_tensorflow_gpu_array installed x then (if wants_numpy o then Ok NumpyArray else Ok CupyArray)
  else if (wants_numpy o || no_ops o)%bool then Ok NumpyArray else Ok CupyArray.
Definition mxnet2xp_kind (installed : bool) (x : obj_kind) (o : ops_arg) : result obj_kind :=
  if negb installed then Err ImportError
  else if is_mxnet_gpu_array installed x then (if wants_numpy o then Ok NumpyArray else Ok CupyArray)
  else if (wants_numpy o || no_ops o)%bool then Ok NumpyArray else Ok CupyArray.
(** 390-416 [xp2torch]: the tensor goes to [device], or to the default device of PyTorch *)
Definition xp2torch_kind (default : torch_device) (x : obj_kind) (device : option torch_device) : obj_kind :=
  TorchTensor (match device with Some d => d | None => default end).
(** 440-461 [xp2tensorflow] and 484-498 [xp2mxnet]: the tensor stays on the side of the array *)
Definition xp2tensorflow_kind (installed : bool) (x : obj_kind) : result obj_kind :=
  if negb installed then Err ImportError else Ok (TfTensor (is_cupy_array x)).
Definition xp2mxnet_kind (installed : bool) (x : obj_kind) : result obj_kind :=
  if negb installed then Err ImportError else Ok (MxArray (is_cupy_array x)).

(** ** ops.py 1215-1219 [logloss] *)
Section Logloss.
  Context {T : Type} `{Num T} `{Trans T}.
  Local Open Scope num_scope.
  Definition logloss1 (y_true y_pred : T) : T :=
    let log_yp := nln (y_pred + dec 1 100000000) in
    let loss := (y_true * log_yp) + (nZ 1 - y_true) * nln ((nZ 1 - y_pred) + dec 1 100000000) in
    - loss.
  Definition logloss (y_true y_pred : list T) : list T := vmap2 logloss1 y_true y_pred.
End Logloss.

(** ** loss.py: [__call__] *)
Section Calls.
  Context {T : Type} `{Num T}.
  (** 138-142 *)
  Definition cc_call (c : cc_t T) (guesses : mat T) (truths : truths_t T) : result (mat T * T) :=
    let* d_truth := LossModel.get_grad c guesses truths in Ok (d_truth, sum_squares d_truth).
  (** 236-241 *)
  Definition seq_call (c : cc_t T) (guesses : list (mat T)) (truths : list (truths_t T)) : result (list (mat T) * T) :=
    let* grads := seq_get_grad c guesses truths in
    Ok (grads, fold_left (fun loss grad => nadd loss (sum_squares grad)) grads (nZ 0)).
  (** 311-312, 342-343 *)
  Definition l2_call (normalize : bool) (guesses truths : mat T) : result (mat T * T) :=
    let* d := l2_get_grad normalize guesses truths in
    let* loss := l2_get_loss normalize guesses truths in Ok (d, loss).
  Definition cosine_call (normalize ignore_zeros : bool) (guesses truths : mat T) : result (mat T * T) :=
    let* d := cosine_get_grad normalize ignore_zeros guesses truths in
    let* loss := cosine_get_loss normalize ignore_zeros guesses truths in Ok (d, loss).
End Calls.
