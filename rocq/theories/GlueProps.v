(** C84. The small pieces between the other parts. *)
From Coq Require Import String Reals Lra Lia ZArith QArith.
From Verif Require Import NumQ GlueSpec GlueProofs.
Local Open Scope string_scope.
Local Open Scope list_scope.
Local Open Scope nat_scope.

(** The tensor behind an allocation for CuPy is at most three bytes shorter than the memory that is declared, and as long exactly when the size is at most 1024 or a multiple of four. *)
Theorem C84_allocator_short :
  forall n : Z, (0 <= declared_bytes n - tensor_bytes n <= 3)%Z.
Proof. exact alloc_short. Qed.
Print Assumptions C84_allocator_short.
Example C84_allocator_short_example : declared_bytes 2050 = 2050%Z /\ tensor_bytes 2050 = 2048%Z.
Proof. split; reflexivity. Qed.

Theorem C84_allocator_exact :
  forall n : Z, tensor_bytes n = declared_bytes n <-> (n <= 1024 \/ n mod 4 = 0)%Z.
Proof. exact alloc_exact. Qed.
Print Assumptions C84_allocator_exact.
Example C84_allocator_exact_example : tensor_bytes 2048 = declared_bytes 2048 /\ tensor_bytes 1 = declared_bytes 1 /\ tensor_bytes 1025 <> declared_bytes 1025.
Proof. repeat split; discriminate. Qed.

(** A request for a multiple of four bytes (CuPy's memory pool asks for multiples of 512) gets them. *)
Theorem C84_allocator_enough :
  forall n : Z, (n mod 4 = 0 -> n <= tensor_bytes n)%Z.
Proof. exact alloc_enough. Qed.
Print Assumptions C84_allocator_enough.
Example C84_allocator_enough_example : (1536 mod 4 = 0 /\ tensor_bytes 1536 = 1536)%Z.
Proof. split; reflexivity. Qed.

(** The allocators do not always allocate what is asked for: 1027 bytes are declared, 1024 allocated. *)
Theorem C84_allocator_refuted :
  (tensor_bytes 1027 < 1027 /\ declared_bytes 1027 = 1027)%Z.
Proof. exact alloc_short_refuted. Qed.
Print Assumptions C84_allocator_refuted.

(** A kernel is compiled by the first call that succeeds, and not again: later calls launch it. Calls before that raise the error of the compiler, or a ValueError if it gives None. *)
Theorem C84_kernel_once :
  forall (K : Type) (compile : nat -> result (option K)) (i : nat) (k : K) (n : nat), first_kernel compile i k ->
    lazy_calls compile (i + S n) lazy_init =
    (mkLazy (Some k) (S i), map (fun j => match compile j with Ok _ => Err ValueError | Err e => Err e end) (seq 0 i) ++ repeat (Ok k) (S n)).
Proof. exact @lazy_once. Qed.
Print Assumptions C84_kernel_once.
Example C84_kernel_once_example : first_kernel ex_compile 2 "kernel"
  /\ snd (lazy_calls ex_compile 4 lazy_init) = [Err RuntimeError; Err ValueError; Ok "kernel"; Ok "kernel"].
Proof. split; [|reflexivity]. split; [reflexivity|]. intros [|[|j]] k Hj; [discriminate|discriminate|lia]. Qed.

(** Without a kernel every call compiles again and raises. *)
Theorem C84_kernel_fails :
  forall (K : Type) (compile : nat -> result (option K)) (n : nat), (forall j k, j < n -> compile j <> Ok (Some k)) ->
    lazy_calls compile n lazy_init =
    (mkLazy None n, map (fun j => match compile j with Ok _ => Err ValueError | Err e => Err e end) (seq 0 n)).
Proof. exact @lazy_fails. Qed.
Print Assumptions C84_kernel_fails.
Example C84_kernel_fails_example : (forall j k, j < 2 -> ex_compile j <> Ok (Some k)) /\ snd (lazy_calls ex_compile 2 lazy_init) = [Err RuntimeError; Err ValueError].
Proof. split; [|reflexivity]. intros [|[|j]] k Hj; [discriminate|discriminate|lia]. Qed.

(** The kernels asked for by name are those of [KERNELS_LIST]; only the hash kernel has a callback. *)
Theorem C84_kernel_names :
  forall (v name : string) (cb : bool), In (v, name, cb) lazy_kernels -> (cb = true <-> name = "hash_data") /\ (cb = false -> In name kernels_list).
Proof. exact kernel_names. Qed.
Print Assumptions C84_kernel_names.
Example C84_kernel_names_example : In ("gelu_kernel_float", "gelu<float>", false) lazy_kernels /\ length lazy_kernels = 49.
Proof. split; [vm_compute; tauto|reflexivity]. Qed.

(** Every kernel that is compiled has a variable. *)
Theorem C84_kernel_used :
  forall name : string, In name kernels_list <-> exists v, In (v, name, false) lazy_kernels.
Proof. exact kernel_used. Qed.
Print Assumptions C84_kernel_used.
Example C84_kernel_used_example : In "pad<long long>" kernels_list.
Proof. vm_compute; tauto. Qed.

(** No two variables are the same, nor hold the same kernel. *)
Theorem C84_kernel_variables :
  NoDup (map (fun p => fst (fst p)) lazy_kernels) /\ NoDup (map (fun p => snd (fst p)) lazy_kernels).
Proof. exact kernel_variables. Qed.
Print Assumptions C84_kernel_variables.

(** With a GPU the compilation finds each of them. *)
Theorem C84_kernel_compiles :
  forall (K : Type) (make : string -> K) (mmh : K) (v name : string) (cb : bool), In (v, name, cb) lazy_kernels ->
    exists k, source_of (Some (module_get make)) (Some mmh) name cb = Ok (Some k).
Proof. exact @kernel_compiles. Qed.
Print Assumptions C84_kernel_compiles.
Example C84_kernel_compiles_example : source_of (Some (module_get (fun n => n))) (Some "mmh") "mish<double>" false = Ok (Some "mish<double>")
  /\ module_get (fun n => n) "nothing" = Err RuntimeError.
Proof. split; reflexivity. Qed.

(** Without, every call of each of them raises a ValueError. *)
Theorem C84_kernel_no_gpu :
  forall (K : Type) (v name : string) (cb : bool) (n : nat), In (v, name, cb) lazy_kernels ->
    snd (lazy_calls (fun _ => @source_of K None None name cb) n lazy_init) = repeat (Err ValueError) n.
Proof. exact @kernel_no_gpu. Qed.
Print Assumptions C84_kernel_no_gpu.
Example C84_kernel_no_gpu_example : In ("hash_data_kernel", "hash_data", true) lazy_kernels.
Proof. vm_compute; tauto. Qed.

(** A new registry is created under its name, the others stay, and it cannot be created again. *)
Theorem C84_create :
  forall (R : Type) (make : string -> bool -> R) (attrs : dict string R) (name : string) (ep : bool), dmem name attrs = false ->
    exists attrs', registry_create make attrs name ep = Ok attrs' /\ dget name attrs' = Some (make name ep)
      /\ (forall other, other <> name -> dget other attrs' = dget other attrs)
      /\ (forall ep', registry_create make attrs' name ep' = Err ValueError).
Proof. exact @create_new. Qed.
Print Assumptions C84_create.
Example C84_create_example : registry_create (fun n ep => (n, ep)) [("layers", ("layers", true))] "dogs" false = Ok [("layers", ("layers", true)); ("dogs", ("dogs", false))].
Proof. reflexivity. Qed.

Theorem C84_create_existing :
  forall (R : Type) (make : string -> bool -> R) (attrs : dict string R) (name : string) (ep : bool), dmem name attrs = true ->
    registry_create make attrs name ep = Err ValueError.
Proof. exact @create_existing. Qed.
Print Assumptions C84_create_existing.
Example C84_create_existing_example : dmem "layers" [("layers", tt)] = true.
Proof. reflexivity. Qed.

(** "At least we can get the correct result by copying to CPU" (sparselinear.pyx 57) is wrong for a model on the GPU: SparseLinear initialised with CupyOps raises for every input, because the parameters are not copied. *)
Theorem C84_sparse_gpu_refuted :
  forall (T : Type) (H : Num T) (v1 : bool) (nO len : Z) (keys : sided (list Z)) (values : sided (list T)) (lengths : sided (list Z)),
    exists e, sl_forward (sl_init OnGpu v1 nO len) keys values lengths = Err e.
Proof. exact @sl_gpu_fails. Qed.
Print Assumptions C84_sparse_gpu_refuted.
Example C84_sparse_gpu_refuted_example : sl_forward (T := Q) (sl_init OnGpu false 1 4) (OnGpu, [5%Z]) (OnGpu, [1%Q]) (OnGpu, [1%Z]) = Err TypeError.
Proof. reflexivity. Qed.

(** With all arrays on one side the error is a TypeError. *)
Theorem C84_sparse_gpu_error :
  forall (T : Type) (H : Num T) (s : side) (v1 : bool) (nO len : Z) (k : list Z) (v : list T) (n : list Z),
    sl_forward (sl_init OnGpu v1 nO len) (s, k) (s, v) (s, n) = Err TypeError.
Proof. exact @sl_gpu_type_error. Qed.
Print Assumptions C84_sparse_gpu_error.

(** A model with parameters of NumPy computes the same scores for arrays on either side, and returns them on the side of the arrays. *)
Theorem C84_sparse_host :
  forall (T : Type) (H : Num T) (m : slinear T) (k : list Z) (v : list T) (n : list Z),
    sl_ops m = OnHost -> fst (sl_W m) = OnHost -> fst (sl_b m) = OnHost -> forall s,
    sl_forward m (s, k) (s, v) (s, n) =
    (let* scores := sparse_forward (sl_v1 m) (sl_nO m) (sl_length m) (snd (sl_W m)) (snd (sl_b m)) k v n in Ok (s, scores)).
Proof. exact @sl_forward_host. Qed.
Print Assumptions C84_sparse_host.
Example C84_sparse_host_example : sl_forward (T := Q) (mkSlinear OnHost false 1 1 (OnHost, [3%Q]) (OnHost, [1%Q])) (OnGpu, [5%Z]) (OnGpu, [1%Q]) (OnGpu, [1%Z]) = Ok (OnGpu, mkM 1 [[7%Q]]).
Proof. vm_compute. reflexivity. Qed.

(** And so are the gradients. *)
Theorem C84_sparse_backward :
  forall (T : Type) (H : Num T) (m : slinear T) (k : list Z) (v : list T) (n : list Z) (d : mat T), sl_ops m = OnHost -> forall s,
    sl_backward m (s, k) (s, v) (s, n) (s, d) = sparse_backward (sl_v1 m) (sl_nO m) (sl_length m) k v n d.
Proof. exact @sl_backward_host. Qed.
Print Assumptions C84_sparse_backward.
Example C84_sparse_backward_example : sl_backward (T := Q) (mkSlinear OnHost false 1 1 (OnHost, [3%Q]) (OnHost, [1%Q])) (OnGpu, [5%Z]) (OnGpu, [1%Q]) (OnGpu, [1%Z]) (OnGpu, mkM 1 [[2%Q]]) = Ok ([4%Q], [2%Q]).
Proof. vm_compute. reflexivity. Qed.

(** Arrays on different sides raise. *)
Theorem C84_sparse_mixed :
  forall (T : Type) (H : Num T) (m : slinear T) (keys : sided (list Z)) (values : sided (list T)) (lengths : sided (list Z)),
    fst keys <> fst values \/ fst keys <> fst lengths ->
    exists e, sl_forward m keys values lengths = Err e /\ (e = TypeError \/ e = AttributeError).
Proof. exact @sl_mixed_fails. Qed.
Print Assumptions C84_sparse_mixed.
Example C84_sparse_mixed_example : sl_forward (T := Q) (sl_init OnHost true 1 4) (OnGpu, [5%Z]) (OnHost, [1%Q]) (OnGpu, [1%Z]) = Err AttributeError
  /\ sl_forward (T := Q) (sl_init OnHost true 1 4) (OnHost, [5%Z]) (OnGpu, [1%Q]) (OnHost, [1%Z]) = Err TypeError.
Proof. split; reflexivity. Qed.

(** The width of the output of PyTorchLSTM is the [nO] that is set on it, exactly if it is in one direction or [nO] is even. *)
Theorem C84_pytorch_lstm :
  forall (nO nI depth : Z) (bi : bool), depth <> 0%Z ->
    (torch_width (pytorch_lstm nO nI depth bi) = set_width (pytorch_lstm nO nI depth bi) <-> bi = false \/ (nO mod 2 = 0)%Z).
Proof. exact plstm_width. Qed.
Print Assumptions C84_pytorch_lstm.
Example C84_pytorch_lstm_example : torch_width (pytorch_lstm 6 4 1 true) = Some 6%Z /\ torch_width (pytorch_lstm 5 4 1 false) = Some 5%Z.
Proof. split; reflexivity. Qed.

Theorem C84_pytorch_lstm_refuted :
  exists nO nI depth : Z, torch_width (pytorch_lstm nO nI depth true) <> set_width (pytorch_lstm nO nI depth true).
Proof. exact plstm_width_refuted. Qed.
Print Assumptions C84_pytorch_lstm_refuted.

Theorem C84_pytorch_lstm_noop :
  forall (nO nI depth : Z) (bi : bool), pytorch_lstm nO nI depth bi = TlNoop <-> depth = 0%Z.
Proof. exact plstm_noop. Qed.
Print Assumptions C84_pytorch_lstm_noop.
Example C84_pytorch_lstm_noop_example : pytorch_lstm 4 4 0 true = TlNoop.
Proof. reflexivity. Qed.

(** [get_gradients] is the dictionary of the gradients of the reachable nodes, with the parameters. *)
Theorem C84_get_gradients :
  forall (V A : Type) (h : heap V A) (root : addr) (d : dict (Z * string) (V * V)), ids_differ h root -> get_gradients h root = Ok d ->
    forall id name p g, dget (id, name) d = Some (p, g) <-> gradient_of h root id name p g.
Proof. exact @gradients_ok. Qed.
Print Assumptions C84_get_gradients.
Example C84_get_gradients_example : get_gradients ex_heap 0 = Ok [((8%Z, "W"), (10%Z, 0%Z)); ((9%Z, "W"), (20%Z, 1%Z)); ((9%Z, "b"), (21%Z, 2%Z))]
  /\ ids_differ ex_heap 0.
Proof. split; [reflexivity|]. intros [|[|[|a]]] [|[|[|b]]] n m _ _ Hn Hm He; try reflexivity; try (cbn in Hn; destruct a; discriminate); try (cbn in Hm; destruct b; discriminate);
  cbn in Hn, Hm; injection Hn as <-; injection Hm as <-; discriminate. Qed.

(** It raises exactly if a reachable node has a gradient for a parameter without a value. *)
Theorem C84_get_gradients_error :
  forall (V A : Type) (h : heap V A) (root : addr), (exists e, get_gradients h root = Err e) <-> orphan h root.
Proof. exact @gradients_error. Qed.
Print Assumptions C84_get_gradients_error.
Example C84_get_gradients_error_example : get_gradients ex_orphan 0 = Err KeyError.
Proof. reflexivity. Qed.

Theorem C84_get_gradients_key_error :
  forall (V A : Type) (h : heap V A) (root : addr) (e : err), get_gradients h root = Err e -> e = KeyError.
Proof. exact @gradients_error_kind. Qed.
Print Assumptions C84_get_gradients_key_error.
Example C84_get_gradients_key_error_example : exists e, get_gradients ex_orphan 0 = Err e.
Proof. eexists. reflexivity. Qed.

(** "Get non-zero gradients" (model.py 467): gradients that are zero are in the dictionary. *)
Theorem C84_get_gradients_refuted :
  exists (h : heap Z unit) d, get_gradients h 0 = Ok d /\ dget (8%Z, "W") d = Some (10, 0)%Z.
Proof. exact gradients_zero_refuted. Qed.
Print Assumptions C84_get_gradients_refuted.

(** The array is of the library of [ops], or without [ops] on the side of the tensor. *)
Theorem C84_torch2xp :
  forall (x : obj_kind) (o : ops_arg) (y : obj_kind), (exists d, x = TorchTensor d) -> torch2xp_kind x o = Ok y ->
    y = match o with WithNumpy => NumpyArray | WithCupy => CupyArray | NoOps => if is_torch_cuda_array x then CupyArray else NumpyArray end.
Proof. exact torch2xp_place. Qed.
Print Assumptions C84_torch2xp.
Example C84_torch2xp_example : torch2xp_kind (TorchTensor (TCuda 0)) WithNumpy = Ok NumpyArray /\ torch2xp_kind (TorchTensor TCpu) WithCupy = Ok CupyArray.
Proof. split; reflexivity. Qed.

Theorem C84_torch2xp_mps :
  forall o : ops_arg, torch2xp_kind (TorchTensor TMps) o = match o with WithCupy => Err TypeError | _ => Ok NumpyArray end.
Proof. exact torch2xp_mps. Qed.
Print Assumptions C84_torch2xp_mps.

Theorem C84_tensorflow2xp :
  forall (gpu : bool) (o : ops_arg), tensorflow2xp_kind true (TfTensor gpu) o =
    Ok (match o with WithNumpy => NumpyArray | WithCupy => CupyArray | NoOps => if gpu then CupyArray else NumpyArray end).
Proof. exact tf2xp_place. Qed.
Print Assumptions C84_tensorflow2xp.

Theorem C84_mxnet2xp :
  forall (gpu : bool) (o : ops_arg), mxnet2xp_kind true (MxArray gpu) o =
    Ok (match o with WithNumpy => NumpyArray | WithCupy => CupyArray | NoOps => if gpu then CupyArray else NumpyArray end).
Proof. exact mx2xp_place. Qed.
Print Assumptions C84_mxnet2xp.

(** Through TensorFlow and MXNet an array comes back on the side it was on. *)
Theorem C84_round_trip :
  forall x : obj_kind, is_xp_array x = true ->
    (let* t := xp2tensorflow_kind true x in tensorflow2xp_kind true t NoOps) = Ok x /\ (let* t := xp2mxnet_kind true x in mxnet2xp_kind true t NoOps) = Ok x.
Proof. exact tf_mx_round. Qed.
Print Assumptions C84_round_trip.
Example C84_round_trip_example : is_xp_array CupyArray = true.
Proof. reflexivity. Qed.

(** Through PyTorch it does if that is the side of the device. *)
Theorem C84_round_trip_torch :
  forall (default : torch_device) (x : obj_kind) (device : option torch_device), is_xp_array x = true ->
    (torch2xp_kind (xp2torch_kind default x device) NoOps = Ok x <->
     is_cupy_array x = match (match device with Some d => d | None => default end) with TCuda _ => true | _ => false end).
Proof. exact torch_round. Qed.
Print Assumptions C84_round_trip_torch.
Example C84_round_trip_torch_example : torch2xp_kind (xp2torch_kind (TCuda 1) NumpyArray (Some TCpu)) NoOps = Ok NumpyArray.
Proof. reflexivity. Qed.

(** A NumPy array becomes one of CuPy if the default device of PyTorch is a GPU. *)
Theorem C84_round_trip_torch_refuted :
  exists (default : torch_device) (x : obj_kind), is_xp_array x = true /\ torch2xp_kind (xp2torch_kind default x None) NoOps <> Ok x.
Proof. exact torch_round_refuted. Qed.
Print Assumptions C84_round_trip_torch_refuted.

(** Calling a loss gives its gradient and its loss. *)
Theorem C84_cc_call :
  forall (T : Type) (H : Num T) (c : cc_t T) (g : mat T) (t : truths_t T),
    cc_call c g t = (let* d := LossModel.get_grad c g t in let* l := LossModel.get_loss c g t in Ok (d, l)).
Proof. exact @cc_call_eq. Qed.
Print Assumptions C84_cc_call.

Theorem C84_seq_call :
  forall (T : Type) (H : Num T) (c : cc_t T) (g : list (mat T)) (t : list (truths_t T)),
    seq_call c g t = (let* d := seq_get_grad c g t in let* l := seq_get_loss c g t in Ok (d, l)).
Proof. exact @seq_call_eq. Qed.
Print Assumptions C84_seq_call.

(** The L2 loss of a call is the sum of the squares of the gradient of the same call. *)
Theorem C84_l2_call :
  forall (T : Type) (H : Num T) (norm : bool) (g t : mat T),
    l2_call norm g t = (let* d := l2_get_grad norm g t in Ok (d, sum_squares d)).
Proof. exact @l2_call_eq. Qed.
Print Assumptions C84_l2_call.
Example C84_l2_call_example : l2_call (T := Q) false (mkM 2 [[1%Q; 2%Q]]) (mkM 2 [[0%Q; 4%Q]]) = Ok (mkM 2 [[1%Q; (-2)%Q]], 5%Q).
Proof. vm_compute. reflexivity. Qed.

Theorem C84_cosine_call :
  forall (T : Type) (H : Num T) (norm iz : bool) (g t : mat T), mshape_eq g t = true ->
    exists d l, cosine_call norm iz g t = Ok (d, l) /\ cosine_get_grad norm iz g t = Ok d /\ cosine_get_loss norm iz g t = Ok l.
Proof. exact @cosine_call_ok. Qed.
Print Assumptions C84_cosine_call.
Example C84_cosine_call_example : mshape_eq (mkM 2 [[1; 2]]) (mkM 2 [[0; 4]]) = true.
Proof. reflexivity. Qed.

Theorem C84_cosine_call_error :
  forall (T : Type) (H : Num T) (norm iz : bool) (g t : mat T), mshape_eq g t = false -> cosine_call norm iz g t = Err ValueError.
Proof. exact @cosine_call_err. Qed.
Print Assumptions C84_cosine_call_error.
Example C84_cosine_call_error_example : mshape_eq (mkM 2 [[1; 2]]) (mkM 2 [[0; 4]; [1; 1]]) = false.
Proof. reflexivity. Qed.

(** [logloss] of probabilities is finite: between -ln(1 + 1e-8) and -ln(1e-8). *)
Theorem C84_logloss :
  forall y p : R, (0 <= y <= 1)%R -> (0 <= p <= 1)%R -> (- ln (1 + / 100000000) <= logloss1 y p <= - ln (/ 100000000))%R.
Proof. exact logloss_bounds. Qed.
Print Assumptions C84_logloss.
Example C84_logloss_example : (0 <= 1 <= 1)%R /\ (0 <= 0 <= 1)%R.
Proof. lra. Qed.

(** A perfect prediction has the least loss, *)
Theorem C84_logloss_perfect :
  forall y : R, y = 0%R \/ y = 1%R -> logloss1 y y = (- ln (1 + / 100000000))%R.
Proof. exact logloss_perfect. Qed.
Print Assumptions C84_logloss_perfect.
Example C84_logloss_perfect_example : 1%R = 0%R \/ 1%R = 1%R.
Proof. right. reflexivity. Qed.

(** which is negative. *)
Theorem C84_logloss_refuted :
  exists y p : R, (0 <= y <= 1)%R /\ (0 <= p <= 1)%R /\ (logloss1 y p < 0)%R.
Proof. exact logloss_negative_refuted. Qed.
Print Assumptions C84_logloss_refuted.

