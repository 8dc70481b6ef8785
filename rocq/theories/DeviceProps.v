(** Choosing backends and devices: C69. *)
From Coq Require Import String ZArith List Bool.
From Verif Require Import DeviceModel DeviceSpec GraphSpec DeviceProofs DeviceMoveProofs.
Import ListNotations.
Open Scope string_scope.

(** C69. [require_gpu(id)] succeeds exactly if the GPU it looks for is there: on macOS an MPS build of PyTorch, elsewhere
    CuPy; some GPU; and, if CuPy has one, the device [id]. *)
Theorem C69_require_gpu_iff : forall k s id,
  (exists s' b, require_gpu k s id = (s', Ok b)) <->
  (k_darwin k = true -> has_torch_mps k = true) /\ (k_darwin k = false -> has_cupy k = true) /\ has_gpu k = true /\
  (has_cupy_gpu k = true -> usable k id).
Proof. exact require_gpu_iff. Qed.
Print Assumptions C69_require_gpu_iff.

(** C69. If it succeeds, the backend of the context and of the thread is CuPy's or else the one for MPS, and [id] is the
    current device of CuPy and PyTorch; nothing else changes. *)
Theorem C69_require_gpu : forall k s id s' b, require_gpu k s id = (s', Ok b) ->
  b = true /\ backend s' (if has_cupy_gpu k then cupy_ops else mps_ops) /\ same_but_backend s s' /\
  (if has_cupy_gpu k then y_cupy s' = Z.to_nat id /\ y_torch s' = (if has_torch_cuda_gpu k then Z.to_nat id else y_torch s)
   else y_cupy s' = y_cupy s /\ y_torch s' = y_torch s).
Proof. exact require_gpu_ok. Qed.
Print Assumptions C69_require_gpu.

(** C69. If it fails, either with ValueError and nothing changed, or because the device is not there. *)
Theorem C69_require_gpu_error : forall k s id s' e, require_gpu k s id = (s', Err e) ->
  (e = ValueError /\ s' = s) \/
  (e = RuntimeError /\ has_cupy_gpu k = true /\ ~ usable k id /\ backend s' cupy_ops /\ same_but_backend s s' /\ y_torch s' = y_torch s).
Proof. exact require_gpu_error. Qed.
Print Assumptions C69_require_gpu_error.

(** C69, finding: in the second case the GPU backend stays current. *)
Theorem C69_require_gpu_atomic_refuted : exists k id s s' e, require_gpu k s id = (s', Err e) /\ backend s numpy_ops /\ ~ backend s' numpy_ops.
Proof. exact require_gpu_witness. Qed.
Print Assumptions C69_require_gpu_atomic_refuted.

(** C69. [prefer_gpu] says whether there is a GPU; if there is, it does what [require_gpu] does, and otherwise nothing. *)
Theorem C69_prefer_gpu : forall k s id s' b, prefer_gpu k s id = (s', Ok b) ->
  b = has_gpu k /\ (b = true -> require_gpu k s id = (s', Ok true)) /\ (b = false -> s' = s).
Proof. exact prefer_gpu_ok. Qed.
Print Assumptions C69_prefer_gpu.
Theorem C69_prefer_gpu_total : forall k s id, ordinary k -> (has_cupy_gpu k = true -> usable k id) -> exists s' b, prefer_gpu k s id = (s', Ok b).
Proof. exact prefer_gpu_total. Qed.
Print Assumptions C69_prefer_gpu_total.

(** C69, finding: it can raise, though it only states a preference. *)
Theorem C69_prefer_gpu_raises_refuted : exists k s s' e, prefer_gpu k s 0 = (s', Err e).
Proof. exact prefer_gpu_witness. Qed.
Print Assumptions C69_prefer_gpu_raises_refuted.

(** C69. [require_cpu] always succeeds and selects the best CPU backend of the machine. *)
Theorem C69_require_cpu : forall k s, exists s', require_cpu k s = (s', Ok true) /\
  backend s' (if k_bigendian k then bigendian_ops else if k_darwin k then apple_ops else numpy_ops) /\ same_but_backend s s' /\
  y_cupy s' = y_cupy s /\ y_torch s' = y_torch s.
Proof. exact require_cpu_ok. Qed.
Print Assumptions C69_require_cpu.

(** C69. PyTorch's default device follows the backend: after [require_gpu(id)] CUDA device [id] or MPS, otherwise the CPU.
    Without PyTorch it is a ValueError. *)
Theorem C69_default_device_gpu : forall k s id s' b n c a, require_gpu k s id = (s', Ok b) -> k_torch k = Some (n, c, a) ->
  snd (get_torch_default_device k s') =
  if has_cupy_gpu k then (if Nat.eqb n 0 then Err RuntimeError else Ok (TCuda (Z.to_nat id))) else Ok TMps.
Proof. exact default_device_gpu. Qed.
Print Assumptions C69_default_device_gpu.
Theorem C69_default_device_cpu : forall k s n c a, k_torch k = Some (n, c, a) ->
  (x_ops (y_ctx s) = None \/ exists o, x_ops (y_ctx s) = Some o /\ o <> cupy_ops /\ o <> mps_ops) ->
  snd (get_torch_default_device k s) = Ok TCpu.
Proof. exact default_device_cpu. Qed.
Print Assumptions C69_default_device_cpu.
Theorem C69_default_device_missing : forall k s, k_torch k = None -> get_torch_default_device k s = (s, Err ValueError).
Proof. exact default_device_missing. Qed.
Print Assumptions C69_default_device_missing.

(** C69, finding: with CuPy on a GPU and PyTorch without CUDA there is no default device. *)
Theorem C69_default_device_refuted :
  exists k s s' id s2 e, k_torch k <> None /\ require_gpu k s id = (s', Ok true) /\ get_torch_default_device k s' = (s2, Err e).
Proof. exact default_device_witness. Qed.
Print Assumptions C69_default_device_refuted.

(** C69. [set_gpu_allocator(name)]: CuPy allocates from the pool of that name, unless it is PyTorch's and the backend is not
    on a CUDA device; no pool is ever replaced. *)
Theorem C69_allocator : forall k tf s name s', set_gpu_allocator k tf s name = (s', Ok tt) -> pools_ok s ->
  pools_ok s' /\ (name = "pytorch" \/ name = "tensorflow") /\
  ((exists p, y_malloc s' = Some p /\ p_allocator p = name) \/
   (name = "pytorch" /\ y_malloc s' = y_malloc s /\ y_pools s' = y_pools s /\ exists d, snd (get_torch_default_device k s) = Ok d /\ forall i, d <> TCuda i)) /\
  (forall n p, dget n (y_pools s) = Some p -> dget n (y_pools s') = Some p).
Proof. exact allocator_ok. Qed.
Print Assumptions C69_allocator.

(** C69. Called again, from whatever context, it uses the same pool. *)
Theorem C69_allocator_again : forall k tf s name s1 p c tf' s2, pools_ok s -> set_gpu_allocator k tf s name = (s1, Ok tt) ->
  y_malloc s1 = Some p -> p_allocator p = name -> set_gpu_allocator k tf' (with_ctx s1 c) name = (s2, Ok tt) -> y_malloc s2 = Some p.
Proof. exact allocator_again. Qed.
Print Assumptions C69_allocator_again.

(** C69. Its errors, which change neither pools nor allocator. *)
Theorem C69_allocator_error : forall k tf s name s' e, set_gpu_allocator k tf s name = (s', Err e) ->
  y_pools s' = y_pools s /\ y_malloc s' = y_malloc s /\
  ((e = ValueError /\ name <> "pytorch" /\ name <> "tensorflow") \/
   (e = ImportError /\ (name = "pytorch" /\ has_torch k = false \/ name = "tensorflow" /\ tf = false)) \/
   (e = AttributeError /\ has_cupy k = false) \/
   (e = RuntimeError /\ name = "pytorch" /\ has_torch_cuda_gpu k = false)).
Proof. exact allocator_error. Qed.
Print Assumptions C69_allocator_error.

(** C69, finding: called before [require_gpu], on a machine with GPUs, it does nothing and says nothing. *)
Theorem C69_allocator_silent_refuted :
  exists k s s', set_gpu_allocator k true s "pytorch" = (s', Ok tt) /\ has_cupy_gpu k = true /\ has_torch_cuda_gpu k = true /\ y_malloc s' = None.
Proof. exact allocator_witness. Qed.
Print Assumptions C69_allocator_silent_refuted.

(** C69. TensorFlow and MXNet are usable exactly if they were enabled before thinc.util was first imported. *)
Theorem C69_frameworks_enabled : forall pre post, ~ In ImportUtil pre ->
  (In EnableTensorflow pre -> assert_tensorflow_installed (mod_run (pre ++ ImportUtil :: post)) = Ok tt) /\
  (~ In EnableTensorflow pre -> assert_tensorflow_installed (mod_run (pre ++ ImportUtil :: post)) = Err ImportError) /\
  (In EnableMxnet pre -> assert_mxnet_installed (mod_run (pre ++ ImportUtil :: post)) = Ok tt) /\
  (~ In EnableMxnet pre -> assert_mxnet_installed (mod_run (pre ++ ImportUtil :: post)) = Err ImportError).
Proof. exact assert_frameworks. Qed.
Print Assumptions C69_frameworks_enabled.

(** C69, finding: the documented way, [from thinc.api import enable_tensorflow] and a call of it, comes too late. *)
Theorem C69_enable_documented_refuted :
  assert_tensorflow_installed (mod_run [ImportUtil; EnableTensorflow; CallUtil]) = Err ImportError /\
  assert_mxnet_installed (mod_run [ImportUtil; EnableMxnet; CallUtil]) = Err ImportError.
Proof. exact enable_witness. Qed.
Print Assumptions C69_enable_documented_refuted.

(** C69. The tests for kinds of arrays exclude each other, and recognise every array of a framework that is enabled. *)
Theorem C69_kinds : forall tf mx x,
  length (filter (fun b : bool => b) [is_numpy_array x; is_cupy_array x; is_torch_array x; is_tensorflow_array tf x; is_mxnet_array mx x]) =
  match x with PyObject => 0 | TfTensor _ => if tf then 1 else 0 | MxArray _ => if mx then 1 else 0 | _ => 1 end.
Proof. exact kinds_exclusive. Qed.
Print Assumptions C69_kinds.
Theorem C69_kinds_gpu : forall tf mx x,
  (is_torch_gpu_array x = true <-> exists d, x = TorchTensor d /\ d <> TCpu) /\
  (is_tensorflow_gpu_array tf x = true <-> tf = true /\ x = TfTensor true) /\ (is_mxnet_gpu_array mx x = true <-> mx = true /\ x = MxArray true).
Proof. exact kinds_gpu. Qed.
Print Assumptions C69_kinds_gpu.
Theorem C69_array_module : forall x,
  get_array_module x = (if is_xp_array x then Ok (if is_cupy_array x then "cupy" else "numpy") else Err ValueError) /\
  get_array_ops x = (if is_cupy_array x then cupy_ops else numpy_ops).
Proof. exact array_module_ok. Qed.
Print Assumptions C69_array_module.
Theorem C69_thread_ops : forall s o, contextvars_eq_thread_ops (with_ctx s (set_current_ops (y_ctx s) o)) = true.
Proof. exact thread_ops_ok. Qed.
Print Assumptions C69_thread_ops.
Theorem C69_thread_ops_iff : forall s, contextvars_eq_thread_ops s = true <-> x_ops (y_ctx s) = x_thread (y_ctx s).
Proof. exact thread_ops_iff. Qed.
Print Assumptions C69_thread_ops_iff.

(** C69. [model.to_cpu()]: every node below gets the numpy backend, all its parameters and gradients are on the host with the
    values they had, and its shims are on the CPU; other nodes and shims are as they were. *)
Theorem C69_to_cpu : forall (X A : Type) k cupy_asarray (w w' : @world X A) root, coherent w -> to_cpu k cupy_asarray w root = (w', Ok tt) ->
  (forall a, reach (graph_of (w_nodes w)) root a -> nth_error (w_ops w') a = Some numpy_ops /\
     exists n n', nth_error (w_nodes w) a = Some n /\ nth_error (w_nodes w') a = Some n' /\ node_moved (fun v v' => v' = (Host, snd v)) n n') /\
  (forall a, ~ reach (graph_of (w_nodes w)) root a -> nth_error (w_ops w') a = nth_error (w_ops w) a /\ nth_error (w_nodes w') a = nth_error (w_nodes w) a) /\
  (forall s, shim_below w root s -> exists sh, nth_error (w_shims w') s = Some sh /\ sh_place sh = Host) /\
  (forall s, ~ shim_below w root s -> nth_error (w_shims w') s = nth_error (w_shims w) s).
Proof. exact @to_cpu_moves. Qed.
Print Assumptions C69_to_cpu.
Theorem C69_to_cpu_total : forall (X A : Type) k cupy_asarray (w : @world X A) root, coherent w -> root < length (w_nodes w) ->
  (forall s sh, shim_below w root s -> nth_error (w_shims w) s = Some sh -> sh_torch sh = true) ->
  exists w', to_cpu k cupy_asarray w root = (w', Ok tt).
Proof. exact @to_cpu_total. Qed.
Print Assumptions C69_to_cpu_total.

(** C69. [model.to_gpu(id)]: likewise with the GPU backend; arrays that were on the host are on device [id] (of others CuPy
    decides whether they are copied), but shims always on device 0. *)
Theorem C69_to_gpu : forall (X A : Type) k cupy_asarray (w w' : @world X A) root id, coherent w -> to_gpu k cupy_asarray w root id = (w', Ok tt) ->
  (exists n, k_cupy k = Some (Some n) /\ (0 <= id < Z.of_nat n)%Z) /\
  (forall a, reach (graph_of (w_nodes w)) root a -> nth_error (w_ops w') a = Some cupy_ops /\
     exists n n', nth_error (w_nodes w) a = Some n /\ nth_error (w_nodes w') a = Some n' /\
       node_moved (fun v v' => snd v' = snd v /\ exists d, fst v' = Gpu d /\ (fst v = Host -> d = Z.to_nat id)) n n') /\
  (forall a, ~ reach (graph_of (w_nodes w)) root a -> nth_error (w_ops w') a = nth_error (w_ops w) a /\ nth_error (w_nodes w') a = nth_error (w_nodes w) a) /\
  (forall s, shim_below w root s -> exists sh, nth_error (w_shims w') s = Some sh /\ sh_place sh = Gpu 0) /\
  (forall s, ~ shim_below w root s -> nth_error (w_shims w') s = nth_error (w_shims w) s).
Proof. exact @to_gpu_moves. Qed.
Print Assumptions C69_to_gpu.
Theorem C69_to_gpu_total : forall (X A : Type) k cupy_asarray (w : @world X A) root id, coherent w -> root < length (w_nodes w) -> usable k id ->
  (forall s sh, shim_below w root s -> nth_error (w_shims w) s = Some sh -> sh_torch sh = true) -> has_torch_cuda_gpu k = true ->
  exists w', to_gpu k cupy_asarray w root id = (w', Ok tt).
Proof. exact @to_gpu_total. Qed.
Print Assumptions C69_to_gpu_total.

(** C69, finding: after [to_gpu(1)] the parameters are on device 1 and the shim of the same node on device 0. *)
Theorem C69_to_gpu_shims_refuted : exists w', to_gpu wit_machine (fun c _ => c) (wit_world true) 0 1 = (w', Ok tt) /\
  exists n, nth_error (w_nodes w') 1 = Some n /\ dget "W" (n_params n) = Some (Gpu 1, 7) /\ nth_error (w_shims w') 0 = Some (mkShim true (Gpu 0)).
Proof. exact to_gpu_witness. Qed.
Print Assumptions C69_to_gpu_shims_refuted.

(** C69, finding: a shim that cannot be moved leaves the model on both devices. *)
Theorem C69_to_gpu_atomic_refuted : exists (w w' : @world nat nat) e, coherent w /\ to_gpu wit_machine (fun c _ => c) w 0 1 = (w', Err e) /\
  (exists n, nth_error (w_nodes w') 0 = Some n /\ dget "W" (n_params n) = Some (Gpu 1, 7)) /\ nth_error (w_shims w') 0 = Some (mkShim false Host).
Proof. exact to_cpu_witness. Qed.
Print Assumptions C69_to_gpu_atomic_refuted.

Example C69_ex :
  usable wit_machine 1 /\ ordinary wit_machine /\ pools_ok wit_sys /\ coherent (wit_world true) /\
  (let '(s, r) := require_gpu wit_machine wit_sys 1 in r = Ok true /\ snd (get_torch_default_device wit_machine s) = Ok (TCuda 1) /\
     y_malloc (fst (set_gpu_allocator wit_machine false s "pytorch")) = Some (mkPool 0 "pytorch")) /\
  prefer_gpu (mkMachine false false None None) wit_sys 0 = (wit_sys, Ok false) /\
  snd (require_gpu (mkMachine true false None (Some (0, true, true))) wit_sys 0) = Ok true.
Proof.
  split; [split; [exists 2; split; [reflexivity|split; [discriminate|reflexivity]]|intros n b a [= <- _ _] _; reflexivity]|].
  split; [intros _; split; [discriminate|reflexivity]|]. split; [split; [intros name p [=]|intros p [=]]|]. split; [apply wit_coherent|].
  vm_compute. repeat split.
Qed.
