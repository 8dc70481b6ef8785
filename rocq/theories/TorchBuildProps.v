(** Property C79: wrapped PyTorch models are built as asked for. *)
From Coq Require Import String ZArith List Bool.
From Verif Require Import TorchBuildSpec TorchBuildProofs DeviceSpec.
Import ListNotations.
Local Open Scope string_scope.

(** A shim that is built: one new id, the config and optimizer given, the module and the gradient scaler on the device that was asked for or is the default. *)
Theorem C79_shim : forall {V : Type} (k : machine) script model config optimizer mixed grad_scaler device ser deser (s s' : tst V) a,
  pytorch_shim k script model config optimizer mixed grad_scaler device ser deser s = (s', Ok a) ->
  built k s s' a script model match config with Some c => c | None => [] end optimizer mixed grad_scaler device match ser with Some f => f | None => DefaultFn end match deser with Some f => f | None => DefaultFn end.
Proof. exact @shim_built. Qed.
Print Assumptions C79_shim.

(** With a module, a device that is there and no CuPy, it is built. *)
Theorem C79_succeeds : forall {V : Type} (k : machine) script model config optimizer mixed grad_scaler d ser deser (s : tst V), no_cupy k s -> there k d = true ->
  (forall i, model = Some i -> exists m, nth_error (t_modules s) i = Some m /\ m_class m <> NotModule) -> (forall g, grad_scaler = Some g -> g < length (t_scalers s)) ->
  exists s' a, pytorch_shim k script model config optimizer mixed grad_scaler (Some d) ser deser s = (s', Ok a).
Proof. exact @shim_succeeds. Qed.
Print Assumptions C79_succeeds.

(** What is no module raises AttributeError; an id is used up. *)
Theorem C79_not_module : forall {V : Type} (k : machine) script i m config optimizer mixed grad_scaler d ser deser (s : tst V), nth_error (t_modules s) i = Some m -> m_class m = NotModule ->
  pytorch_shim k script (Some i) config optimizer mixed grad_scaler (Some d) ser deser s = (mkTst (t_sys s) (S (t_id s)) (t_modules s) (t_scalers s) (t_shims s), Err AttributeError).
Proof. exact @shim_not_module. Qed.
Print Assumptions C79_not_module.

(** A device that is not there raises RuntimeError; an id is used up. *)
Theorem C79_no_device : forall {V : Type} (k : machine) script i m config optimizer mixed grad_scaler d ser deser (s : tst V), nth_error (t_modules s) i = Some m -> m_class m <> NotModule -> m_params m <> [] -> there k d = false ->
  pytorch_shim k script (Some i) config optimizer mixed grad_scaler (Some d) ser deser s = (mkTst (t_sys s) (S (t_id s)) (t_modules s) (t_scalers s) (t_shims s), Err RuntimeError).
Proof. exact @shim_no_device. Qed.
Print Assumptions C79_no_device.

(** A TorchScript shim wants a ScriptModule; otherwise nothing happens. *)
Theorem C79_script_class : forall {V : Type} (k : machine) i m config optimizer mixed grad_scaler device (s : tst V), nth_error (t_modules s) i = Some m -> m_class m <> ScriptModule ->
  torchscript_shim k (Some i) config optimizer mixed grad_scaler device s = (s, Err ValueError).
Proof. exact @script_class. Qed.
Print Assumptions C79_script_class.

(** With CuPy, the first shim makes the memory pool of PyTorch the allocator; later ones leave it. *)
Theorem C79_memory : forall {V : Type} (k : machine) script model config optimizer mixed grad_scaler d ser deser (s s' : tst V) a n b1 b2, k_torch k = Some (n, b1, b2) -> n <> 0 -> has_cupy k = true -> x_ops (y_ctx (t_sys s)) = Some cupy_ops ->
  pytorch_shim k script model config optimizer mixed grad_scaler (Some d) ser deser s = (s', Ok a) ->
  (dmem "pytorch" (y_pools (t_sys s)) = true -> t_sys s' = t_sys s) /\
  (dmem "pytorch" (y_pools (t_sys s)) = false -> let p := mkPool (y_made (t_sys s)) "pytorch" in y_malloc (t_sys s') = Some p /\ y_pools (t_sys s') = dset "pytorch" p (y_pools (t_sys s)) /\ y_made (t_sys s') = S (y_made (t_sys s)) /\ y_ctx (t_sys s') = y_ctx (t_sys s)).
Proof. exact @shim_memory. Qed.
Print Assumptions C79_memory.

(** The third version of the wrapper. *)
Theorem C79_v3 : forall {V : Type} (k : machine) model ci co mixed g d ser deser (s s' : tst V) w, pytorch_wrapper_v3 k model ci co mixed g d ser deser s = (s', Ok w) ->
  exists a, w = mkWr "pytorch" [("convert_inputs", match ci with Some f => f | None => DefaultInputs end); ("convert_outputs", match co with Some f => f | None => DefaultOutputs end)] [TorchShim a] [("nI", None); ("nO", None)] /\
  built k s s' a false model [] None mixed g d match ser with Some f => f | None => DefaultFn end match deser with Some f => f | None => DefaultFn end.
Proof. exact @v3_built. Qed.
Print Assumptions C79_v3.

(** The wrapper of RNNs. *)
Theorem C79_rnn : forall {V : Type} (k : machine) model ci co (s s' : tst V) w, pytorch_rnn_wrapper k model ci co s = (s', Ok w) ->
  exists a, w = mkWr "pytorch" [("convert_inputs", match ci with Some f => f | None => RnnInputs end); ("convert_outputs", match co with Some f => f | None => RnnOutputs end)] [TorchShim a] [("nI", None); ("nO", None)] /\
  built k s s' a false model [] None false None None DefaultFn DefaultFn.
Proof. exact @rnn_built. Qed.
Print Assumptions C79_rnn.

(** The wrapper of TorchScript modules. *)
Theorem C79_script : forall {V : Type} (k : machine) model ci co mixed g d (s s' : tst V) w, torchscript_wrapper k model ci co mixed g d s = (s', Ok w) ->
  exists a, w = mkWr "pytorch_script" [("convert_inputs", match ci with Some f => f | None => DefaultInputs end); ("convert_outputs", match co with Some f => f | None => DefaultOutputs end)] [TorchShim a] [("nI", None); ("nO", None)] /\
  built k s s' a true model [] None mixed g d DefaultFn DefaultFn /\ (forall i, model = Some i -> exists m, nth_error (t_modules s) i = Some m /\ m_class m = ScriptModule).
Proof. exact @script_built. Qed.
Print Assumptions C79_script.

(** The first version is the second with defaults, the second the third. *)
Theorem C79_versions : forall {V : Type} (k : machine) model ci co mixed g d (s : tst V),
  pytorch_wrapper_v1 k model ci co s = pytorch_wrapper_v2 k model ci co false None None s /\
  pytorch_wrapper_v2 k model ci co mixed g d s = pytorch_wrapper_v3 k model ci co mixed g d None None s.
Proof. exact @versions. Qed.
Print Assumptions C79_versions.

(** Building never changes what exists apart from devices, and ids of shims are given out once, even if it fails. *)
Theorem C79_kept : forall {V : Type} (k : machine) (jit_script : tmodule V -> result (tmodule V)) script model config optimizer mixed g d ser deser w (s s' : tst V),
  ((exists r, pytorch_shim k script model config optimizer mixed g d ser deser s = (s', r)) \/ (exists r, torchscript_shim k model config optimizer mixed g d s = (s', r)) \/
   (exists r, to_torchscript k jit_script w s = (s', r))) ->
  kept s s' /\ (ids_ok s -> ids_ok s').
Proof. exact @all_kept. Qed.
Print Assumptions C79_kept.

(** Conversion to TorchScript: the new shim has the scripted module on the device of the first parameter, the same gradient scaler, the same
    conversions and mixed precision as before. *)
Theorem C79_convert : forall {V : Type} (k : machine) (jit_script : tmodule V -> result (tmodule V)) w (s s' : tst V) w', to_torchscript k jit_script w s = (s', Ok w') ->
  exists a rest sh ci co i m m' d a' sh',
  w_shims w = TorchShim a :: rest /\ nth_error (t_shims s) a = Some sh /\ dget "convert_inputs" (w_attrs w) = Some ci /\ dget "convert_outputs" (w_attrs w) = Some co /\
  ts_model sh = Some i /\ nth_error (t_modules s) i = Some m /\
  match m_class m with NotModule => False | NnModule => jit_script m = Ok m' | ScriptModule => m' = m end /\ m_class m' = ScriptModule /\
  match m_params m with p :: _ => d = fst p | [] => snd (get_torch_default_device k (t_sys s)) = Ok d end /\
  w' = mkWr "pytorch_script" [("convert_inputs", ci); ("convert_outputs", co)] [TorchShim a'] [("nI", None); ("nO", None)] /\
  nth_error (t_shims s') a' = Some sh' /\
  (let j := match m_class m with ScriptModule => i | _ => length (t_modules s) end in
  sh' = mkTs (S (t_id s)) true (Some j) [] None (ts_scaler sh) (ts_mixed sh) DefaultFn DefaultFn /\ nth_error (t_modules s') j = Some (placed d m')).
Proof. exact @convert_result. Qed.
Print Assumptions C79_convert.

(** What conversion can raise, with nothing changed. *)
Theorem C79_convert_errors : forall {V : Type} (k : machine) (jit_script : tmodule V -> result (tmodule V)) w (s : tst V),
  (w_shims w = [] -> to_torchscript k jit_script w s = (s, Err IndexError)) /\
  (forall l, w_shims w = OtherShim :: l -> to_torchscript k jit_script w s = (s, Err ValueError)) /\
  (forall a l sh, w_shims w = TorchShim a :: l -> nth_error (t_shims s) a = Some sh ->
  (dget "convert_inputs" (w_attrs w) = None \/ dget "convert_outputs" (w_attrs w) = None -> to_torchscript k jit_script w s = (s, Err KeyError)) /\
  (dget "convert_inputs" (w_attrs w) <> None -> dget "convert_outputs" (w_attrs w) <> None ->
  (ts_model sh = None \/ (exists i m, ts_model sh = Some i /\ nth_error (t_modules s) i = Some m /\ m_class m = NotModule) -> to_torchscript k jit_script w s = (s, Err ValueError)) /\
  (forall i m e, ts_model sh = Some i -> nth_error (t_modules s) i = Some m -> m_class m = NnModule -> jit_script m = Err e -> to_torchscript k jit_script w s = (s, Err e)))).
Proof. exact @convert_errors. Qed.
Print Assumptions C79_convert_errors.

(** Refuted: the converted layer is like the layer. The config, optimizer, serialization functions, dimensions and name are dropped, and parameters on other devices are moved. *)
Theorem C79_convert_refuted : exists s' sh, to_torchscript twit_machine twit_script twit_layer twit_shimmed =
  (s', Ok (mkWr "pytorch_script" [("convert_inputs", RnnInputs); ("convert_outputs", UserConv 7)] [TorchShim 1] [("nI", None); ("nO", None)])) /\
  nth_error (t_shims s') 1 = Some sh /\ ts_cfg sh = [] /\ ts_optimizer sh = None /\ ts_ser sh = DefaultFn /\ ts_deser sh = DefaultFn /\
  nth_error (t_modules twit_shimmed) 0 = Some (mkMod NnModule [(TCpu, 10); (TCuda 1, 20)]) /\ nth_error (t_modules s') 2 = Some (mkMod ScriptModule [(TCpu, 10); (TCpu, 20)]).
Proof. exact @convert_drops. Qed.
Print Assumptions C79_convert_refuted.

(** Serialization of TorchScript shims: values of parameters and the config come back, on the default device; the id and the rest of the shim stay. *)
Theorem C79_script_round : forall {V B : Type} (k : machine) (jit_save : tmodule V -> B) jit_load a (s : tst V) sh i m b (s2 : tst V) sh2 d,
  nth_error (t_shims s) a = Some sh -> ts_model sh = Some i -> nth_error (t_modules s) i = Some m -> m_class m = ScriptModule ->
  nth_error (t_shims s2) b = Some sh2 -> ts_scaler sh2 < length (t_scalers s2) -> snd (get_torch_default_device k (t_sys s2)) = Ok d -> there k d = true -> (forall d', jit_load (jit_save m) d' = Ok (placed d' m)) ->
  exists msg s3, script_to_bytes jit_save a s = (s, Ok msg) /\ script_from_bytes k jit_load b msg s2 = (s3, Ok tt) /\
  nth_error (t_shims s3) b = Some (mkTs (ts_id sh2) (ts_script sh2) (Some (length (t_modules s2))) (ts_cfg sh) (ts_optimizer sh2) (ts_scaler sh2) (ts_mixed sh2) (ts_ser sh2) (ts_deser sh2)) /\
  nth_error (t_modules s3) (length (t_modules s2)) = Some (placed d m) /\ (forall j x, nth_error (t_modules s2) j = Some x -> nth_error (t_modules s3) j = Some x) /\
  changed_at (Some (ts_scaler sh2)) (fun x => mkGs (gs_enabled x) (gs_config x) d) (t_scalers s2) (t_scalers s3).
Proof. exact @script_round. Qed.
Print Assumptions C79_script_round.

(** Without a module, there is nothing to save. *)
Theorem C79_script_empty : forall {V B : Type} (jit_save : tmodule V -> B) a (s : tst V) sh, nth_error (t_shims s) a = Some sh -> ts_model sh = None -> script_to_bytes jit_save a s = (s, Err AttributeError).
Proof. exact @script_empty. Qed.
Print Assumptions C79_script_empty.

(** Refuted: a shim that could not be loaded is as before. The config was replaced already. *)
Theorem C79_script_load_refuted : forall {V B : Type} (k : machine) (jit_load : B -> torch_device -> result (tmodule V)) b (s : tst V) sh msg d e, nth_error (t_shims s) b = Some sh -> snd (get_torch_default_device k (t_sys s)) = Ok d -> (forall d', jit_load (snd msg) d' = Err e) ->
  exists s', script_from_bytes k jit_load b msg s = (s', Err e) /\ nth_error (t_shims s') b = Some (mkTs (ts_id sh) (ts_script sh) (ts_model sh) (fst msg) (ts_optimizer sh) (ts_scaler sh) (ts_mixed sh) (ts_ser sh) (ts_deser sh)).
Proof. exact @script_load_fails. Qed.
Print Assumptions C79_script_load_refuted.

(** ** The hypotheses can be met *)
Definition tex_state : tst nat := mkTst wit_sys 4 [mkMod NnModule [(TCpu, 10); (TCuda 1, 20)]; mkMod ScriptModule [(TCpu, 1)]] [] [].
Example C79_shim_ex : exists s', pytorch_wrapper_v3 twit_machine (Some 0) None None true None (Some (TCuda 1)) None None tex_state =
    (s', Ok (mkWr "pytorch" [("convert_inputs", DefaultInputs); ("convert_outputs", DefaultOutputs)] [TorchShim 0] [("nI", None); ("nO", None)])) /\
  t_shims s' = [mkTs 5 false (Some 0) [] None 0 true DefaultFn DefaultFn] /\ nth_error (t_modules s') 0 = Some (mkMod NnModule [(TCuda 1, 10); (TCuda 1, 20)]) /\
  t_scalers s' = [mkGs true (65536, 1, 2, 2000)%Z (TCuda 1)] /\ no_cupy twit_machine tex_state /\ there twit_machine (TCuda 1) = true /\ there twit_machine (TCuda 2) = false /\ ids_ok tex_state.
Proof.
  eexists. split; [vm_compute; reflexivity|]. split; [reflexivity|]. split; [reflexivity|]. split; [reflexivity|]. split; [left; reflexivity|]. split; [reflexivity|]. split; [reflexivity|].
  split; [constructor | intros sh []].
Qed.
Example C79_script_ex : exists s', torchscript_wrapper twit_machine (Some 1) None None false None None tex_state =
    (s', Ok (mkWr "pytorch_script" [("convert_inputs", DefaultInputs); ("convert_outputs", DefaultOutputs)] [TorchShim 0] [("nI", None); ("nO", None)])) /\
  exists msg s2, script_to_bytes (fun m => m) 0 s' = (s', Ok msg) /\ script_from_bytes twit_machine (fun m d => Ok (placed d m)) 0 msg s' = (s2, Ok tt) /\
  nth_error (t_modules s2) 2 = Some (mkMod ScriptModule [(TCpu, 1)]).
Proof. eexists. split; [vm_compute; reflexivity|]. eexists. eexists. split; [vm_compute; reflexivity|]. split; vm_compute; reflexivity. Qed.
(** With CuPy in use *)
Example C79_memory_ex : exists s', pytorch_shim (mkMachine false false (Some (Some 1)) (Some (1, false, false))) false None None None false None (Some TCpu) None None
    (mkTst (mkSys (mkCtx (Some cupy_ops) (Some numpy_ops) [] false) 0 0 [] 0 None) 0 [] [] [] : tst nat) = (s', Ok 0) /\ dmem "pytorch" (y_pools (t_sys s')) = true.
Proof. eexists. split; vm_compute; reflexivity. Qed.
