(** The construction of wrapped PyTorch and TorchScript models: thinc/shims/shim.py 28-37, shims/pytorch.py 48-107, shims/torchscript.py,
    layers/pytorchwrapper.py 19-210 and layers/torchscriptwrapper.py. No proofs here.
    PyTorch is outside: [jit_script] is torch.jit.script, [jit_save] and [jit_load] are torch.jit.save and torch.jit.load. Modules, gradient
    scalers and shims are objects with identity. That a module and what torch.jit.script makes of it share their parameters is left out,
    as are the ids of models. *)
From Coq Require Import String.
From Verif Require Export DeviceModel.
Local Open Scope string_scope.

(** What a wrapper is given: something without a method [to], a torch.nn.Module, or a torch.jit.ScriptModule (which are modules too) *)
Inductive mclass := NotModule | NnModule | ScriptModule.
(** Serialization functions, and conversions of inputs and outputs: the defaults, those of RNNs, or the user's *)
Inductive serfn := DefaultFn | UserFn (i : nat).
Inductive convfn := DefaultInputs | DefaultOutputs | RnnInputs | RnnOutputs | UserConv (i : nat).
(** pytorch_grad_scaler.py 20-57: [gs_config] is the initial scale, backoff factor (halves), growth factor and growth interval *)
Record gscaler := mkGs { gs_enabled : bool; gs_config : Z * Z * Z * Z; gs_device : torch_device }.
Definition default_config : Z * Z * Z * Z := (65536, 1, 2, 2000)%Z.

Section TorchBuild.
  Context {V B : Type}.
  Variable k : machine.
  (** The parameters of a module: where they are, and their values *)
  Record tmodule := mkMod { m_class : mclass; m_params : list (torch_device * V) }.
  Variable jit_script : tmodule -> result tmodule.
  Variable jit_save : tmodule -> B.
  Variable jit_load : B -> torch_device -> result tmodule.

  (** A PyTorchShim, or (ts_script) a TorchScriptShim, which is a subclass *)
  Record tshim := mkTs {
    ts_id : nat; ts_script : bool; ts_model : option nat; ts_cfg : dict string string; ts_optimizer : option nat;
    ts_scaler : nat; ts_mixed : bool; ts_ser : serfn; ts_deser : serfn }.
  (** The state: [Shim.global_id] and all objects *)
  Record tst := mkTst { t_sys : sys; t_id : nat; t_modules : list tmodule; t_scalers : list gscaler; t_shims : list tshim }.
  Definition tact (A : Type) : Type := tst -> tst * result A.
  Definition ret {A} (x : A) : tact A := fun s => (s, Ok x).
  Definition fail {A} (e : err) : tact A := fun s => (s, Err e).
  Definition andthen {A C} (m : tact A) (f : A -> tact C) : tact C := fun s =>
    match m s with (s, Ok x) => f x s | (s, Err e) => (s, Err e) end.
  Notation "'let!' x ':=' m 'in' f" := (andthen m (fun x => f)) (at level 200, x pattern, m at level 100, f at level 200).

  Fixpoint set_at {A} (l : list A) (i : nat) (x : A) : list A :=
    match l, i with [], _ => [] | _ :: l, 0 => x :: l | y :: l, S i => y :: set_at l i x end.
  Definition on_sys {A} (f : sys -> sys * result A) : tact A := fun s =>
    let (y, r) := f (t_sys s) in (mkTst y (t_id s) (t_modules s) (t_scalers s) (t_shims s), r).
  Definition new_id : tact nat := fun s => (mkTst (t_sys s) (S (t_id s)) (t_modules s) (t_scalers s) (t_shims s), Ok (S (t_id s))).
  Definition module_at (a : nat) : tact tmodule := fun s => (s, match nth_error (t_modules s) a with Some m => Ok m | None => Err MemFault end).
  Definition scaler_at (g : nat) : tact gscaler := fun s => (s, match nth_error (t_scalers s) g with Some x => Ok x | None => Err MemFault end).
  Definition shim_at (a : nat) : tact tshim := fun s => (s, match nth_error (t_shims s) a with Some x => Ok x | None => Err MemFault end).
  Definition set_module (a : nat) (m : tmodule) : tact unit := fun s => (mkTst (t_sys s) (t_id s) (set_at (t_modules s) a m) (t_scalers s) (t_shims s), Ok tt).
  Definition set_scaler (g : nat) (x : gscaler) : tact unit := fun s => (mkTst (t_sys s) (t_id s) (t_modules s) (set_at (t_scalers s) g x) (t_shims s), Ok tt).
  Definition set_shim (a : nat) (x : tshim) : tact unit := fun s => (mkTst (t_sys s) (t_id s) (t_modules s) (t_scalers s) (set_at (t_shims s) a x), Ok tt).
  Definition new_module (m : tmodule) : tact nat := fun s => (mkTst (t_sys s) (t_id s) (t_modules s ++ [m]) (t_scalers s) (t_shims s), Ok (length (t_modules s))).
  Definition new_scaler (x : gscaler) : tact nat := fun s => (mkTst (t_sys s) (t_id s) (t_modules s) (t_scalers s ++ [x]) (t_shims s), Ok (length (t_scalers s))).
  Definition new_shim (x : tshim) : tact nat := fun s => (mkTst (t_sys s) (t_id s) (t_modules s) (t_scalers s) (t_shims s ++ [x]), Ok (length (t_shims s))).

  (** PyTorch can use a device *)
  Definition there (d : torch_device) : bool :=
    match d, k_torch k with
    | _, None => false
    | TCpu, _ => true
    | TMps, Some (_, built, available) => built && available
    | TCuda i, Some (n, _, _) => Nat.ltb i n
    end.
  (** [module.to(device)]: in place; without parameters there is nothing to move *)
  Definition move_module (a : nat) (d : torch_device) : tact unit :=
    let! m := module_at a in
    match m_class m with
    | NotModule => fail AttributeError
    | c => match m_params m with
           | [] => ret tt
           | ps => if there d then set_module a (mkMod c (map (fun p => (d, snd p)) ps)) else fail RuntimeError
           end
    end.
  (** pytorch_grad_scaler.py 59-61 [to_]: in place *)
  Definition move_scaler (g : nat) (d : torch_device) : tact unit :=
    let! x := scaler_at g in
    if there d then set_scaler g (mkGs (gs_enabled x) (gs_config x) d) else fail RuntimeError.
  Definition default_device : tact torch_device := on_sys (get_torch_default_device k).

  (** shims/pytorch.py 82-88: with CuPy, PyTorch's memory pool becomes the allocator, unless that happened before *)
  Definition pytorch_memory : tact unit :=
    if has_cupy k then
      let! o := on_sys (fun y => let (c, r) := get_current_ops (registered k) (y_ctx y) in (with_ctx y c, r)) in
      if Nat.eqb o cupy_ops then
        fun s => if dmem "pytorch" (y_pools (t_sys s)) then (s, Ok tt) else on_sys (fun y => set_gpu_allocator k false y "pytorch") s
      else ret tt
    else ret tt.
  (** shims/shim.py 28-37 and shims/pytorch.py 48-88: [__init__] *)
  Definition pytorch_shim (script : bool) (model : option nat) (config : option (dict string string)) (optimizer : option nat) (mixed : bool)
      (grad_scaler : option nat) (device : option torch_device) (ser deser : option serfn) : tact nat :=
    let! id := new_id in
    let! d := match device with Some d => ret d | None => default_device end in
    let! _ := match model with Some a => move_module a d | None => ret tt end in
    let! g := match grad_scaler with Some g => ret g | None => new_scaler (mkGs mixed default_config TCpu) end in
    let! _ := move_scaler g d in
    let! _ := pytorch_memory in
    new_shim (mkTs id script model match config with Some c => c | None => [] end optimizer g mixed
                match ser with Some f => f | None => DefaultFn end match deser with Some f => f | None => DefaultFn end).
  (** shims/torchscript.py 31-45 [__init__]: the class is checked first *)
  Definition torchscript_shim (model : option nat) (config : option (dict string string)) (optimizer : option nat) (mixed : bool) (grad_scaler : option nat)
      (device : option torch_device) : tact nat :=
    let! _ := match model with
              | None => ret tt
              | Some a => let! m := module_at a in match m_class m with ScriptModule => ret tt | _ => fail ValueError end
              end in
    pytorch_shim true model config optimizer mixed grad_scaler device None None.
  (** shims/pytorch.py 101-107 [device]: of the first parameter *)
  Definition shim_device (sh : tshim) : tact torch_device :=
    match ts_model sh with
    | None => fail AttributeError
    | Some a => let! m := module_at a in
                match m_class m with
                | NotModule => fail AttributeError
                | _ => match m_params m with [] => default_device | p :: _ => ret (fst p) end
                end
    end.

  (** ** The layers. A shim of another class is [OtherShim]. *)
  Inductive shimref := TorchShim (a : nat) | OtherShim.
  Record wrapper := mkWr { w_name : string; w_attrs : dict string convfn; w_shims : list shimref; w_dims : dict string (option Z) }.
  Definition conversions (convert_inputs convert_outputs : option convfn) : dict string convfn :=
    [("convert_inputs", match convert_inputs with Some f => f | None => DefaultInputs end);
     ("convert_outputs", match convert_outputs with Some f => f | None => DefaultOutputs end)].
  Definition no_dims : dict string (option Z) := [("nI", None); ("nO", None)].
  (** layers/pytorchwrapper.py 37-76 *)
  Definition pytorch_wrapper_v1 (model : option nat) (ci co : option convfn) : tact wrapper :=
    let! a := pytorch_shim false model None None false None None None None in
    ret (mkWr "pytorch" (conversions ci co) [TorchShim a] no_dims).
  (** 79-138 *)
  Definition pytorch_wrapper_v2 (model : option nat) (ci co : option convfn) (mixed : bool) (scaler : option nat) (device : option torch_device) : tact wrapper :=
    let! a := pytorch_shim false model None None mixed scaler device None None in
    ret (mkWr "pytorch" (conversions ci co) [TorchShim a] no_dims).
  (** 141-210 *)
  Definition pytorch_wrapper_v3 (model : option nat) (ci co : option convfn) (mixed : bool) (scaler : option nat) (device : option torch_device)
      (ser deser : option serfn) : tact wrapper :=
    let! a := pytorch_shim false model None None mixed scaler device ser deser in
    ret (mkWr "pytorch" (conversions ci co) [TorchShim a] no_dims).
  (** 19-34 *)
  Definition pytorch_rnn_wrapper (model : option nat) (ci co : option convfn) : tact wrapper :=
    pytorch_wrapper_v1 model (Some match ci with Some f => f | None => RnnInputs end) (Some match co with Some f => f | None => RnnOutputs end).
  (** layers/torchscriptwrapper.py 13-63 *)
  Definition torchscript_wrapper (model : option nat) (ci co : option convfn) (mixed : bool) (scaler : option nat) (device : option torch_device) : tact wrapper :=
    let! a := torchscript_shim model None None mixed scaler device in
    ret (mkWr "pytorch_script" (conversions ci co) [TorchShim a] no_dims).
  (** 66-93 [pytorch_to_torchscript_wrapper] *)
  Definition lookup_conv (w : wrapper) (name : string) : result convfn := match dget name (w_attrs w) with Some f => Ok f | None => Err KeyError end.
  Definition lift {A} (r : result A) : tact A := fun s => (s, r).
  Definition to_torchscript (w : wrapper) : tact wrapper :=
    match w_shims w with
    | [] => fail IndexError
    | OtherShim :: _ => fail ValueError
    | TorchShim a :: _ =>
        let! sh := shim_at a in
        let! ci := lift (lookup_conv w "convert_inputs") in
        let! co := lift (lookup_conv w "convert_outputs") in
        match ts_model sh with
        | None => fail ValueError
        | Some i =>
            let! m := module_at i in
            match m_class m with
            | NotModule => fail ValueError
            | c =>
                let! j := match c with
                          | ScriptModule => ret i
                          | _ => let! m' := lift (jit_script m) in new_module m'
                          end in
                let! d := shim_device sh in
                torchscript_wrapper (Some j) (Some ci) (Some co) (ts_mixed sh) (Some (ts_scaler sh)) (Some d)
            end
        end
    end.

  (** ** shims/torchscript.py 47-66: serialization. The message is a dict of the config and the bytes of the module; torch.jit.save needs a module *)
  Definition script_to_bytes (a : nat) : tact (dict string string * B) :=
    let! sh := shim_at a in
    match ts_model sh with
    | None => fail AttributeError
    | Some i => let! m := module_at i in ret (ts_cfg sh, jit_save m)
    end.
  Definition with_cfg (sh : tshim) (cfg : dict string string) (model : option nat) : tshim :=
    mkTs (ts_id sh) (ts_script sh) model cfg (ts_optimizer sh) (ts_scaler sh) (ts_mixed sh) (ts_ser sh) (ts_deser sh).
  Definition script_from_bytes (a : nat) (msg : dict string string * B) : tact unit :=
    let! d := default_device in
    let! sh := shim_at a in
    let! _ := set_shim a (with_cfg sh (fst msg) (ts_model sh)) in
    let! m := lift (jit_load (snd msg) match d with TMps => TCpu | _ => d end) in
    let! i := new_module m in
    let! _ := set_shim a (with_cfg sh (fst msg) (Some i)) in
    let! _ := move_module i d in
    move_scaler (ts_scaler sh) d.
End TorchBuild.
Arguments tst : clear implicits. Arguments tmodule : clear implicits.
