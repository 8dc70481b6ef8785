(** Vocabulary for the construction of wrapped PyTorch models: C79. *)
From Coq Require Import String ZArith List Bool.
From Verif Require Export TorchBuildModel.
From Verif Require Import DeviceSpec.
Import ListNotations.
Local Open Scope string_scope.

(** A module with its parameters on one device *)
Definition placed {V} (d : torch_device) (m : tmodule V) : tmodule V := mkMod (m_class m) (map (fun p => (d, snd p)) (m_params m)).
(** Element i of a list, and only that, is changed by f *)
Definition changed_at {A} (i : option nat) (f : A -> A) (l l' : list A) : Prop :=
  length l' = length l /\ forall j x, nth_error l j = Some x -> nth_error l' j = Some (match i with Some i => if Nat.eqb i j then f x else x | None => x end).
(** A shim on its own, with the device that was asked for or is the default *)
Definition device_of (k : machine) {V} (s : tst V) (device : option torch_device) (d : torch_device) : Prop :=
  device = Some d \/ (device = None /\ snd (get_torch_default_device k (t_sys s)) = Ok d).
(** What one construction of a shim does: one new id and one new shim; the module and the gradient scaler are on the device *)
Definition built {V} (k : machine) (s s' : tst V) (a : nat) (script : bool) (model : option nat) (config : dict string string) (optimizer : option nat) (mixed : bool)
    (grad_scaler : option nat) (device : option torch_device) (ser deser : serfn) : Prop :=
  exists d sh, device_of k s device d /\ a = length (t_shims s) /\ t_shims s' = (t_shims s ++ [sh])%list /\ t_id s' = S (t_id s) /\
    (let g := match grad_scaler with Some g => g | None => length (t_scalers s) end in sh = mkTs (S (t_id s)) script model config optimizer g mixed ser deser) /\
    changed_at model (placed d) (t_modules s) (t_modules s') /\
    match grad_scaler with
    | Some g => changed_at (Some g) (fun x => mkGs (gs_enabled x) (gs_config x) d) (t_scalers s) (t_scalers s')
    | None => t_scalers s' = (t_scalers s ++ [mkGs mixed (65536, 1, 2, 2000)%Z d])%list
    end.
(** The ids of shims: given out once *)
Definition ids_ok {V} (s : tst V) : Prop := NoDup (map ts_id (t_shims s)) /\ forall sh, In sh (t_shims s) -> 1 <= ts_id sh <= t_id s.
(** Everything that exists stays: modules and scalers keep all but their devices, shims do not change *)
Definition kept {V} (s s' : tst V) : Prop :=
  (exists l, t_shims s' = (t_shims s ++ l)%list) /\ t_id s <= t_id s' /\
  (forall i m, nth_error (t_modules s) i = Some m -> exists m', nth_error (t_modules s') i = Some m' /\ m_class m' = m_class m /\ map snd (m_params m') = map snd (m_params m)) /\
  (forall i x, nth_error (t_scalers s) i = Some x -> exists x', nth_error (t_scalers s') i = Some x' /\ gs_enabled x' = gs_enabled x /\ gs_config x' = gs_config x).
(** CuPy is not in use *)
Definition no_cupy (k : machine) {V} (s : tst V) : Prop := has_cupy k = false \/ exists o, x_ops (y_ctx (t_sys s)) = Some o /\ o <> cupy_ops.

(** A machine with PyTorch and two CUDA devices but no CuPy, and a module with parameters on two devices *)
Definition twit_machine : machine := mkMachine false false None (Some (2, false, false)).
Definition twit_state : tst nat := mkTst wit_sys 4 [mkMod NnModule [(TCpu, 10); (TCuda 1, 20)]; mkMod NotModule []] [mkGs false (1, 1, 1, 1)%Z TCpu] [].
Definition twit_script (m : tmodule nat) : result (tmodule nat) := Ok (mkMod ScriptModule (m_params m)).
(** The same with a shim of this module, and a layer with the shim *)
Definition twit_shimmed : tst nat := mkTst wit_sys 4 (t_modules twit_state) (t_scalers twit_state) [mkTs 4 false (Some 0) [("a", "b")] (Some 3) 0 true (UserFn 1) (UserFn 2)].
Definition twit_layer : wrapper := mkWr "mine" [("convert_inputs", RnnInputs); ("convert_outputs", UserConv 7)] [TorchShim 0] [("nI", Some 4%Z); ("nO", Some 5%Z)].
