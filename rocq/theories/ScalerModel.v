(** The gradient scaler and the PyTorch shim: thinc/shims/pytorch_grad_scaler.py, thinc/shims/pytorch.py. No proofs here.
    PyTorch itself is outside: tensors are lists of scalars of any type with a test for finite values; what autograd adds to the
    gradients, the optimizer and the serialization of a state dict are parameters. The two fused kernels of PyTorch the scaler
    calls are written out ([check_and_unscale], [amp_update_scale]). Devices are reduced to "on a GPU or not"; the conversion of
    the inverse scale to double and back, the autocast contexts and locks are left out. *)
From Coq Require Import String.
From Verif Require Export NumModel.

Section Scaler.
  Context {T : Type} `{Num T} (finite : T -> bool).
  Local Open Scope num_scope.

  (** pytorch_grad_scaler.py 20-56: the attributes *)
  Record scaler := mkScaler { sc_enabled : bool; sc_growth : T; sc_backoff : T; sc_interval : nat;
                              sc_tracker : nat; sc_scale : T; sc_found : bool }.
  Definition new_scaler (enabled : bool) (init_scale backoff growth : T) (interval : nat) : scaler :=
    mkScaler enabled growth backoff interval 0 init_scale false.

  Record tensor := mkT { t_cuda : bool; t_data : list T }.
  Inductive scalable := OneTensor (t : tensor) | Iter (l : list (option tensor)) | Other.

  (** 93-120 [_scale_tensor]; [amp]: compat.has_torch_amp *)
  Definition scale_tensor (amp : bool) (s : scaler) (t : tensor) : result tensor :=
    if negb amp then Err ValueError
    else if negb (t_cuda t) then Err ValueError
    else Ok (mkT (t_cuda t) (map (fun x => x * sc_scale s) (t_data t))).
  (** 62-91 [scale]: items of an iterable that are no tensors are [None] *)
  Definition scale (amp : bool) (s : scaler) (x : scalable) : result scalable :=
    if negb (sc_enabled s) then Ok x
    else match x with
         | OneTensor t => let* t := scale_tensor amp s t in Ok (OneTensor t)
         | Iter l => let* l := mapM (fun o => match o with Some t => let* t := scale_tensor amp s t in Ok (Some t) | None => Err ValueError end) l in Ok (Iter l)
         | Other => Err ValueError
         end.

  (** [torch._amp_foreach_non_finite_check_and_unscale_]: all tensors multiplied; whether any value was not finite *)
  Definition check_and_unscale (grads : list (list T)) (inv : T) : bool * list (list T) :=
    (existsb (fun g => existsb (fun x => negb (finite x)) g) grads, map (map (fun x => x * inv)) grads).
  (** 134-155 [unscale]: whether an overflow was seen since the last update, the tensors, the scaler *)
  Definition unscale (s : scaler) (grads : list (list T)) : bool * list (list T) * scaler :=
    if negb (sc_enabled s) then (false, grads, s)
    else
      let inv_scale := nZ 1 / sc_scale s in
      let (found, grads) := check_and_unscale grads inv_scale in
      let found := (sc_found s || found)%bool in
      (found, grads, mkScaler (sc_enabled s) (sc_growth s) (sc_backoff s) (sc_interval s) (sc_tracker s) (sc_scale s) found).

  (** [torch._amp_update_scale_]: the new scale and growth tracker *)
  Definition amp_update_scale (sc : T) (tracker : nat) (found : bool) (growth backoff : T) (interval : nat) : T * nat :=
    if found then (sc * backoff, O)
    else if Nat.eqb (S tracker) interval then ((if finite (sc * growth) then sc * growth else sc), O)
    else (sc, S tracker).
  (** 157-180 [update] *)
  Definition update (s : scaler) : scaler :=
    if negb (sc_enabled s) then s
    else let (sc, tr) := amp_update_scale (sc_scale s) (sc_tracker s) (sc_found s) (sc_growth s) (sc_backoff s) (sc_interval s) in
         mkScaler (sc_enabled s) (sc_growth s) (sc_backoff s) (sc_interval s) tr sc false.

  (** ** pytorch.py: the shim. A parameter or input: name, value, [.grad] *)
  Record tparam := mkTP { tp_name : string; tp_data : list T; tp_grad : option (list T) }.
  Record shim := mkShim { sh_id : nat; sh_params : list tparam; sh_scaler : scaler; sh_cfg : list (string * string) }.
  Definition with_params (sh : shim) (ps : list tparam) : shim := mkShim (sh_id sh) ps (sh_scaler sh) (sh_cfg sh).
  Definition with_scaler (sh : shim) (s : scaler) : shim := mkShim (sh_id sh) (sh_params sh) s (sh_cfg sh).

  (** [torch.autograd.backward] adds to [.grad] of what takes part ([None]: does not take part) *)
  Definition add_grad (p : tparam) (g : option (list T)) : tparam :=
    match tp_grad p, g with
    | Some a, Some g => mkTP (tp_name p) (tp_data p) (Some (vmap2 nadd a g))
    | None, Some g => mkTP (tp_name p) (tp_data p) (Some g)
    | _, None => p
    end.
  Definition add_grads (ps : list tparam) (gs : list (option (list T))) : list tparam := map (fun '(p, g) => add_grad p g) (combine ps gs).
  (** The gradients present, and putting them back in the same order (the tensors are changed in place) *)
  Definition present (ps : list tparam) : list (list T) := flat_map (fun p => match tp_grad p with Some g => [g] | None => [] end) ps.
  Fixpoint put_grads (ps : list tparam) (gs : list (list T)) : list tparam :=
    match ps with
    | [] => []
    | p :: ps => match tp_grad p, gs with
                 | Some _, g :: gs => mkTP (tp_name p) (tp_data p) (Some g) :: put_grads ps gs
                 | _, _ => p :: put_grads ps gs
                 end
    end.
  Definition zero_grad (p : tparam) : tparam := match tp_grad p with Some g => mkTP (tp_name p) (tp_data p) (Some (map (fun _ => nZ 0) g)) | None => p end.

  (** 131-160 [backprop]: [inputs] are the tensors among the inputs; [autograd] maps the gradient tensors to what is added to the
      gradients of the parameters and of the inputs. Gives the inputs' gradients and the shim. *)
  Definition backprop (amp : bool) (autograd : scalable -> list (option (list T)) * list (option (list T))) (inputs : list tparam) (grads : scalable) (sh : shim)
      : result (list (option (list T)) * shim) :=
    let* scaled := scale amp (sh_scaler sh) grads in
    let (gp, gi) := autograd scaled in
    let ps := add_grads (sh_params sh) gp in
    let ins := add_grads inputs gi in
    match unscale (sh_scaler sh) (present (ps ++ ins)) with
    | (found_inf, gs, s) =>
        let both := put_grads (ps ++ ins) gs in
        let ps := firstn (List.length ps) both in
        let ins := skipn (List.length ps) both in
        let ins := if found_inf then map zero_grad ins else ins in
        Ok (map tp_grad ins, with_scaler (with_params sh ps) s)
    end.

  (** 164-180 [finish_update]; [O]: the optimizer's state *)
  Section Finish.
    Context {O : Type} (optimizer : nat * string -> list T -> list T -> O -> list T * list T * O).
    Fixpoint finish_params (id : nat) (found : bool) (ps : list tparam) (o : O) : list tparam * O :=
      match ps with
      | [] => ([], o)
      | p :: ps =>
          match tp_grad p with
          | None => let (ps, o) := finish_params id found ps o in (p :: ps, o)
          | Some g =>
              if negb found then
                match optimizer (id, tp_name p) (tp_data p) g o with
                | (param, grad, o) =>
                    let (ps, o) := finish_params id found ps o in
                    (mkTP (tp_name p) param (Some (map (fun _ => nZ 0) g)) :: ps, o)
                end
              else let (ps, o) := finish_params id found ps o in (mkTP (tp_name p) (tp_data p) (Some (map (fun _ => nZ 0) g)) :: ps, o)
          end
      end.
    Definition finish_update (sh : shim) (o : O) : shim * O :=
      let (ps, o) := finish_params (sh_id sh) (sc_found (sh_scaler sh)) (sh_params sh) o in
      (with_scaler (with_params sh ps) (update (sh_scaler sh)), o).
  End Finish.

  (** ** 182-195 [use_params]: keys of the optimizer's averages are pairs; other keys may be strings *)
  Inductive pkey := KPair (id : nat) (name : string) | KString (s : string).
  (** [Module.load_state_dict] (strict): values of known names are copied; unknown or missing names then raise RuntimeError *)
  Definition load_param (sd : list (string * list T)) (p : tparam) : tparam :=
    match find (fun e => String.eqb (fst e) (tp_name p)) sd with Some (_, v) => mkTP (tp_name p) v (tp_grad p) | None => p end.
  Definition load_state_dict (sd : list (string * list T)) (ps : list tparam) : list tparam * option err :=
    let ok := (forallb (fun p => existsb (fun e => String.eqb (fst e) (tp_name p)) sd) ps &&
               forallb (fun e => existsb (fun p => String.eqb (fst e) (tp_name p)) ps) sd)%bool in
    (map (load_param sd) ps, if ok then None else Some RuntimeError).
  Definition state_dict (ps : list tparam) : list (string * list T) := map (fun p => (tp_name p, tp_data p)) ps.
  Fixpoint drop (n : nat) (s : string) : string := match n, s with S n, String _ s => drop n s | _, _ => s end.
  (** [s.replace(old, "")] *)
  Fixpoint remove_all (fuel : nat) (old s : string) : string :=
    match fuel with
    | O => s
    | S fuel => if String.prefix old s then remove_all fuel old (drop (String.length old) s)
                else match s with EmptyString => EmptyString | String c s => String c (remove_all fuel old s) end
    end.
  Fixpoint dict_set (k : string) (v : list T) (d : list (string * list T)) : list (string * list T) :=
    match d with [] => [(k, v)] | (k', v') :: d => if String.eqb k k' then (k, v) :: d else (k', v') :: dict_set k v d end.
  Definition select_params (prefix : string) (params : list (pkey * list T)) : list (string * list T) :=
    fold_left (fun sd '(k, v) =>
      match k with
      | KString s => if String.prefix prefix s then dict_set (remove_all (S (String.length s)) prefix s) v sd else sd
      | KPair _ _ => sd
      end) params [].
  (** [prefix]: f"pytorch_{self.id}_". [body]: what happens inside the context *)
  Definition use_params {A} (prefix : string) (params : list (pkey * list T)) (body : list tparam -> list tparam * result A) (ps : list tparam) : list tparam * result A :=
    match select_params prefix params with
    | [] => body ps
    | sd =>
        let backup := state_dict ps in
        match load_state_dict sd ps with
        | (ps, Some e) => (ps, Err e)
        | (ps, None) =>
            match body ps with
            | (ps, Err e) => (ps, Err e)
            | (ps, Ok a) => match load_state_dict backup ps with (ps, Some e) => (ps, Err e) | (ps, None) => (ps, Ok a) end
            end
        end
    end.

  (** ** 206-258: serialization. [save], [load]: torch.save and torch.load of a state dict; [None]: unreadable *)
  Section Serial.
    Context {B : Type} (save : list (string * list T) -> B) (load : B -> option (list (string * list T))).
    Definition default_serialize (ps : list tparam) : B := save (state_dict ps).
    Definition default_deserialize (ps : list tparam) (bytes : B) : result (list tparam) :=
      match load bytes with None => Err RuntimeError | Some _ => Ok ps end.
    (** The message is a dict of config and state *)
    Definition to_bytes (serialize : list tparam -> B) (sh : shim) : list (string * string) * B := (sh_cfg sh, serialize (sh_params sh)).
    Definition from_bytes (deserialize : list tparam -> B -> result (list tparam)) (sh : shim) (msg : list (string * string) * B) : result shim :=
      let (cfg, state) := msg in
      let* ps := deserialize (sh_params sh) state in
      Ok (mkShim (sh_id sh) ps (sh_scaler sh) cfg).
  End Serial.
End Scaler.
Arguments scaler : clear implicits. Arguments tensor : clear implicits. Arguments scalable : clear implicits. Arguments tparam : clear implicits. Arguments shim : clear implicits.
