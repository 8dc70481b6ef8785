(** C55: the gradient scaler and the PyTorch shim. *)
From Coq Require Import String Reals Lra Lia QArith.
From Verif Require Import NumR NumQ ScalerProofs.
Local Open Scope nat_scope.

(** Every step that overflowed multiplies the scale by the backoff factor and starts counting again. *)
Theorem C55_backoff : forall T (N : Num T) (finite : T -> bool) s h, sc_enabled s = true ->
  sc_scale (history finite s (h ++ [true])) = nmul (sc_scale (history finite s h)) (sc_backoff s) /\ sc_tracker (history finite s (h ++ [true])) = 0.
Proof. exact @overflow_step. Qed.
Print Assumptions C55_backoff.
(** k steps without an overflow, counted from a point where counting starts, grow the scale once for each full interval. *)
Theorem C55_growth : forall T (N : Num T) (finite : T -> bool) s h k, sc_enabled s = true -> 0 < sc_interval s -> sc_tracker (history finite s h) = 0 ->
  sc_scale (history finite s (h ++ repeat false k)) = Nat.iter (k / sc_interval s) (grow finite (sc_growth s)) (sc_scale (history finite s h)) /\
  sc_tracker (history finite s (h ++ repeat false k)) = k mod sc_interval s.
Proof. exact @finite_run. Qed.
Print Assumptions C55_growth.
(** Over the reals, after any history: the initial scale times the growth factor for each full interval of each run of finite
    steps, times the backoff factor for each overflow. *)
Theorem C55_scale : forall init backoff growth interval h, 0 < interval ->
  sc_scale (history always (new_scaler true init backoff growth interval) h) = (init * growth ^ growths interval 0 h * backoff ^ count_occ Bool.bool_dec h true)%R.
Proof. exact closed_form. Qed.
Print Assumptions C55_scale.
Theorem C55_disabled : forall T (N : Num T) (finite : T -> bool) s h, sc_enabled s = false -> sc_scale (history finite s h) = sc_scale s /\ sc_tracker (history finite s h) = sc_tracker s.
Proof. exact @disabled_history. Qed.
Print Assumptions C55_disabled.
Definition start : scaler Q := new_scaler true (16 # 1) (1 # 2) (2 # 1) 3.
Example C55_history_ex : map (fun h => Qred (sc_scale (history small start h))) [[false; false]; [false; false; false]; [false; false; true]; [false; false; true; false; false; false; false; false; false]] = [16 # 1; 32 # 1; 8 # 1; 32 # 1]%Q.
Proof. reflexivity. Qed.
Example C55_scale_ex : growths 3 0 [false; false; true; false; false; false; false; false; false] = 2.
Proof. reflexivity. Qed.

(** The callback notes an overflow if a gradient of a parameter or an input is not finite, keeps an earlier note, and then gives
    zero gradients; it never changes the parameters themselves. *)
Theorem C55_noted : forall T (N : Num T) (finite : T -> bool) amp autograd inputs grads sh sg ds sh', sc_enabled (sh_scaler sh) = true -> length (fst (autograd sg)) = length (sh_params sh) -> scale amp (sh_scaler sh) grads = Ok sg -> backprop finite amp autograd inputs grads sh = Ok (ds, sh') ->
  (sc_found (sh_scaler sh') = true <-> sc_found (sh_scaler sh) = true \/ overflowed finite (add_grads (sh_params sh) (fst (autograd sg)) ++ add_grads inputs (snd (autograd sg)))) /\
  (sc_found (sh_scaler sh') = true -> Forall (fun o => forall g, o = Some g -> zeros g) ds) /\ Forall2 same_data (sh_params sh) (sh_params sh').
Proof. exact @backprop_found. Qed.
Print Assumptions C55_noted.
(** If any callback between two updates overflowed, the optimizer is not called and the parameters stay as they were. *)
Theorem C55_never_applied : forall T (N : Num T) (finite : T -> bool) O (optimizer : nat * string -> list T -> list T -> O -> list T * list T * O) l1 c l2 sh sh1 sg sh' o,
  sc_enabled (sh_scaler sh) = true -> Forall (fits sh) (l1 ++ c :: l2) -> calls finite l1 sh = Ok sh1 -> scale (c_amp c) (sh_scaler sh1) (c_grads c) = Ok sg ->
  overflowed finite (add_grads (sh_params sh1) (fst (c_autograd c sg)) ++ add_grads (c_inputs c) (snd (c_autograd c sg))) -> calls finite (l1 ++ c :: l2) sh = Ok sh' ->
  snd (finish_update finite optimizer sh' o) = o /\ Forall2 same_data (sh_params sh1) (sh_params (fst (finish_update finite optimizer sh' o))).
Proof. exact @overflow_never. Qed.
Print Assumptions C55_never_applied.
(** Otherwise the optimizer gets every parameter with a gradient, under the key (id of the shim, name). *)
Theorem C55_applied : forall T (N : Num T) (finite : T -> bool) O (optimizer : nat * string -> list T -> list T -> O -> list T * list T * O) sh o, sc_found (sh_scaler sh) = false ->
  updates optimizer (sh_id sh) (sh_params sh) o (sh_params (fst (finish_update finite optimizer sh o))) (snd (finish_update finite optimizer sh o)).
Proof. exact @finish_update_apply. Qed.
Print Assumptions C55_applied.
(** All gradients are zero after finish_update, and the scaler has made one step. *)
Theorem C55_zeroed : forall T (N : Num T) (finite : T -> bool) O (optimizer : nat * string -> list T -> list T -> O -> list T * list T * O) sh o, Forall zeroed (sh_params (fst (finish_update finite optimizer sh o))).
Proof. exact @finish_update_zeroed. Qed.
Print Assumptions C55_zeroed.
Theorem C55_stepped : forall T (N : Num T) (finite : T -> bool) O (optimizer : nat * string -> list T -> list T -> O -> list T * list T * O) sh o, sh_scaler (fst (finish_update finite optimizer sh o)) = step finite (sh_scaler sh) (sc_found (sh_scaler sh)).
Proof. exact @finish_update_scaler. Qed.
Print Assumptions C55_stepped.

(** The examples: a model with parameter a; the gradient of a is the gradient of the output times 10. *)
Definition times10 (x : scalable Q) : list (option (list Q)) * list (option (list Q)) :=
  match x with OneTensor t => ([Some (map (fun x => Qred (x * (10 # 1))%Q) (t_data t))], [Some (t_data t)]) | _ => ([None], [None]) end.
Definition ashim : shim Q := mkShim 7 [mkTP "a" [1%Q] None] start [].
Definition grad_of (x : Q) : scalable Q := OneTensor (mkT true [x]).
Definition sgd (k : nat * string) (d g : list Q) (o : list (nat * string)) : list Q * list Q * list (nat * string) := (map (fun p => Qred (fst p - snd p)%Q) (combine d g), g, (o ++ [k])%list).
Definition input : tparam Q := mkTP "x" [2%Q] None.
Definition shown (r : shim Q * list (nat * string)) := (map (fun p => (map Qred (tp_data p), option_map (map Qred) (tp_grad p))) (sh_params (fst r)), snd r, Qred (sc_scale (sh_scaler (fst r)))).
(** A gradient of 3 gives 3 * 16 * 10 = 480, unscaled 30. *)
Example C55_applied_ex : exists sh ds, backprop small true times10 [input] (grad_of 3) ashim = Ok (ds, sh) /\ map (option_map (map Qred)) ds = [Some [3%Q]] /\ shown (finish_update small sgd sh []) = ([([-29 # 1]%Q, Some [0%Q])], [(7, "a"%string)], 16%Q).
Proof. do 2 eexists. split; [reflexivity|]. split; reflexivity. Qed.
(** A gradient of 7 gives 1120. *)
Example C55_never_applied_ex : exists sh ds, backprop small true times10 [input] (grad_of 7) ashim = Ok (ds, sh) /\ ds = [Some [0%Q]] /\ shown (finish_update small sgd sh []) = ([([1%Q], Some [0%Q])], [], 8%Q).
Proof. do 2 eexists. split; [reflexivity|]. split; reflexivity. Qed.
Example C55_fits_ex : fits ashim (mkCall true times10 [input] (grad_of 7)).
Proof. intros [t|l|]; split; reflexivity. Qed.
Example C55_overflowed_ex : overflowed small (add_grads (sh_params ashim) (fst (times10 (OneTensor (mkT true [112%Q])))) ++ add_grads [input] (snd (times10 (OneTensor (mkT true [112%Q]))))).
Proof. exists (mkTP "a" [1%Q] (Some [1120%Q])), [1120%Q], 1120%Q. split; [left; reflexivity|]. split; [reflexivity|]. split; [left; reflexivity | reflexivity]. Qed.

(** Scaling is transparent (over the reals): starting from zero gradients the parameters and inputs get exactly what autograd gives for
    the unscaled gradients. *)
Theorem C55_transparent : forall autograd inputs grads sh gs gi, sc_enabled (sh_scaler sh) = true -> sc_scale (sh_scaler sh) <> 0%R -> sc_found (sh_scaler sh) = false -> on_gpu grads ->
  autograd grads = (map Some gs, map Some gi) -> (forall c, autograd (scaled c grads) = (map (fun g => Some (map (fun x => (x * c)%R) g)) gs, map (fun g => Some (map (fun x => (x * c)%R) g)) gi)) ->
  Forall2 (fun p g => tp_grad p = None \/ tp_grad p = Some (map (fun _ => 0%R) g)) (sh_params sh) gs -> Forall2 (fun p g => tp_grad p = None) inputs gi ->
  exists sh', backprop always true autograd inputs grads sh = Ok (map Some gi, sh') /\ map tp_grad (sh_params sh') = map Some gs /\ sc_found (sh_scaler sh') = false.
Proof. exact unscaled_ok. Qed.
Print Assumptions C55_transparent.
(** But gradients that are accumulated are unscaled again by every later callback: a second call leaves old / scale + new. *)
Theorem C55_accumulation_refuted : forall autograd inputs grads sh olds gs gi, sc_enabled (sh_scaler sh) = true -> sc_scale (sh_scaler sh) <> 0%R -> sc_found (sh_scaler sh) = false -> on_gpu grads ->
  (forall c, autograd (scaled c grads) = (map (fun g => Some (map (fun x => (x * c)%R) g)) gs, gi)) -> map tp_grad (sh_params sh) = map Some olds -> Forall2 (fun a g => length a = length g) olds gs ->
  exists ds sh', backprop always true autograd inputs grads sh = Ok (ds, sh') /\ map tp_grad (sh_params sh') = map (fun '(a, g) => Some (vmap2 (fun x y => (x / sc_scale (sh_scaler sh) + y)%R) a g)) (combine olds gs).
Proof. exact accumulated. Qed.
Print Assumptions C55_accumulation_refuted.
(** Two equal callbacks: 30, then 30 / 16 + 30 instead of 60. *)
Example C55_accumulation_ex : exists sh, calls small [mkCall true times10 [input] (grad_of 3); mkCall true times10 [input] (grad_of 3)] ashim = Ok sh /\ map (fun p => option_map (map Qred) (tp_grad p)) (sh_params sh) = [Some [255 # 8]%Q].
Proof. eexists. split; reflexivity. Qed.

(** use_params with string keys "pytorch_<id>_<name>" for all parameters: the body sees the values, and they are put back. *)
Theorem C55_use_params : forall T A prefix (v : string -> list T) (body : list (tparam T) -> list (tparam T) * result A) ps ps2 a, ps <> [] -> NoDup (map tp_name ps) -> Forall (fun p => ~ contains (tp_name p) prefix) ps ->
  body (map (fun p => mkTP (tp_name p) (v (tp_name p)) (tp_grad p)) ps) = (ps2, Ok a) -> map tp_name ps2 = map tp_name ps ->
  exists ps3, use_params prefix (map (fun p => (KString (prefix ++ tp_name p)%string, v (tp_name p))) ps) body ps = (ps3, Ok a) /\ Forall2 same_data ps ps3 /\ map tp_grad ps3 = map tp_grad ps2.
Proof. exact @use_params_ok. Qed.
Print Assumptions C55_use_params.
Example C55_use_params_ex : use_params "pytorch_1_" [(KString "pytorch_1_a", [5%Q])] (fun ps => (ps, Ok (map tp_data ps))) [mkTP "a" [1%Q] None] = ([mkTP "a" [1%Q] None], Ok [[5%Q]]).
Proof. reflexivity. Qed.
(** The optimizer's averages are keyed by pairs (id, name), as C55_applied shows: with them use_params does nothing. *)
Theorem C55_averages_refuted : forall T A prefix (params : list (pkey * list T)) (body : list (tparam T) -> list (tparam T) * result A) ps, Forall (fun e => exists id name, fst e = KPair id name) params -> use_params prefix params body ps = body ps.
Proof. exact @use_params_pairs. Qed.
Print Assumptions C55_averages_refuted.
(** Values for some of the parameters: RuntimeError, and these values stay. *)
Theorem C55_use_params_partial_keys_refuted : exists (ps : list (tparam Q)) params (body : list (tparam Q) -> list (tparam Q) * result unit) ps',
  use_params "pytorch_1_" params body ps = (ps', Err RuntimeError) /\ map tp_data ps = [[1%Q]; [2%Q]] /\ map tp_data ps' = [[5%Q]; [2%Q]].
Proof. exact partial_load. Qed.
Print Assumptions C55_use_params_partial_keys_refuted.
(** An exception in the body: the values stay. *)
Theorem C55_use_params_raise_refuted : exists (ps : list (tparam Q)) params (body : list (tparam Q) -> list (tparam Q) * result unit) ps',
  use_params "pytorch_1_" params body ps = (ps', Err KeyError) /\ map tp_data ps = [[1%Q]] /\ map tp_data ps' = [[5%Q]].
Proof. exact body_raises. Qed.
Print Assumptions C55_use_params_raise_refuted.
(** Deserializing with the default functions takes the config and leaves the weights. *)
Theorem C55_deserialize_refuted : forall T B (save : list (string * list T) -> B) load (sh1 sh2 : shim T), (forall sd, load (save sd) = Some sd) ->
  exists sh, from_bytes (default_deserialize load) sh2 (to_bytes (default_serialize save) sh1) = Ok sh /\ sh_params sh = sh_params sh2 /\ sh_cfg sh = sh_cfg sh1.
Proof. exact @deserialize_keeps. Qed.
Print Assumptions C55_deserialize_refuted.
Example C55_deserialize_ex : exists sh, from_bytes (default_deserialize Some) ashim (to_bytes (default_serialize (fun sd => sd)) (mkShim 7 [mkTP "a" [5%Q] None] start [("k", "v")%string])) = Ok sh /\ map tp_data (sh_params sh) = [[1%Q]] /\ sh_cfg sh = [("k", "v")%string].
Proof. eexists. split; [reflexivity|]. split; reflexivity. Qed.

(** Errors: only tensors on a GPU can be scaled, and only if PyTorch supports it. *)
Theorem C55_scale_errors : forall T (N : Num T) (amp : bool) (s : scaler T) x, sc_enabled s = true ->
  x = Other \/ (exists l, x = Iter l /\ l <> [] /\ (In None l \/ amp = false \/ exists t, In (Some t) l /\ t_cuda t = false)) \/ (exists t, x = OneTensor t /\ (amp = false \/ t_cuda t = false)) -> scale amp s x = Err ValueError.
Proof. exact scale_errors. Qed.
Print Assumptions C55_scale_errors.
