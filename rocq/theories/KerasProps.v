(** Property C80: Keras and MXNet models are built, saved and loaded. *)
From Coq Require Import String ZArith List Bool.
From Verif Require Import KerasSpec KerasProofs.
Import ListNotations.
Local Open Scope string_scope.

(** Decorating a class: the attributes and the registry; the given arguments of [compile] win over the defaults. *)
Theorem C80_subclass : forall {V : Type}  name (X Y shape : V) args c s, c < length (k_classes s) -> (forall a, args = Some a -> NoDup (dkeys a)) ->
  exists k d, nth_error (k_classes (keras_subclass name X Y shape args c s)) c = Some k /\ kc_name k = Some name /\ kc_x k = Some X /\ kc_y k = Some Y /\ kc_shape k = Some shape /\ kc_compile k = Some d /\ 0 < kc_inits k /\
  (forall key, dget key d = match args with Some a => match dget key a with Some v => Some v | None => dget key [("optimizer", "adam"); ("loss", "mse")] end | None => dget key [("optimizer", "adam"); ("loss", "mse")] end) /\
  dget name (k_registry (keras_subclass name X Y shape args c s)) = Some c /\
  (forall n, n <> name -> dget n (k_registry (keras_subclass name X Y shape args c s)) = dget n (k_registry s)) /\
  (forall j, j <> c -> nth_error (k_classes (keras_subclass name X Y shape args c s)) j = nth_error (k_classes s) j).
Proof. exact @subclass_ok. Qed.
Print Assumptions C80_subclass.

(** Models are made under the name; their arguments are kept, and must be writable as JSON. *)
Theorem C80_create : forall {V A M : Type} (init : nat -> A -> result M) (json_ok : A -> bool) name (X Y shape : V) cargs c s args, c < length (k_classes s) ->
  create init json_ok (keras_subclass name X Y shape cargs c s) name args =
  match init c args with Err e => Err e | Ok m => if json_ok args then Ok (mkKi c m (Some args)) else Err ValueError end.
Proof. exact @create_ok. Qed.
Print Assumptions C80_create.

(** Unless the name is unknown. *)
Theorem C80_create_unknown : forall {V A M : Type} (init : nat -> A -> result M) (json_ok : A -> bool) (s : @kstate V) name args, dget name (k_registry s) = None -> create init json_ok s name args = Err ValueError.
Proof. exact @create_unknown. Qed.
Print Assumptions C80_create_unknown.

(** Refuted: the name belongs to one class. Of two classes with a name, both are saved under it and the last is made. *)
Theorem C80_name_refuted : forall {V A M : Type} (init : nat -> A -> result M) (json_ok : A -> bool) name (X Y shape X' Y' shape' : V) cargs cargs' c c' s args m, c < length (k_classes s) -> c' < length (k_classes s) -> c <> c' -> init c' args = Ok m -> json_ok args = true ->
  (exists k, nth_error (k_classes (keras_subclass name X' Y' shape' cargs' c' (keras_subclass name X Y shape cargs c s))) c = Some k /\ kc_name k = Some name) /\
  create init json_ok (keras_subclass name X' Y' shape' cargs' c' (keras_subclass name X Y shape cargs c s)) name args = Ok (mkKi c' m (Some args)).
Proof. exact @name_taken. Qed.
Print Assumptions C80_name_refuted.

(** A model that Keras can describe is left alone. *)
Theorem C80_plain : forall {V A M : Type} (get_config : @kinst A M -> result unit) (call : @kcall V -> M -> M * result unit) s i, get_config i = Ok tt -> handshake get_config call s i = (i, Ok tt).
Proof. exact @handshake_plain. Qed.
Print Assumptions C80_plain.

(** Another is compiled, built, called once and made trainable, in this order and with the values it was decorated with. *)
Theorem C80_handshake : forall {V A M : Type} (get_config : @kinst A M -> result unit) (call : @kcall V -> M -> M * result unit) (s : @kstate V) i i' k name X Y shape args, subclassed get_config i -> nth_error (k_classes s) (ki_class i) = Some k -> k = mkKc (Some name) (Some shape) (Some args) (Some X) (Some Y) (kc_inits k) ->
  (handshake get_config call s i = (i', Ok tt) <-> exists m', all_ok call [KCompile args; KBuild shape; KPredict X; KTrain] (ki_model i) m' /\ i' = mkKi (ki_class i) m' (ki_args i)).
Proof. exact @handshake_iff. Qed.
Print Assumptions C80_handshake.

(** If it was not decorated, nothing happens to it. *)
Theorem C80_handshake_missing : forall {V A M : Type} (get_config : @kinst A M -> result unit) (call : @kcall V -> M -> M * result unit) (s : @kstate V) i k, subclassed get_config i -> nth_error (k_classes s) (ki_class i) = Some k ->
  (kc_name k = None \/ kc_x k = None \/ kc_y k = None \/ kc_shape k = None -> handshake get_config call s i = (i, Err ValueError)) /\
  (kc_name k <> None -> kc_x k <> None -> kc_y k <> None -> kc_shape k <> None -> kc_compile k = None -> handshake get_config call s i = (i, Err AttributeError)).
Proof. exact @handshake_missing. Qed.
Print Assumptions C80_handshake_missing.

(** Other errors go through. *)
Theorem C80_handshake_error : forall {V A M : Type} (get_config : @kinst A M -> result unit) (call : @kcall V -> M -> M * result unit) (s : @kstate V) i e, get_config i = Err e -> e <> AttributeError -> e <> NotImplementedError -> handshake get_config call s i = (i, Err e).
Proof. exact @handshake_error. Qed.
Print Assumptions C80_handshake_error.

(** The layer of a Keras model. *)
Theorem C80_layer : forall {V A M : Type} (get_config : @kinst A M -> result unit) (call : @kcall V -> M -> M * result unit) installed s model ci co optimizer name model' l, tensorflow_layer get_config call installed s model ci co optimizer name = (model', Ok l) <->
  exists i i', installed = true /\ model = Some i /\ handshake get_config call s i = (i', Ok tt) /\ model' = Some i' /\
  l = mkLayer match name with Some n => n | None => "tensorflow" end match ci with Some f => f | None => ByDefault end match co with Some f => f | None => ByDefault end i' optimizer [].
Proof. exact @layer_iff. Qed.
Print Assumptions C80_layer.

(** If there is none. *)
Theorem C80_layer_errors : forall {V A M : Type} (get_config : @kinst A M -> result unit) (call : @kcall V -> M -> M * result unit) s model ci co optimizer name, tensorflow_layer get_config call false s model ci co optimizer name = (model, Err ImportError) /\
  tensorflow_layer get_config call true s None ci co optimizer name = (None, Err ValueError).
Proof. exact @layer_errors. Qed.
Print Assumptions C80_layer_errors.

(** What is saved: the whole model, or the name and the weights of a decorated one. *)
Theorem C80_saved : forall {V A W B M : Type} (save_h5 : @kinst A M -> result B) (get_weights : M -> W) (s : @kstate V) i k, nth_error (k_classes s) (ki_class i) = Some k ->
  tf_to_bytes save_h5 get_weights s (Some i) =
  match save_h5 i with
  | Ok b => Ok (H5 b)
  | Err NotImplementedError => match kc_name k with
  | Some n => match dget n (k_registry s) with Some _ => Ok (ByName n (get_weights (ki_model i))) | None => Err ValueError end
  | None => Err ValueError
  end
  | Err e => Err e
  end.
Proof. exact @tf_saved. Qed.
Print Assumptions C80_saved.

(** Whole models come back. *)
Theorem C80_round_h5 : forall {V A W B M : Type} (init : nat -> A -> result M) (json_ok : A -> bool) (get_config : @kinst A M -> result unit) (call : @kcall V -> M -> M * result unit) (save_h5 : @kinst A M -> result B) (load_h5 : B -> result (@kinst A M)) (get_weights : M -> W) (set_weights : M -> W -> M * result unit) (no_args : A) (s s' : @kstate V) i b i' model, save_h5 i = Ok b -> load_h5 b = Ok i' ->
  exists data, tf_to_bytes save_h5 get_weights s (Some i) = Ok data /\ tf_from_bytes init json_ok get_config call load_h5 set_weights no_args s' model data = (Some i', Ok tt).
Proof. exact @tf_round_h5. Qed.
Print Assumptions C80_round_h5.

(** Weights come back into a model that is there. *)
Theorem C80_round_name : forall {V A W B M : Type} (init : nat -> A -> result M) (json_ok : A -> bool) (get_config : @kinst A M -> result unit) (call : @kcall V -> M -> M * result unit) (save_h5 : @kinst A M -> result B) (load_h5 : B -> result (@kinst A M)) (get_weights : M -> W) (set_weights : M -> W -> M * result unit) (no_args : A) (s s' : @kstate V) i k n i2 m2, save_h5 i = Err NotImplementedError -> nth_error (k_classes s) (ki_class i) = Some k -> kc_name k = Some n -> dget n (k_registry s) <> None ->
  set_weights (ki_model i2) (get_weights (ki_model i)) = (m2, Ok tt) ->
  exists data, tf_to_bytes save_h5 get_weights s (Some i) = Ok data /\ tf_from_bytes init json_ok get_config call load_h5 set_weights no_args s' (Some i2) data = (Some (mkKi (ki_class i2) m2 (ki_args i2)), Ok tt).
Proof. exact @tf_round_name. Qed.
Print Assumptions C80_round_name.

(** Refuted: the weights go to a model of their class. The name is not looked at. *)
Theorem C80_name_ignored_refuted : forall {V A W B M : Type} (init : nat -> A -> result M) (json_ok : A -> bool) (get_config : @kinst A M -> result unit) (call : @kcall V -> M -> M * result unit) (load_h5 : B -> result (@kinst A M)) (set_weights : M -> W -> M * result unit) (no_args : A) (s : @kstate V) i n n' w, tf_from_bytes init json_ok get_config call load_h5 set_weights no_args s (Some i) (ByName n w) = tf_from_bytes init json_ok get_config call load_h5 set_weights no_args s (Some i) (ByName n' w).
Proof. exact @tf_name_ignored. Qed.
Print Assumptions C80_name_ignored_refuted.

(** Refuted: a shim without a model makes one to load weights. It always raises, and still has no model. *)
Theorem C80_never_new_refuted : forall {V A W B M : Type} (init : nat -> A -> result M) (json_ok : A -> bool) (get_config : @kinst A M -> result unit) (call : @kcall V -> M -> M * result unit) (load_h5 : B -> result (@kinst A M)) (set_weights : M -> W -> M * result unit) (no_args : A) (s : @kstate V) n w, exists e, tf_from_bytes init json_ok get_config call load_h5 set_weights no_args s None (ByName n w) = (None, Err e).
Proof. exact @tf_never_new. Qed.
Print Assumptions C80_never_new_refuted.

(** A shim without a model cannot be saved. *)
Theorem C80_empty : forall {V A W B M : Type} (save_h5 : @kinst A M -> result B) (get_weights : M -> W) (s : @kstate V), tf_to_bytes save_h5 get_weights s (None : option (@kinst A M)) = Err AttributeError.
Proof. exact @tf_empty. Qed.
Print Assumptions C80_empty.

(** MXNet models are saved through a temporary file, which is gone afterwards. *)
Theorem C80_mxnet_saved : forall {M : Type} (fresh : fs -> string) (save_parameters : M -> result bytes) , (forall f, dget (fresh f) f = None) -> forall sh f data, save_parameters (mxs_model sh) = Ok data -> mx_to_bytes fresh save_parameters sh f = (f, Ok (mkMx (mxs_cfg sh) data)).
Proof. exact @mx_saved. Qed.
Print Assumptions C80_mxnet_saved.

(** Refuted: always gone. It stays if saving fails. *)
Theorem C80_mxnet_leak_refuted : forall {M : Type} (fresh : fs -> string) (save_parameters : M -> result bytes) , (forall f, dget (fresh f) f = None) -> forall sh f e, save_parameters (mxs_model sh) = Err e -> exists f', mx_to_bytes fresh save_parameters sh f = (f', Err e) /\ dget (fresh f) f = None /\ dget (fresh f) f' = Some [].
Proof. exact @mx_save_leaks. Qed.
Print Assumptions C80_mxnet_leak_refuted.

(** Parameters longer than the buffer of a file come back. *)
Theorem C80_mxnet_round : forall {M : Type} (bufsize : nat) (fresh : fs -> string) (save_parameters : M -> result bytes) (load_parameters : M -> bytes -> M * result unit) , (forall f, dget (fresh f) f = None) -> forall sh sh2 f f2 data m3, save_parameters (mxs_model sh) = Ok data -> bufsize < length data -> load_parameters (mxs_model sh2) data = (m3, Ok tt) ->
  exists msg, mx_to_bytes fresh save_parameters sh f = (f, Ok msg) /\ mx_from_bytes bufsize fresh load_parameters sh2 msg f2 = (mkMxs (mxs_cfg sh) m3, f2, Ok tt).
Proof. exact @mx_round. Qed.
Print Assumptions C80_mxnet_round.

(** Refuted: all parameters come back. Shorter ones are still in the buffer when MXNet reads the file: it sees an empty file, and if it cannot
    load that, loading fails, with a new config and the temporary file left behind. *)
Theorem C80_mxnet_small_refuted : forall {M : Type} (bufsize : nat) (fresh : fs -> string) (save_parameters : M -> result bytes) (load_parameters : M -> bytes -> M * result unit) , (forall f, dget (fresh f) f = None) -> forall sh sh2 f f2 data m3 e, save_parameters (mxs_model sh) = Ok data -> length data <= bufsize -> load_parameters (mxs_model sh2) [] = (m3, Err e) ->
  exists msg f3, mx_to_bytes fresh save_parameters sh f = (f, Ok msg) /\ mx_from_bytes bufsize fresh load_parameters sh2 msg f2 = (mkMxs (mxs_cfg sh) m3, f3, Err e) /\ dget (fresh f2) f2 = None /\ dget (fresh f2) f3 = Some [].
Proof. exact @mx_small. Qed.
Print Assumptions C80_mxnet_small_refuted.

(** The layer of an MXNet model. *)
Theorem C80_mxnet_layer : forall {M : Type}  (model : M) ci co name, mxnet_layer model ci co name =
  mkLayer match name with Some n => n | None => "mxnet" end match ci with Some f => f | None => ByDefault end match co with Some f => f | None => ByDefault end model None [].
Proof. exact @mx_layer. Qed.
Print Assumptions C80_mxnet_layer.

(** ** The hypotheses can be met *)
Definition kex_state : @kstate nat := keras_subclass "mine" 1 2 3 (Some [("loss", "mae")]) 1 kwit_state.
Definition kex_config (i : @kinst nat (nat * list nat)) : result unit := Err NotImplementedError.
Example C80_keras_ex : exists i l, create (fun c a => Ok (a, [])) (fun _ => true) kex_state "mine" 5 = Ok i /\ i = mkKi 1 (5, []) (Some 5) /\
  tensorflow_layer kex_config kwit_call true kex_state (Some i) None (Some (ByUser 4)) (Some 9) None = (Some (mkKi 1 (5, [3; 2; 1; 0]) (Some 5)), Ok l) /\
  l = mkLayer "tensorflow" ByDefault (ByUser 4) (mkKi 1 (5, [3; 2; 1; 0]) (Some 5)) (Some 9) [] /\
  tf_to_bytes (fun _ => Err NotImplementedError) fst kex_state (Some i) = Ok (@ByName nat unit "mine" 5) /\
  tf_from_bytes (fun c a => Ok (a, [])) (fun _ => true) kex_config kwit_call (fun _ : unit => Err ValueError) kwit_set 0 kex_state (Some (mkKi 0 (7, []) None)) (ByName "mine" 5) = (Some (mkKi 0 (5, []) None), Ok tt) /\
  subclassed kex_config i /\ all_ok kwit_call [KCompile [("optimizer", "adam"); ("loss", "mae")]; KBuild 3; KPredict 1; KTrain] (5, []) (5, [3; 2; 1; 0]).
Proof.
  eexists. eexists. split; [vm_compute; reflexivity|]. split; [reflexivity|]. split; [vm_compute; reflexivity|]. split; [reflexivity|]. split; [vm_compute; reflexivity|]. split; [vm_compute; reflexivity|]. split; [right; reflexivity|].
  repeat (econstructor; [reflexivity|]). constructor.
Qed.
Example C80_mxnet_ex : exists msg, (forall f, dget (kwit_fresh f) f = None) /\ mx_to_bytes kwit_fresh (fun m : list Z => Ok m) (mkMxs [("a", "b")] [1; 2; 3]%Z) [("x", [])] = ([("x", [])], Ok msg) /\
  mx_from_bytes 2 kwit_fresh (fun (_ : list Z) d => match d with [] => ([], Err ValueError) | _ => (d, Ok tt) end) (mkMxs [] []) msg [("x", [])] = (mkMxs [("a", "b")] [1; 2; 3]%Z, [("x", [])], Ok tt) /\
  mx_from_bytes 3 kwit_fresh (fun (_ : list Z) d => match d with [] => ([], Err ValueError) | _ => (d, Ok tt) end) (mkMxs [] []) msg [("x", [])] = (mkMxs [("a", "b")] [], [("x", []); ("xx", [])], Err ValueError).
Proof. eexists. split; [exact kwit_fresh_new|]. split; [vm_compute; reflexivity|]. split; vm_compute; reflexivity. Qed.
