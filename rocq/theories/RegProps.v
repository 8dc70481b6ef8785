(** C86. The names of the registered functions. *)
From Coq Require Import String List Permutation.
From Verif Require Import RegSpec RegProofs.
Import ListNotations.
Local Open Scope string_scope.
Local Open Scope list_scope.

(** Within a registry no name is registered for two functions. *)
Theorem C86_unique :
  forall reg name f g : string, registered reg name f -> registered reg name g -> f = g.
Proof. exact registered_unique. Qed.
Print Assumptions C86_unique.
Example C86_unique_example : registered "layers" "chain.v1" "chain_no_types".
Proof. exists registered_layers. split; vm_compute; tauto. Qed.

(** No function is registered twice, under two names or in two registries. *)
Theorem C86_once :
  forall reg reg' name name' f : string, registered reg name f -> registered reg' name' f -> reg = reg' /\ name = name'.
Proof. exact registered_once. Qed.
Print Assumptions C86_once.
Example C86_once_example : registered "layers" "Softmax.v1" "Softmax" /\ registered "layers" "Softmax.v2" "Softmax_v2".
Proof. split; exists registered_layers; (split; vm_compute; tauto). Qed.

(** So each name gives its function, in whatever order the modules are imported and whatever other names are registered besides. *)
Theorem C86_resolves :
  forall (reg name f : string) (d : dict string string), registered reg name f -> imported reg d -> resolve no_entry_points d name = Ok f.
Proof. exact resolve_registered. Qed.
Print Assumptions C86_resolves.
Example C86_resolves_example : imported "layers" (import_all example_order)
  /\ resolve no_entry_points (import_all example_order) "Softmax.v2" = Ok "Softmax_v2"
  /\ resolve no_entry_points (import_all example_order) "my_layer.v1" = Ok "my_layer".
Proof.
  split; [|split; reflexivity].
  exists registered_layers, [("my_layer.v1", "my_layer"); ("my_other.v1", "my_other")], example_order.
  split; [vm_compute; tauto|]. split; [|split; [|reflexivity]].
  - unfold example_order. apply perm_trans with (registered_layers ++ [("my_other.v1", "my_other")] ++ [("my_layer.v1", "my_layer")]).
    + apply perm_trans with ((rev registered_layers ++ [("my_other.v1", "my_other")]) ++ [("my_layer.v1", "my_layer")]); [apply Permutation_app_comm|].
      rewrite app_assoc. apply Permutation_app_tail, Permutation_app_tail, Permutation_sym, Permutation_rev.
    + apply Permutation_app_head, perm_swap.
  - intros name f g Hin [H|[H|[]]]; inversion H; subst; apply (in_map fst) in Hin; vm_compute in Hin;
      repeat (destruct Hin as [Hin|Hin]; [discriminate Hin|]); destruct Hin.
Qed.

(** A second registration of a name replaces the first: the last one counts. *)
Theorem C86_last :
  forall (F : Type) (before after : list (string * F)) (name : string) (f : F), (forall g, ~ In (name, g) after) ->
    resolve (fun _ => None) (import_all (before ++ (name, f) :: after)) name = Ok f.
Proof. exact resolve_last. Qed.
Print Assumptions C86_last.
Example C86_last_example : resolve no_entry_points (import_all (registered_optimizers ++ [("Adam.v1", "my_Adam"); ("my_SGD.v1", "my_SGD")])) "Adam.v1" = Ok "my_Adam".
Proof. reflexivity. Qed.

(** So a name does not keep its function: a module of the user can replace a function of thinc without an error. *)
Theorem C86_stable_refuted :
  exists before after name f,
    resolve no_entry_points (import_all (registered_optimizers ++ before)) name = Ok f /\
    resolve no_entry_points (import_all (registered_optimizers ++ before ++ after)) name <> Ok f.
Proof. exact resolve_stable_refuted. Qed.
Print Assumptions C86_stable_refuted.

(** Entry points of installed packages come before everything that is registered, also before thinc's own functions. *)
Theorem C86_entry_points :
  forall (F : Type) (entry : string -> option F) (rs : list (string * F)) (name : string) (f : F), entry name = Some f ->
    resolve entry (import_all rs) name = Ok f.
Proof. exact resolve_entry. Qed.
Print Assumptions C86_entry_points.
Example C86_entry_points_example : resolve plugin_entry_points (import_all registered_optimizers) "Adam.v1" = Ok "plugin_Adam"
  /\ resolve plugin_entry_points (import_all registered_optimizers) "SGD.v1" = Ok "SGD".
Proof. split; reflexivity. Qed.

(** A name that is not registered raises a ValueError. *)
Theorem C86_unknown :
  forall (F : Type) (rs : list (string * F)) (name : string), (forall f, ~ In (name, f) rs) ->
    resolve (fun _ => None) (import_all rs) name = Err ValueError.
Proof. exact resolve_unknown. Qed.
Print Assumptions C86_unknown.
Example C86_unknown_example : resolve no_entry_points (import_all registered_layers) "TensorFlowWrapper.v1" = Err ValueError
  /\ resolve no_entry_points (import_all registered_layers) "Relu.v0" = Err ValueError.
Proof. split; reflexivity. Qed.

(** Without entry points, what a name resolves to was registered under it. *)
Theorem C86_only_registered :
  forall (F : Type) (rs : list (string * F)) (name : string) (f : F), resolve (fun _ => None) (import_all rs) name = Ok f -> In (name, f) rs.
Proof. exact resolve_ok. Qed.
Print Assumptions C86_only_registered.
Example C86_only_registered_example : resolve no_entry_points (import_all registered_losses) "CosineDistance.v1" = Ok "configure_CosineDistance".
Proof. reflexivity. Qed.

(** Not every name in the documentation is registered: the config in website/docs/api-initializers.md 144 asks for [linear.v1], the layer is [Linear.v1]. *)
Theorem C86_documented_refuted :
  In ("Linear.v1", "Linear") registered_layers /\ resolve no_entry_points (import_all registered_layers) "linear.v1" = Err ValueError.
Proof. exact doc_name_unknown. Qed.
Print Assumptions C86_documented_refuted.

(** Every name outside the registry of backends ends in a version between 1 and 9. *)
Theorem C86_versions :
  forall reg name f : string, registered reg name f -> reg <> "ops" ->
    exists base n, (1 <= n <= 9)%nat /\ name = version_name base n.
Proof. exact registered_version. Qed.
Print Assumptions C86_versions.
Example C86_versions_example : version_name "CategoricalCrossentropy" 3 = "CategoricalCrossentropy.v3"
  /\ registered "losses" "CategoricalCrossentropy.v3" "configure_CategoricalCrossentropy_v3".
Proof. split; [reflexivity|]. exists registered_losses. split; vm_compute; tauto. Qed.

(** The earlier versions are there too, from 1 on: old configs keep resolving. *)
Theorem C86_earlier_versions :
  forall (reg base : string) (n : nat) (f : string), (1 <= n <= 9)%nat -> registered reg (version_name base n) f ->
    forall m, (1 <= m <= n)%nat -> exists g, registered reg (version_name base m) g.
Proof. exact registered_versions_from_one. Qed.
Print Assumptions C86_earlier_versions.
Example C86_earlier_versions_example : registered "layers" (version_name "PyTorchWrapper" 3) "PyTorchWrapper_v3"
  /\ registered "layers" (version_name "PyTorchWrapper" 1) "PyTorchWrapper".
Proof. split; exists registered_layers; (split; vm_compute; tauto). Qed.

(** The backends are registered under the names of their classes, without a version. *)
Theorem C86_backends :
  forall name f : string, registered "ops" name f -> name = f /\ forall base n, name <> version_name base n.
Proof. exact registered_ops_plain. Qed.
Print Assumptions C86_backends.
Example C86_backends_example : registered "ops" "CupyOps" "CupyOps".
Proof. exists registered_ops. split; vm_compute; tauto. Qed.
