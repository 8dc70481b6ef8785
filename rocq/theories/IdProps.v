(** C85. The keys of the optimizer state. *)
From Coq Require Import String.
From Coq Require Import QArith.
From Verif Require Import NumQ IdSpec IdProofs.
Local Open Scope string_scope.
Local Open Scope list_scope.
Local Open Scope nat_scope.

(** No two nodes have an id, so a key of the optimizer, in common: created or copied. *)
Theorem C85_nodes :
  forall ops i j idi idj li lj, nth_error (owners (id_run ops)) i = Some (Nd idi li) -> nth_error (owners (id_run ops)) j = Some (Nd idj lj) -> i <> j -> idi <> idj.
Proof. exact nodes_distinct. Qed.
Print Assumptions C85_nodes.
Example C85_nodes_example : owners (id_run [NewNode ["W"]; CopyNode 0; NewNode []]) = [Nd 1 ["W"]; Nd 2 ["W"]; Nd 3 []].
Proof. reflexivity. Qed.

Theorem C85_node_keys :
  forall ops i j idi idj li lj k, nth_error (owners (id_run ops)) i = Some (Nd idi li) -> nth_error (owners (id_run ops)) j = Some (Nd idj lj) -> i <> j ->
    In k (keys_of (Nd idi li)) -> In k (keys_of (Nd idj lj)) -> False.
Proof. exact node_keys_disjoint. Qed.
Print Assumptions C85_node_keys.
Example C85_node_keys_example : map keys_of (owners (id_run [NewNode ["W"]; CopyNode 0])) = [[(1%Z, "W")]; [(2%Z, "W")]].
Proof. reflexivity. Qed.

(** A copied node has the same parameters, and an id greater than that of every node before. *)
Theorem C85_copied_node :
  forall ops i id names, nth_error (owners (id_run ops)) i = Some (Nd id names) ->
    let os := owners (id_run (ops ++ [CopyNode i])) in
    exists id', nth_error os (length (owners (id_run ops))) = Some (Nd id' names) /\
      forall o, In o (owners (id_run ops)) -> is_node o = true -> (owner_id o < id')%Z.
Proof. exact copied_node. Qed.
Print Assumptions C85_copied_node.
Example C85_copied_node_example : nth_error (owners (id_run [NewShim []; NewNode ["W"]])) 1 = Some (Nd 1 ["W"]).
Proof. reflexivity. Qed.

(** Shims that are made by their constructor have ids of their own. *)
Theorem C85_shims :
  forall ops i j idi idj li lj, forallb (fun o => negb (is_copy o)) ops = true ->
    nth_error (owners (id_run ops)) i = Some (Sh idi li) -> nth_error (owners (id_run ops)) j = Some (Sh idj lj) -> i <> j -> idi <> idj.
Proof. exact shims_distinct. Qed.
Print Assumptions C85_shims.
Example C85_shims_example : owners (id_run [NewShim ["W"]; NewNode ["b"]; NewShim ["W"]]) = [Sh 1 ["W"]; Nd 1 ["b"]; Sh 2 ["W"]].
Proof. reflexivity. Qed.

(** A copied shim has the id, so the keys, of the original. *)
Theorem C85_copied_shim :
  forall ops i id names, nth_error (owners (id_run ops)) i = Some (Sh id names) ->
    let os := owners (id_run (ops ++ [CopyShim i])) in
    nth_error os (length (owners (id_run ops))) = Some (Sh id names) /\ i <> length (owners (id_run ops)) /\ nth_error os i = Some (Sh id names).
Proof. exact copied_shim. Qed.
Print Assumptions C85_copied_shim.
Example C85_copied_shim_example : owners (id_run two_owners) = [Nd 1 ["W"; "b"]; Sh 1 ["W"]; Sh 1 ["W"]].
Proof. reflexivity. Qed.

(** A node and a shim have a key in common exactly when the ids, from separate counters, coincide and a parameter has the same name in both. *)
Theorem C85_node_shim :
  forall ids idn ls ln, (exists k, In k (keys_of (Nd idn ln)) /\ In k (keys_of (Sh ids ls))) <-> idn = ids /\ exists name, In name ln /\ In name ls.
Proof. exact node_shim_keys. Qed.
Print Assumptions C85_node_shim.
Example C85_node_shim_example : keys_of (Nd 1 ["W"; "b"]) = [(1%Z, "W"); (1%Z, "b")] /\ keys_of (Sh 1 [tensorflow_name]) = [(1%Z, "tensorflow-shim")].
Proof. split; reflexivity. Qed.

(** Finding: the keys are not unique. The first node and the first PyTorch module share those of the parameters with the same name. *)
Theorem C85_keys_refuted :
  exists ops i j idi idj li lj,
    nth_error (owners (id_run ops)) i = Some (Nd idi li) /\ nth_error (owners (id_run ops)) j = Some (Sh idj lj) /\
    forallb (fun o => negb (is_copy o)) ops = true /\
    exists k, In k (keys_of (Nd idi li)) /\ In k (keys_of (Sh idj lj)).
Proof. exact colliding_keys. Qed.
Print Assumptions C85_keys_refuted.

(** The key of a parameter of a node is its own if no shim with the same number has a parameter of this name. *)
Theorem C85_private_node :
  forall ops i id names name, nth_error (owners (id_run ops)) i = Some (Nd id names) ->
    (forall ls, In (Sh id ls) (owners (id_run ops)) -> ~ In name ls) -> private (owners (id_run ops)) i (id, name).
Proof. exact node_private. Qed.
Print Assumptions C85_private_node.
Example C85_private_node_example : forall ls, In (Sh 1 ls) (owners (id_run two_owners)) -> ~ In "b" ls.
Proof. intros ls [H|[H|[H|[]]]]; inversion H; subst; intros [E|[]]; discriminate E. Qed.

(** Without copies of shims, that of a shim if no node with the same number has the name. *)
Theorem C85_private_shim :
  forall ops i id names name, forallb (fun o => negb (is_copy o)) ops = true -> nth_error (owners (id_run ops)) i = Some (Sh id names) ->
    (forall ln, In (Nd id ln) (owners (id_run ops)) -> ~ In name ln) -> private (owners (id_run ops)) i (id, name).
Proof. exact shim_private. Qed.
Print Assumptions C85_private_shim.
Example C85_private_shim_example : forall ln, In (Nd 1 ln) (owners (id_run [NewNode ["W"]; NewShim [mxnet_name]])) -> ~ In mxnet_name ln.
Proof. intros ln [H|[H|[]]]; inversion H; subst; intros [E|[]]; discriminate E. Qed.

(** The keys of a shim that is copied are not. *)
Theorem C85_private_copy :
  forall ops i id names name, nth_error (owners (id_run ops)) i = Some (Sh id names) -> In name names ->
    ~ private (owners (id_run (ops ++ [CopyShim i]))) i (id, name).
Proof. exact copy_not_private. Qed.
Print Assumptions C85_private_copy.
Example C85_private_copy_example : nth_error (owners (id_run [NewNode ["W"]; NewShim ["W"]])) 1 = Some (Sh 1 ["W"]).
Proof. reflexivity. Qed.

(** In every history of training, the updates under a key of its own, and everything the optimizer keeps for it, are those of training that owner alone. *)
Theorem C85_alone :
  forall (T : Type) (NT : Num T) adam (hp : hyper T key) avg os i k (es : tagged T),
    (h_radam hp = true -> exists b1 b2, fixed (h_b1 hp) b1 /\ fixed (h_b2 hp) b2) ->
    Forall (honest os) es -> private os i k ->
    let p := run_events adam hp (opt_init avg) (map snd es) in
    let q := run_events adam hp (opt_init avg) (map snd (alone i es)) in
    filter (out_of k) (snd p) = filter (out_of k) (snd q) /\ same_key k (fst p) (fst q).
Proof. exact @trained_alone. Qed.
Print Assumptions C85_alone.
Example C85_alone_example : Forall (honest (owners (id_run two_owners))) two_steps /\ private (owners (id_run two_owners)) 0 (1%Z, "b") /\ length (alone 0 two_steps) = 2.
Proof.
  split; [repeat constructor; eexists; (split; [reflexivity|cbn; tauto])|]. split; [|reflexivity].
  eapply C85_private_node; [reflexivity|exact C85_private_node_example].
Qed.

(** Finding: with a shared key, training the shim changes what the optimizer keeps for the node (here the number of updates, with it the running average). *)
Theorem C85_collision_refuted :
  exists ops i k es,
    Forall (honest (owners (id_run ops))) es /\ (exists o, nth_error (owners (id_run ops)) i = Some o /\ is_node o = true /\ In k (keys_of o)) /\
    forallb (fun o => negb (is_copy o)) ops = true /\
    ~ same_key k (fst (run_events base_adam sgd_hyper (opt_init true) (map snd es)))
                 (fst (run_events base_adam sgd_hyper (opt_init true) (map snd (alone i es)))).
Proof. exact collision_changes. Qed.
Print Assumptions C85_collision_refuted.

(** Finding: training a copy of a shim changes what the optimizer keeps for the original. *)
Theorem C85_copy_refuted :
  exists ops i j id names es k,
    nth_error (owners (id_run ops)) i = Some (Sh id names) /\
    nth_error (owners (id_run (ops ++ [CopyShim i]))) j = Some (Sh id names) /\ i <> j /\
    Forall (honest (owners (id_run (ops ++ [CopyShim i])))) es /\ In k (keys_of (Sh id names)) /\
    ~ same_key k (fst (run_events base_adam sgd_hyper (opt_init true) (map snd es)))
                 (fst (run_events base_adam sgd_hyper (opt_init true) (map snd (alone i es)))).
Proof. exact copy_changes. Qed.
Print Assumptions C85_copy_refuted.

