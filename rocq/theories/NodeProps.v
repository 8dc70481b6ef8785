(** Node state and bulk attribute setters: C01 (order names), C03, C04, C08, C16. *)
From Coq Require Import String.
From Verif Require Import GraphModel GraphSpec GraphProofs NodeModel NodeSpec NodeProofs.
Open Scope string_scope.

(** A node used by the examples: two dims (one unset), one allocated and one unallocated parameter. *)
Definition ex_node : node nat Z :=
  mkNode 7 "linear" 0 [] [] [("nO", Some 3%Z); ("nI", None)] [("W", true); ("b", false)] [("W", 5)] []
         [("out", None)] [("dropout_rate", 2%Z)].
Definition ex_bare : node nat Z :=
  mkNode 7 "linear" 0 [] [] [("nO", Some 3%Z); ("nI", None)] [("W", false)] [] [] [] [].

(** C01. The order argument: the three documented names work, any other raises ValueError. *)
Theorem C01_unknown_order :
  forall (g : graph) (order : string) (root : addr),
    (order <> "bfs" -> order <> "dfs_pre" -> order <> "dfs_post" -> walk_by_name g order root = Err ValueError) /\
    walk_by_name g "bfs" root = Ok (walk g Bfs root) /\
    walk_by_name g "dfs_pre" root = Ok (walk g DfsPre root) /\
    walk_by_name g "dfs_post" root = Ok (walk g DfsPost root).
Proof. exact walk_by_name_spec. Qed.
Print Assumptions C01_unknown_order.

(** C03. After any history of calls, [get_dim] returns the last accepted value; if no call on
    this name was accepted it returns what it returned before. *)
Theorem C03_last_accepted :
  forall (V A : Type) (add : V -> V -> V) (n n' : node V A) ops name tr,
    node_run add n ops = (n', tr) ->
    get_dim n' name = match last_dim name tr with Some v => Ok v | None => get_dim n name end.
Proof. exact (fun V A add n n' ops name tr => dim_history add n ops name n' tr). Qed.
Print Assumptions C03_last_accepted.

(** C03. Once a dimension has a value, no history without a forced call on it changes it: calls
    with the same value are accepted, calls with another value raise ValueError. *)
Theorem C03_written_once :
  forall (V A : Type) (add : V -> V -> V) (n n' : node V A) ops name v tr,
    node_run add n ops = (n', tr) -> get_dim n name = Ok v ->
    (forall w, ~ In (OSetDim name w true) ops) ->
    get_dim n' name = Ok v /\
    forall w r, In (OSetDim name w false, r) tr -> r = if (w =? v)%Z then Ok tt else Err ValueError.
Proof. exact (fun V A add n n' ops name v tr => dim_write_once add n ops name v n' tr). Qed.
Print Assumptions C03_written_once.

Example C03_written_once_ex :
  let ops := [OSetDim "nO" 4%Z false; OSetDim "nI" 2%Z false; OSetDim "nO" 3%Z false; OSetDim "nI" 9%Z false] in
  get_dim ex_node "nO" = Ok 3%Z /\ (forall w, ~ In (OSetDim "nO" w true) ops) /\
  map snd (snd (node_run Nat.add ex_node ops)) = [Err ValueError; Ok tt; Ok tt; Err ValueError] /\
  get_dim (fst (node_run Nat.add ex_node ops)) "nI" = Ok 2%Z.
Proof.
  cbn zeta. split; [reflexivity|]. split; [|split; reflexivity].
  intros w Hin. cbn in Hin. intuition congruence.
Qed.

(** C03. Only declared names can ever be set; reading an undeclared name raises KeyError. *)
Theorem C03_only_declared :
  forall (V A : Type) (add : V -> V -> V) (n n' : node V A) ops name tr,
    node_run add n ops = (n', tr) -> ~ In name (dkeys (n_dims n)) ->
    ~ In name (dkeys (n_dims n')) /\ get_dim n' name = Err KeyError /\
    forall w f r, In (OSetDim name w f, r) tr -> r = Err KeyError.
Proof. exact (fun V A add n n' ops name tr => dim_undeclared add n ops name n' tr). Qed.
Print Assumptions C03_only_declared.

(** C03. A forced change is refused exactly when some parameter is allocated. *)
Theorem C03_forced_change :
  forall (V A : Type) (n : node V A) name v o,
    get_dim n name = Ok o -> o <> v ->
    ((exists p, has_param n p = Some true) -> NoDup (dkeys (n_has n)) ->
       set_dim n name v true = (n, Err ValueError)) /\
    ((forall p, has_param n p <> Some true) -> NoDup (dkeys (n_has n)) ->
       snd (set_dim n name v true) = Ok tt /\ get_dim (fst (set_dim n name v true)) name = Ok v).
Proof. exact (fun V A => @set_dim_forced V A). Qed.
Print Assumptions C03_forced_change.

Example C03_forced_change_ex :
  get_dim ex_node "nO" = Ok 3%Z /\ has_param ex_node "W" = Some true /\
  snd (set_dim ex_node "nO" 4%Z true) = Err ValueError /\
  get_dim (fst (set_dim ex_bare "nO" 4%Z true)) "nO" = Ok 4%Z.
Proof. vm_compute. repeat split; reflexivity. Qed.

(** C03. A failed call leaves the node unchanged; an accepted one changes nothing but the dims. *)
Theorem C03_failed_unchanged :
  forall (V A : Type) (n : node V A) name v f e,
    snd (set_dim n name v f) = Err e -> fst (set_dim n name v f) = n.
Proof. exact (fun V A => @set_dim_failed V A). Qed.
Print Assumptions C03_failed_unchanged.

Theorem C03_only_dims_change :
  forall (V A : Type) (n : node V A) name v f,
    exists d, fst (set_dim n name v f) = with_dims n d /\
      (d = n_dims n \/ d = dset name (Some v) (n_dims n)).
Proof. exact (fun V A => @set_dim_only_dims V A). Qed.
Print Assumptions C03_only_dims_change.

(** C04. [get_param] returns the value of the last [set_param] with a value other than None. *)
Theorem C04_last_write :
  forall (V A : Type) (add : V -> V -> V) (n n' : node V A) ops name v tr,
    node_run add n ops = (n', tr) -> last_param name ops = Some v -> get_param n' name = Ok v.
Proof. exact (fun V A add n n' ops name v tr => param_last_write add n ops name v n' tr). Qed.
Print Assumptions C04_last_write.

Example C04_last_write_ex :
  let ops := [OSetParam "W" (Some 1); OIncGrad "W" 9; OSetParam "b" (Some 2); OSetParam "W" (Some 3);
              OSetParam "W" None; OSetDim "nI" 8%Z false] in
  last_param "W" ops = Some 3 /\ get_param (fst (node_run Nat.add ex_node ops)) "W" = Ok 3.
Proof. vm_compute. split; reflexivity. Qed.

(** C04. Histories that never write a name leave its reads alone. *)
Theorem C04_isolated :
  forall (V A : Type) (add : V -> V -> V) (n n' : node V A) ops name tr,
    node_run add n ops = (n', tr) -> (forall v, ~ In (OSetParam name v) ops) ->
    get_param n' name = get_param n name /\ has_param n' name = has_param n name.
Proof. exact (fun V A add n n' ops name tr => param_untouched add n ops name n' tr). Qed.
Print Assumptions C04_isolated.

Example C04_isolated_ex :
  let ops := [OSetParam "b" (Some 1); OSetParam "c" (Some 4); OSetGrad "W" 9] in
  (forall v, ~ In (OSetParam "W" v) ops) /\ get_param (fst (node_run Nat.add ex_node ops)) "W" = Ok 5 /\
  get_param (fst (node_run Nat.add ex_node ops)) "c" = Ok 4.
Proof. cbn zeta. split; [|split; reflexivity]. intros v Hin. cbn in Hin. intuition congruence. Qed.

(** C04. [has_param] is True / None according to the last write, and as before without one;
    an unregistered name gives False and its reads raise KeyError. *)
Theorem C04_has_param :
  forall (V A : Type) (add : V -> V -> V) (n n' : node V A) ops name tr,
    node_run add n ops = (n', tr) ->
    has_param n' name =
      match last_param_write name ops with
      | Some (Some _) => Some true | Some None => None | None => has_param n name end.
Proof. exact (fun V A add n n' ops name tr => has_param_last add n ops name n' tr). Qed.
Print Assumptions C04_has_param.

Theorem C04_unregistered :
  forall (V A : Type) (n : node V A) name,
    ~ In name (dkeys (n_has n)) -> has_param n name = Some false /\ get_param n name = Err KeyError.
Proof. exact (fun V A => @param_unregistered V A). Qed.
Print Assumptions C04_unregistered.

(** [maybe_get_param] reads a parameter that is set, and is None otherwise; [maybe_get_dim] likewise. *)
Theorem C04_maybe_get :
  forall (V A : Type) (n : node V A) name,
    maybe_get_param n name = match dget name (n_has n) with Some true => match dget name (n_params n) with Some v => Ok (Some v) | None => Err KeyError end | _ => Ok None end /\
    maybe_get_dim n name = Ok match dget name (n_dims n) with Some d => d | None => None end.
Proof. exact @maybe_get. Qed.
Print Assumptions C04_maybe_get.

(** C04, finding. One would expect reads to fail once the parameter has been un-set; they return
    the old array. *)
Theorem C04_unset_read_refuted :
  exists (n : node nat Z) name v,
    has_param (set_param n name None) name = None /\ get_param (set_param n name None) name = Ok v.
Proof. exact (ex_intro _ ex_node (ex_intro _ "W" (ex_intro _ 5 (conj eq_refl eq_refl)))). Qed.
Print Assumptions C04_unset_read_refuted.

(** C08. [set_ref] succeeds exactly for None and for nodes reachable from the model. *)
Theorem C08_set_ref_iff :
  forall (V A : Type) (h : heap V A) a name v,
    snd (set_ref h a name v) = Ok tt <-> (v = None \/ exists b, v = Some b /\ reach (graph_of h) a b).
Proof. exact (fun V A => @set_ref_iff V A). Qed.
Print Assumptions C08_set_ref_iff.

Theorem C08_failed_unchanged :
  forall (V A : Type) (h : heap V A) a name v e,
    snd (set_ref h a name v) = Err e -> set_ref h a name v = (h, Err ValueError).
Proof. exact (fun V A => @set_ref_fail V A). Qed.
Print Assumptions C08_failed_unchanged.

(** C08. After any history of edits, [get_ref] on any node returns the node of the last accepted
    [set_ref] of that name there, ValueError if that was None, and its previous answer if there
    was no such call. *)
Theorem C08_last_ref :
  forall (V A : Type) (h h' : heap V A) ops tr a n n' name,
    tree_run h ops = (h', tr) -> nth_error h a = Some n -> nth_error h' a = Some n' ->
    get_ref n' name =
      match last_ref a name tr with
      | Some (Some b) => Ok b | Some None => Err ValueError | None => get_ref n name
      end.
Proof. exact (fun V A => @ref_history V A). Qed.
Print Assumptions C08_last_ref.

(** C08. References stay below their owner over any history of [set_ref] calls and of layers
    being appended. *)
Theorem C08_refs_stay_in_tree :
  forall (V A : Type) (h h' : heap V A) ops tr,
    refs_in_tree h -> tree_run h ops = (h', tr) -> refs_in_tree h'.
Proof. exact (fun V A => @tree_run_inv V A). Qed.
Print Assumptions C08_refs_stay_in_tree.

Definition ex_leaf (ls : list addr) (refs : dict string (option addr)) : node nat Z :=
  mkNode 0 "n" 0 ls [] [] [] [] [] refs [].

Example C08_history_ex :
  let h := [ex_leaf [1] [("out", None)]; ex_leaf [2] []; ex_leaf [] []; ex_leaf [] []] in
  let ops := [TSetRef 0 "out" (Some 2); TSetRef 1 "up" (Some 0); TSetRef 0 "out" (Some 3);
              TAppend 1 [3]; TSetRef 0 "out" (Some 3)] in
  refs_in_tree h /\
  map snd (snd (tree_run h ops)) = [Ok tt; Err ValueError; Err ValueError; Ok tt; Ok tt] /\
  option_map (fun n => get_ref n "out") (nth_error (fst (tree_run h ops)) 0) = Some (Ok 3).
Proof.
  cbn zeta. split; [|split; vm_compute; reflexivity].
  intros a n name b Hn Hg. destruct a as [|[|[|[|a]]]]; cbn in Hn;
    try (injection Hn as <-; unfold get_ref in Hg; cbn in Hg; discriminate).
  - injection Hn as <-. unfold get_ref in Hg. cbn in Hg. destruct (eqd name "out"); discriminate.
  - destruct a; discriminate.
Qed.

(** C16. [set_dropout_rate] sets the listed attributes on exactly the nodes of the model that
    already have them and changes nothing else. *)
Theorem C16_set_dropout_rate :
  forall (V A : Type) (h : heap V A) root drop attrs a n,
    nth_error h a = Some n -> NoDup (dkeys (n_attrs n)) ->
    (reach (graph_of h) root a ->
       nth_error (set_dropout_rate h root drop attrs) a =
         Some (with_attrs n (map (fun kv => (fst kv, if in_dec eqd (fst kv) attrs then drop else snd kv))
                               (n_attrs n)))) /\
    (~ reach (graph_of h) root a -> nth_error (set_dropout_rate h root drop attrs) a = Some n) /\
    length (set_dropout_rate h root drop attrs) = length h.
Proof. exact (fun V A => @set_dropout_rate_exact V A). Qed.
Print Assumptions C16_set_dropout_rate.

(** C16. [change_attr_values]. *)
Theorem C16_change_attr_values :
  forall (V A : Type) (h : heap V A) root (mapping : dict string (dict string A)) a n,
    nth_error h a = Some n -> NoDup (dkeys (n_attrs n)) ->
    (forall nm d, In (nm, d) mapping -> NoDup (dkeys d)) ->
    (forall d, reach (graph_of h) root a -> dget (n_name n) mapping = Some d ->
       nth_error (change_attr_values h root mapping) a =
         Some (with_attrs n (map (fun kv => (fst kv, match dget (fst kv) d with Some v => v | None => snd kv end))
                               (n_attrs n)))) /\
    (~ reach (graph_of h) root a \/ dget (n_name n) mapping = None ->
       nth_error (change_attr_values h root mapping) a = Some n) /\
    length (change_attr_values h root mapping) = length h.
Proof. exact (fun V A => @change_attr_values_exact V A). Qed.
Print Assumptions C16_change_attr_values.

Example C16_ex :
  let drop := mkNode 1 "dropout" 0 [] [] [] [] [] [] [] [("dropout_rate", 5%Z); ("x", 1%Z)] : node nat Z in
  let h := [ex_leaf [1; 1] []; drop; drop] in
  map n_attrs (set_dropout_rate h 0 9%Z ["dropout_rate"; "rate"]) =
    [[]; [("dropout_rate", 9%Z); ("x", 1%Z)]; [("dropout_rate", 5%Z); ("x", 1%Z)]] /\
  map n_attrs (change_attr_values h 0 [("dropout", [("x", 4%Z); ("y", 6%Z)])]) =
    [[]; [("dropout_rate", 5%Z); ("x", 4%Z)]; [("dropout_rate", 5%Z); ("x", 1%Z)]].
Proof. vm_compute. split; reflexivity. Qed.
