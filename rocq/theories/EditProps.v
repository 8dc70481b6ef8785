(** Editing the layer graph: C09, C10. *)
From Coq Require Import String Permutation.
From Verif Require Import GraphModel GraphSpec NodeModel NodeSpec EditModel EditSpec EditProofs.
Open Scope string_scope.

(** C09. When [replace_node] returns, the result says whether [old] was in the model, every node of
    the model other than [old] has each layer and reference to [old] redirected to [new] in place,
    and every other node (and [old] itself) is unchanged. *)
Theorem C09_replace_everywhere :
  forall (V A : Type) (h : heap V A) root old new h' b,
    dicts_ok h -> closed h -> root < length h ->
    replace_node h root old new = (h', Ok b) ->
    (b = true <-> reach (graph_of h) root old) /\ length h' = length h /\
    (forall a n, nth_error h a = Some n ->
       (reach (graph_of h) root a -> a <> old -> nth_error h' a = Some (replaced old new n)) /\
       (~ reach (graph_of h) root a \/ a = old -> nth_error h' a = Some n)).
Proof. exact (fun V A => @replace_node_effect V A). Qed.
Print Assumptions C09_replace_everywhere.

(** C09. It does return when the model is acyclic, references are below their owners, and no node
    of the model (except possibly [old]) has an unset reference. *)
Theorem C09_replace_succeeds :
  forall (V A : Type) (h : heap V A) root old new,
    dicts_ok h -> closed h -> root < length h -> acyclic (graph_of h) -> refs_in_tree h ->
    (forall a n nm, reach (graph_of h) root a -> a <> old -> nth_error h a = Some n ->
       has_ref n nm <> None) ->
    exists h' b, replace_node h root old new = (h', Ok b).
Proof. exact (fun V A => @replace_node_succeeds V A). Qed.
Print Assumptions C09_replace_succeeds.

Definition ex_m (ls : list addr) (refs : dict string (option addr)) : node nat Z :=
  mkNode 0 "n" 0 ls [] [] [] [] [] refs [].

(** Node 2 is shared by 0 and 1 and referenced from 0; it is replaced by 3. *)
Definition ex_h : heap nat Z :=
  [ex_m [1; 2; 2] [("out", Some 2); ("hidden", Some 1)]; ex_m [2] []; ex_m [] [("spare", None)]; ex_m [] []].

Example C09_hypotheses_ex : dicts_ok ex_h /\ closed ex_h /\ acyclic (graph_of ex_h) /\ refs_in_tree ex_h /\
  (forall a n nm, reach (graph_of ex_h) 0 a -> a <> 2 -> nth_error ex_h a = Some n -> has_ref n nm <> None).
Proof.
  split; [|split; [|split; [|split]]].
  - intros a n Hn. destruct a as [|[|[|[|a]]]]; cbn in Hn; try (injection Hn as <-; cbn);
      [repeat constructor; cbn; intuition discriminate|constructor|
       repeat constructor; cbn; tauto|constructor|destruct a; discriminate].
  - intros a n l Hn Hl. destruct a as [|[|[|[|a]]]]; cbn in Hn; try (injection Hn as <-; cbn in Hl |- *; lia).
    destruct a; discriminate.
  - assert (Hedge : forall a b, In b (layers (graph_of ex_h) a) -> a < b).
    { intros a b. destruct a as [|[|[|[|a]]]]; cbn; [lia|lia|lia|lia|]. destruct a; cbn; tauto. }
    assert (Hpath : forall k a b, path (graph_of ex_h) k a b -> k <= b - a /\ a <= b).
    { induction 1 as [a|k a b c Hp IH Hc]; [lia|]. apply Hedge in Hc. lia. }
    intros k a Hp. apply Hpath in Hp. lia.
  - intros a n nm b Hn Hg. destruct a as [|[|[|[|a]]]]; cbn in Hn;
      try (injection Hn as <-; unfold get_ref in Hg; cbn in Hg).
    + destruct (eqd nm "out"); [|destruct (eqd nm "hidden"); [|discriminate]]; injection Hg as <-;
        (exists 1; apply path_step with 0; [constructor|cbn; tauto]).
    + discriminate.
    + destruct (eqd nm "spare"); discriminate.
    + discriminate.
    + destruct a; discriminate.
  - intros a n nm _ Hne Hn. destruct a as [|[|[|[|a]]]]; cbn in Hn;
      try (injection Hn as <-; unfold has_ref; cbn).
    + destruct (eqd nm "out"); [discriminate|destruct (eqd nm "hidden"); discriminate].
    + discriminate.
    + congruence.
    + discriminate.
    + destruct a; discriminate.
Qed.

Example C09_ex :
  map (fun n => (n_layers n, n_refs n)) (fst (replace_node ex_h 0 2 3)) =
    [([1; 3; 3], [("out", Some 3); ("hidden", Some 1)]); ([3], []); ([], [("spare", None)]); ([], [])] /\
  snd (replace_node ex_h 0 2 3) = Ok true /\ snd (replace_node ex_h 0 3 1) = Err ValueError.
Proof. vm_compute. repeat split; reflexivity. Qed.

(** C09, finding. A node of the model with an unset reference makes [replace_node] raise, after
    it has already edited other nodes. *)
Theorem C09_unset_ref_refuted :
  exists (h : heap nat Z) root old new h',
    refs_in_tree h /\ acyclic (graph_of h) /\ replace_node h root old new = (h', Err ValueError) /\ h' <> h.
Proof. exact replace_unset_ref_witness. Qed.
Print Assumptions C09_unset_ref_refuted.

(** C10. When [remove_node] returns, for any order of the set iteration: the nodes of the
    remaining model are those reachable without passing through the removed node, none of them lists
    it, their other layers keep their order, references leaving the remaining model are unset and
    all else is unchanged; nodes that fell out of the model only lose the layer entry; nodes that
    were never in it are unchanged. *)
Theorem C10_remove_everywhere :
  forall (V A : Type) shuffle (h : heap V A) root x h',
    (forall l, Permutation (shuffle l) l) -> dicts_ok h -> closed h -> root < length h ->
    remove_node shuffle h root x = (h', Ok tt) ->
    length h' = length h /\
    (forall a n, nth_error h a = Some n ->
      let kept := filter (fun l => negb (Nat.eqb l x)) (n_layers n) in
      let in_new := reach (graph_of h') root in
      (in_new a -> nth_error h' a =
         Some (with_refs (with_layers n kept)
           (map (fun kv => (fst kv, prune (walk (graph_of h') Bfs root) (snd kv))) (n_refs n)))) /\
      (~ in_new a -> reach (graph_of h) root a -> nth_error h' a = Some (with_layers n kept)) /\
      (~ reach (graph_of h) root a -> nth_error h' a = Some n)) /\
    (forall a, reach (graph_of h') root a -> reach (graph_of h) root a /\ ~ In x (layers (graph_of h') a)) /\
    (root <> x -> forall a, reach (graph_of h') root a <-> avoid (graph_of h) x root a).
Proof. exact (fun V A => @remove_node_effect V A). Qed.
Print Assumptions C10_remove_everywhere.

(** C10. It succeeds when no node of the remaining model has an unset reference, and (finding)
    raises ValueError as soon as one of them has. *)
Theorem C10_remove_outcome :
  forall (V A : Type) shuffle (h : heap V A) root x,
    (forall l, Permutation (shuffle l) l) -> dicts_ok h -> closed h -> root < length h -> root <> x ->
    ((forall a n nm, avoid (graph_of h) x root a -> nth_error h a = Some n -> has_ref n nm <> None) ->
       exists h', remove_node shuffle h root x = (h', Ok tt)) /\
    (forall a n nm, avoid (graph_of h) x root a -> nth_error h a = Some n -> has_ref n nm = None ->
       exists h', remove_node shuffle h root x = (h', Err ValueError)).
Proof. exact (fun V A => @remove_node_outcome V A). Qed.
Print Assumptions C10_remove_outcome.

Example C10_ex :
  map (fun n => (n_layers n, n_refs n)) (fst (remove_node (fun l => rev l) ex_h 0 2)) =
    [([1], [("out", None); ("hidden", Some 1)]); ([], []); ([], [("spare", None)]); ([], [])] /\
  snd (remove_node (fun l => rev l) ex_h 0 2) = Ok tt.
Proof. vm_compute. repeat split; reflexivity. Qed.

(** C10, finding: the failing call has already edited the layers. *)
Theorem C10_partial_edit_refuted :
  exists (h : heap nat Z) root x h',
    remove_node (fun l => l) h root x = (h', Err ValueError) /\ h' <> h.
Proof. exact remove_partial_edit_witness. Qed.
Print Assumptions C10_partial_edit_refuted.
