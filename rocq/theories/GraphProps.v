(** Traversal of the layer graph: C01 and C02. *)
From Verif Require Import GraphModel GraphSpec GraphProofs.

(** C01. In every order, [walk] terminates and yields exactly the nodes reachable from the
    root through [layers], each once: shared, repeated and cyclic layers included. *)
Theorem C01_walk_exact_once :
  forall (g : graph) (o : order) (root : addr),
    NoDup (walk g o root) /\ forall x, In x (walk g o root) <-> reach g root x.
Proof. exact walk_exact. Qed.
Print Assumptions C01_walk_exact_once.

Theorem C01_walk_terminates :
  forall (g : graph) (o : order) (root : addr), exists l, walk_opt g o root = Some l.
Proof. exact walk_terminates. Qed.
Print Assumptions C01_walk_terminates.

(** Node 3 is shared by 1 and 2 and repeated in 2; node 2 also points back to the root. *)
Example C01_shared_cyclic_ex :
  let g := [[1; 2]; [3]; [3; 3; 0]; []] in
  walk g Bfs 0 = [0; 1; 2; 3] /\ walk g DfsPre 0 = [0; 1; 3; 2] /\ walk g DfsPost 0 = [3; 1; 2; 0].
Proof. vm_compute. repeat split; reflexivity. Qed.

(** C02. Breadth-first and pre-order start with the root, post-order ends with it. *)
Theorem C02_root_first :
  forall (g : graph) (root : addr),
    (exists l, walk g Bfs root = root :: l) /\ (exists l, walk g DfsPre root = root :: l).
Proof. exact walk_root_first. Qed.
Print Assumptions C02_root_first.

Theorem C02_root_last :
  forall (g : graph) (root : addr), exists l, walk g DfsPost root = l ++ [root].
Proof. exact walk_root_last. Qed.
Print Assumptions C02_root_last.

(** C02. Breadth-first yields nodes by non-decreasing distance from the root: if x comes
    before y then x is at least as close to the root as y. *)
Theorem C02_bfs_by_distance :
  forall (g : graph) (root x y : addr) (k : nat),
    before x y (walk g Bfs root) -> path g k root y -> exists j, j <= k /\ path g j root x.
Proof. exact bfs_by_distance. Qed.
Print Assumptions C02_bfs_by_distance.

Example C02_bfs_by_distance_ex :
  let g := [[1; 2]; [3]; [3]; []] in
  before 2 3 (walk g Bfs 0) /\ path g 2 0 3 /\ ~ (exists j, j <= 1 /\ path g j 0 3).
Proof.
  cbn zeta. split; [exists [0; 1], [], []; reflexivity|]. split.
  - apply path_step with 1; [apply path_step with 0; [constructor|]|]; cbn; tauto.
  - intros (j & Hj & Hp). inversion Hp as [|k a b c Hp' Hc]; subst.
    inversion Hp' as [|k' a' b' c' Hp'' Hc']; subst; [|lia].
    cbn in Hc. intuition congruence.
Qed.

(** C02. On every graph, breadth-first is the textbook level-by-level search. *)
Theorem C02_bfs_is_level_order :
  forall (g : graph) (root : addr),
    bfs_levels g [] [root] (walk g Bfs root) /\
    forall l, bfs_levels g [] [root] l -> walk g Bfs root = l.
Proof. exact (fun g root => conj (walk_bfs_levels g root) (walk_bfs_unique g root)). Qed.
Print Assumptions C02_bfs_is_level_order.

(** C02. Post-order lists every layer of a node before the node, on acyclic graphs. *)
Theorem C02_post_children_first :
  forall (g : graph) (root x y : addr),
    acyclic g -> reach g root x -> In y (layers g x) -> before y x (walk g DfsPost root).
Proof. exact walk_post_children_first. Qed.
Print Assumptions C02_post_children_first.

Example C02_post_children_first_ex :
  let g := [[1; 2]; [3]; [3]; []] in
  acyclic g /\ reach g 0 2 /\ In 3 (layers g 2).
Proof.
  cbn zeta. split; [|split; [exists 1; apply path_step with 0; [constructor|cbn; tauto]|cbn; tauto]].
  assert (Hedge : forall a b, In b (layers [[1; 2]; [3]; [3]; []] a) -> a < b).
  { intros a b. destruct a as [|[|[|[|a]]]]; cbn; [lia|lia|lia|lia|]. destruct a; cbn; tauto. }
  assert (Hpath : forall k a b, path [[1; 2]; [3]; [3]; []] k a b -> k <= b - a /\ a <= b).
  { induction 1 as [a|k a b c Hp IH Hc]; [lia|]. apply Hedge in Hc. lia. }
  intros k a Hp. apply Hpath in Hp. lia.
Qed.

(** C02. On every graph the two depth-first orders are those of the textbook recursive
    search, whose result is unique. *)
Theorem C02_dfs_is_recursive_search :
  forall (g : graph) (root : addr),
    dfs_rec g [] [root] (walk g DfsPre root) (walk g DfsPost root) /\
    forall p q, dfs_rec g [] [root] p q -> walk g DfsPre root = p /\ walk g DfsPost root = q.
Proof. exact (fun g root => conj (walk_dfs_rec g root) (walk_dfs_unique g root)). Qed.
Print Assumptions C02_dfs_is_recursive_search.

(** C02. On a tree (each node listed once) they are the recursive pre- and post-orders. *)
Theorem C02_dfs_on_trees :
  forall (g : graph) (t : tree),
    represents g t -> NoDup (preorder t) ->
    walk g DfsPre (troot t) = preorder t /\ walk g DfsPost (troot t) = postorder t.
Proof. exact walk_tree. Qed.
Print Assumptions C02_dfs_on_trees.

Example C02_dfs_on_trees_ex :
  let g := [[1; 4]; [2; 3]; []; []; []] in
  let t := T 0 [T 1 [T 2 []; T 3 []]; T 4 []] in
  represents g t /\ NoDup (preorder t) /\ walk g DfsPost 0 = [2; 3; 1; 4; 0].
Proof.
  cbn zeta. split; [cbn; tauto|]. split; [|vm_compute; reflexivity].
  cbn. repeat (constructor; [cbn; intuition discriminate|]). constructor.
Qed.
