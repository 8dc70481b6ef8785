(** Specification vocabulary for traversals, independent of the loops. *)
From Verif Require Import GraphModel.

(** [path g k a b]: following [layers] k times leads from a to b. *)
Inductive path (g : graph) : nat -> addr -> addr -> Prop :=
| path_here a : path g 0 a a
| path_step k a b c : path g k a b -> In c (layers g b) -> path g (S k) a c.

(** [b] is [a] itself, one of its layers, a layer of a layer, and so on. *)
Definition reach (g : graph) (a b : addr) : Prop := exists k, path g k a b.

(** No node is reachable from one of its own layers. *)
Definition acyclic (g : graph) : Prop := forall k a, ~ path g (S k) a a.

(** [x] is produced before [y]. *)
Definition before {A} (x y : A) (l : list A) : Prop :=
  exists l1 l2 l3, l = l1 ++ x :: l2 ++ y :: l3.

(** Trees as data, with the textbook recursive traversals. *)
Inductive tree := T (a : addr) (children : list tree).

Definition troot (t : tree) : addr := match t with T a _ => a end.

Fixpoint preorder (t : tree) : list addr :=
  match t with T a ts => a :: flat_map preorder ts end.

Fixpoint postorder (t : tree) : list addr :=
  match t with T a ts => flat_map postorder ts ++ [a] end.

(** The graph below [troot t] is exactly [t]: each node's layers are its children. *)
Fixpoint represents (g : graph) (t : tree) : Prop :=
  match t with
  | T a ts => layers g a = map troot ts /\
              (fix all ts := match ts with [] => True | t :: ts' => represents g t /\ all ts' end) ts
  end.

(** Textbook recursive depth-first search on an arbitrary graph, as a big-step relation:
    [dfs_rec g seen todo pre post] processes the list [todo] from left to right, skipping
    nodes already seen; [pre] lists nodes as they are entered and [post] as they are left. *)
Inductive dfs_rec (g : graph) : list addr -> list addr -> list addr -> list addr -> Prop :=
| dfs_rec_nil seen : dfs_rec g seen [] [] []
| dfs_rec_skip seen c cs pre post :
    In c seen -> dfs_rec g seen cs pre post -> dfs_rec g seen (c :: cs) pre post
| dfs_rec_visit seen c cs pre1 post1 pre2 post2 :
    ~ In c seen ->
    dfs_rec g (c :: seen) (layers g c) pre1 post1 ->
    dfs_rec g (pre1 ++ c :: seen) cs pre2 post2 ->
    dfs_rec g seen (c :: cs) (c :: pre1 ++ pre2) (post1 ++ c :: post2).

(** The elements of [l] not in [seen], first occurrences only, in order. *)
Fixpoint first_new (seen l : list addr) : list addr :=
  match l with
  | [] => []
  | a :: l' => if in_dec Nat.eq_dec a seen then first_new seen l' else a :: first_new (a :: seen) l'
  end.

(** Textbook level-by-level search: each level consists of the new nodes among the
    candidates; the next candidates are the layers of that level, in order. *)
Inductive bfs_levels (g : graph) : list addr -> list addr -> list addr -> Prop :=
| bfs_levels_nil seen : bfs_levels g seen [] []
| bfs_levels_level seen cands rest :
    cands <> [] ->
    bfs_levels g (first_new seen cands ++ seen) (flat_map (layers g) (first_new seen cands)) rest ->
    bfs_levels g seen cands (first_new seen cands ++ rest).
