(** [Model.copy]: C11. *)
From Coq Require Import String.
From Verif Require Import GraphModel GraphSpec NodeModel CopyModel CopySpec CopyProofs.
Open Scope string_scope.

(** C11. Copying an acyclic model always succeeds; everything that existed is left unchanged, and
    the new part is a copy of the model below [root]: a bijection [m] between the model's nodes
    and the new nodes (shared layers stay shared, distinct ones stay distinct) under which names,
    functions, dims, attributes, layers, shims, allocation flags, parameter and gradient contents
    agree; new ids are consecutive after all existing ones; every new node owns its arrays. *)
Theorem C11_copy_is_isomorphic :
  forall (E A B : Type) fuel (st : cstate E A B) root,
    wf_cstate st -> acyclic (graph_of (c_nodes st)) -> root < length (c_nodes st) -> length (c_nodes st) < fuel ->
    exists st' r m ms, copy fuel st root = Ok (st', r) /\ copied st st' root r m ms.
Proof. exact (fun E A B => @copy_total E A B). Qed.
Print Assumptions C11_copy_is_isomorphic.

(** C11. Any sequence of in-place writes to the parameter or gradient arrays of the copy leaves
    every node that existed before, and all it reads, unchanged; and vice versa. *)
Theorem C11_copy_is_independent :
  forall (E A B : Type) (st st' : cstate E A B) root r m ms (ws : list (addr * E)),
    wf_cstate st -> copied st st' root r m ms ->
    let after := fold_left (fun s w => write_array s (fst w) (snd w)) ws st' in
    ((forall x v, In (x, v) ws -> exists c n', length (c_nodes st) <= c /\ nth_error (c_nodes st') c = Some n' /\ In x (arrays_of n')) ->
     forall a nm, a < length (c_nodes st) ->
       nth_error (c_nodes after) a = nth_error (c_nodes st) a /\
       read_param after a nm = read_param st a nm /\ read_grad after a nm = read_grad st a nm) /\
    ((forall x v, In (x, v) ws -> exists a n, nth_error (c_nodes st) a = Some n /\ In x (arrays_of n)) ->
     forall c nm, length (c_nodes st) <= c ->
       read_param after c nm = read_param st' c nm /\ read_grad after c nm = read_grad st' c nm).
Proof. exact (fun E A B => @copy_independent E A B). Qed.
Print Assumptions C11_copy_is_independent.

(** C11. Ids stay unique over all models that exist. *)
Theorem C11_copy_ids_unique :
  forall (E A B : Type) (st st' : cstate E A B) root r m ms,
    wf_cstate st -> copied st st' root r m ms ->
    NoDup (map n_id (c_nodes st)) -> NoDup (map n_id (c_nodes st')).
Proof. exact (fun E A B => @copy_ids E A B). Qed.
Print Assumptions C11_copy_ids_unique.

(** A diamond: 0 -> 1, 2; 1 -> 3; 2 -> 3, 3; node 3 has a shim and a gradient, 1 has two
    parameters sharing an array. *)
Definition ex_st : cstate Z Z Z :=
  mkC [mkNode 1%Z "top" 0 [1; 2] [] [("nO", Some 3%Z)] [] [] [] [] [("k", 9%Z)];
       mkNode 2%Z "l" 1 [3] [] [] [("W", true); ("V", true); ("b", false)] [("W", 0); ("V", 0)] [] [] [];
       mkNode 3%Z "r" 1 [3; 3] [0] [] [] [] [] [] [];
       mkNode 4%Z "leaf" 2 [] [0] [] [("E", true)] [("E", 1)] [("E", 2)] [] []]
      [10%Z; 20%Z; 30%Z] [(1%Z, 77%Z)] 4%Z.
Example C11_ex :
  wf_cstate ex_st /\ acyclic (graph_of (c_nodes ex_st)) /\
  exists st' r, copy 5 ex_st 0 = Ok (st', r) /\ r = 7 /\
    map n_id (c_nodes st') = [1; 2; 3; 4; 5; 6; 7; 8]%Z /\
    map n_layers (skipn 4 (c_nodes st')) = [[]; [4]; [4; 4]; [5; 6]] /\
    map n_params (skipn 4 (c_nodes st')) = [[("E", 3)]; [("W", 5); ("V", 5)]; []; []] /\
    map n_shims (skipn 4 (c_nodes st')) = [[1]; []; [1]; []] /\
    c_arrays st' = [10; 20; 30; 20; 30; 10]%Z /\ c_shims st' = [(1, 77); (1, 77)]%Z.
Proof.
  split; [|split].
  - split.
    + intros a n Hn. do 4 (destruct a as [|a]; [injection Hn as <-; cbn; repeat constructor; cbn; intuition congruence|]). destruct a; discriminate.
    + intros a n l Hn Hl. do 4 (destruct a as [|a]; [injection Hn as <-; cbn in *; lia|]). destruct a; discriminate.
    + intros a n l Hn Hl. do 4 (destruct a as [|a]; [injection Hn as <-; cbn in *; lia|]). destruct a; discriminate.
    + intros a n nm Hn Hl. do 4 (destruct a as [|a]; [injection Hn as <-; cbn in *; try discriminate;
        repeat (match type of Hl with context [eqd ?x ?y] => destruct (eqd x y); try discriminate; eauto end)|]). destruct a; discriminate.
    + intros a n l Hn Hl. do 4 (destruct a as [|a]; [injection Hn as <-; cbn in *; lia|]). destruct a; discriminate.
    + intros a n Hn. do 4 (destruct a as [|a]; [injection Hn as <-; cbn in *; lia|]). destruct a; discriminate.
  - assert (Hs : forall a b, In b (layers (graph_of (c_nodes ex_st)) a) -> a < b).
    { intros a b Hb. do 4 (destruct a as [|a]; [cbn in Hb; lia|]). destruct a; destruct Hb. }
    assert (Hp : forall k a b, path (graph_of (c_nodes ex_st)) k a b -> a + k <= b).
    { intros k a b Hp. induction Hp as [|? ? ? ? ? ? Hl]; [lia|]. apply Hs in Hl. lia. }
    intros k a Hk. apply Hp in Hk. lia.
  - do 2 eexists. vm_compute. repeat split; reflexivity.
Qed.

(** C11, finding: references are not copied; a reference of the original raises KeyError in the copy. *)
Theorem C11_refs_refuted :
  exists (st : cstate Z Z Z) st' r n n', wf_cstate st /\ copy 3 st 0 = Ok (st', r) /\
    nth_error (c_nodes st) 0 = Some n /\ nth_error (c_nodes st') r = Some n' /\
    get_ref n "self" = Ok 0 /\ get_ref n' "self" = Err KeyError.
Proof. exact copy_refs_witness. Qed.
Print Assumptions C11_refs_refuted.

(** C11, finding: a copied shim keeps the id of the original (deepcopy does not run [__init__]). *)
Theorem C11_shim_id_refuted :
  exists (st : cstate Z Z Z) st' r s, wf_cstate st /\ copy 3 st 0 = Ok (st', r) /\
    nth_error (c_shims st') 0 = Some s /\ option_map fst (nth_error (c_shims st') 1) = Some (fst s).
Proof. exact copy_shim_witness. Qed.
Print Assumptions C11_shim_id_refuted.

(** C11, finding: two layers tied by sharing one parameter array are not tied in the copy. *)
Theorem C11_tied_array_refuted :
  exists (st : cstate Z Z Z) st' r n1 n2 n1' n2', wf_cstate st /\ copy 3 st 0 = Ok (st', r) /\
    nth_error (c_nodes st) 0 = Some n1 /\ nth_error (c_nodes st) 1 = Some n2 /\ n_layers n1 = [1] /\
    get_param n1 "W" = get_param n2 "W" /\
    nth_error (c_nodes st') r = Some n1' /\ map (nth_error (c_nodes st')) (n_layers n1') = [Some n2'] /\
    get_param n1' "W" <> get_param n2' "W".
Proof. exact copy_tied_witness. Qed.
Print Assumptions C11_tied_array_refuted.
