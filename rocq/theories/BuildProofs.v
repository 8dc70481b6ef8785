(** Proofs about the construction of layers. *)
From Coq Require Import String Lia.
From Verif Require Import BuildSpec.
Set Default Goal Selector "!".
Local Open Scope string_scope.

Section Build.
  Context {T : Type} `{Num T}.
  Notation bst := (bst T). Notation bnode := (bnode T). Notation fexpr := (fexpr T). Notation options := (options T).

  Lemma fexpr_rec' (P : fexpr -> Prop) : (forall n, P (ELeaf n)) -> (forall k es, Forall P es -> P (EComb k es)) -> forall e, P e.
  Proof.
    intros HL HC. fix IH 1. intros [n|k es]; [apply HL|]. apply HC. induction es as [|e es IHes]; constructor; [apply IH|exact IHes].
  Qed.

  (** ** Heaps *)
  Lemma computes_mono (h : list bnode) news e : forall a, computes h a e -> computes (h ++ news)%list a e.
  Proof.
    induction e as [n|k es IH] using fexpr_rec'; intros a C; inversion C as [? ? E L|? m ? ? E K F]; subst.
    - apply computes_leaf; [|exact L]. rewrite nth_error_app1; [exact E|]. apply nth_error_Some. congruence.
    - apply computes_comb with (n := m); [|exact K|].
      + rewrite nth_error_app1; [exact E|]. apply nth_error_Some. congruence.
      + clear C K E. revert IH. induction F as [|l e ls es HE F IHF]; intros IH; constructor; inversion IH; auto.
  Qed.
  Lemma computes_mono_all (h : list bnode) news ls es : Forall2 (computes h) ls es -> Forall2 (computes (h ++ news)%list) ls es.
  Proof. induction 1; constructor; auto using computes_mono. Qed.
  Lemma replace_eq (h : list bnode) a n : a < length h -> nth_error (replace h a n) a = Some n.
  Proof. revert a. induction h as [|x h IH]; intros [|a] L; cbn in *; try lia; [reflexivity|]. apply IH. lia. Qed.
  Lemma replace_neq (h : list bnode) a b n : a <> b -> nth_error (replace h a n) b = nth_error h b.
  Proof. revert a b. induction h as [|x h IH]; intros [|a] [|b] N; cbn; try reflexivity; [now destruct N|]. apply IH. congruence. Qed.
  (** What does not contain a model does not notice that it changed. *)
  Lemma computes_replace (h : list bnode) a n e : forall b, computes h b e -> ~ reaches h b a -> computes (replace h a n) b e.
  Proof.
    induction e as [m|k es IH] using fexpr_rec'; intros b C R; assert (b <> a) as Nb by (intros ->; apply R, reaches_self); inversion C as [? ? E L|? m' ? ? E K F]; subst.
    - apply computes_leaf; [|exact L]. rewrite replace_neq by congruence. exact E.
    - apply computes_comb with (n := m'); [|exact K|]; [rewrite replace_neq by congruence; exact E|].
      assert (RL : forall l, In l (b_layers m') -> ~ reaches h l a) by (intros l Hl Q; apply R; now apply reaches_layer with (n := m') (l := l)).
      clear C K E R. revert IH RL. induction F as [|l e ls es HE F IHF]; intros IH RL; constructor; inversion IH; subst; [|apply IHF]; auto with datatypes.
  Qed.
  Lemma computes_replace_all (h : list bnode) a n ls es : Forall2 (computes h) ls es -> (forall l, In l ls -> ~ reaches h l a) -> Forall2 (computes (replace h a n)) ls es.
  Proof. induction 1; intros R; constructor; auto using computes_replace with datatypes. Qed.

  (** ** Steps *)
  Lemma node_at_run (s : bst) a n : nth_error (g_heap s) a = Some n -> node_at a s = (s, Ok n).
  Proof. intros E. unfold node_at. now rewrite E. Qed.
  Lemma nodes_at_run (s : bst) ls : Forall (fun l => l < length (g_heap s)) ls -> exists ns, nodes_at ls s = (s, Ok ns) /\ Forall2 (fun l n => nth_error (g_heap s) l = Some n) ls ns.
  Proof.
    induction 1 as [|l ls L F (ns & E & F2)]; [exists []; split; [reflexivity|constructor]|].
    destruct (nth_error (g_heap s) l) as [n|] eqn:N; [|apply nth_error_None in N; lia].
    exists (n :: ns). split; [|now constructor]. cbn [nodes_at]. unfold andthen. rewrite (node_at_run s l n N), E. reflexivity.
  Qed.
  Lemma computes_live (h : list bnode) a e : computes h a e -> a < length h.
  Proof. intros C. apply nth_error_Some. inversion C; congruence. Qed.
  Lemma computes_lives (h : list bnode) ls es : Forall2 (computes h) ls es -> Forall (fun l => l < length h) ls.
  Proof. induction 1; constructor; eauto using computes_live. Qed.
  Lemma nth_new {A} (l : list A) x : nth_error (l ++ [x])%list (length l) = Some x.
  Proof. rewrite nth_error_app2, Nat.sub_diag by lia. reflexivity. Qed.

  Lemma grows_one (s : bst) (n : bnode) : b_id n = (g_id s + 1)%Z -> grows s (mkSt (g_id s + 1)%Z (g_heap s ++ [n])%list) [n].
  Proof.
    intros E. split; [reflexivity|]. split; [reflexivity|]. intros [|k] m Hm; [injection Hm as <-; rewrite E; lia|]. destruct k; discriminate Hm.
  Qed.
  Lemma new_computes (s : bst) k es n : combinator_of (b_func n) = Some k -> Forall2 (computes (g_heap s)) (b_layers n) es ->
    computes (g_heap s ++ [n])%list (length (g_heap s)) (EComb k es).
  Proof. intros K F. apply computes_comb with (n := n); [apply nth_new|exact K|]. now apply computes_mono_all. Qed.

  Lemma Forall2_at {A B} (R : A -> B -> Prop) l r : Forall2 R l r -> forall k a, nth_error l k = Some a -> exists b, nth_error r k = Some b /\ R a b.
  Proof. induction 1 as [|a b l r HR F IH]; intros [|k] x E; try discriminate; [injection E as <-; now exists b|]. now apply IH. Qed.
  Lemma last_default {A} (l : list A) x a b : last (x :: l) a = last (x :: l) b.
  Proof. revert x. induction l as [|y l IH]; intros x; [reflexivity|]. exact (IH y). Qed.
  Lemma Forall2_last {A B} (R : A -> B -> Prop) x l y r : R x y -> Forall2 R l r -> R (last (x :: l) x) (last (y :: r) y).
  Proof.
    intros HR F. revert x y HR. induction F as [|a b l r Hab F IH]; intros x y HR; [exact HR|].
    change (R (last (a :: l) x) (last (b :: r) y)). rewrite (last_default l a x a), (last_default r b y b). now apply IH.
  Qed.
  Lemma chain_run (s : bst) l1 l2 ls es : Forall2 (computes (g_heap s)) (l1 :: l2 :: ls) es -> exists s' root n ns first,
    chain (l1 :: l2 :: ls) s = (s', Ok root) /\ grows s s' [n] /\ root = length (g_heap s) /\ computes (g_heap s') root (EComb Seq es) /\
    Forall2 (fun l n => nth_error (g_heap s) l = Some n) (l1 :: l2 :: ls) ns /\ hd_error ns = Some first /\ b_name n = String.concat ">>" (map b_name ns) /\
    dget "nI" (b_dims n) = dget "nI" (b_dims first) /\
    dget "nO" (b_dims n) = Some (match dget "nO" (b_dims (last ns first)) with Some v => v | None => None end).
  Proof.
    intros F. destruct (nodes_at_run s _ (computes_lives _ _ _ F)) as (ns & E & N).
    destruct ns as [|n1 ns]; [inversion N|]. inversion N as [|? ? ? ? E1 N']; subst.
    pose proof (Forall2_last (fun l n => nth_error (g_heap s) l = Some n) _ _ _ _ E1 N') as EL. cbn beta in EL.
    unfold chain. unfold andthen at 1. rewrite E. unfold andthen at 1. rewrite (node_at_run _ _ _ E1). unfold andthen at 1. rewrite (node_at_run _ _ _ EL). unfold new_model.
    eexists. exists (length (g_heap s)). eexists. exists (n1 :: ns), n1. split; [reflexivity|]. split; [apply grows_one; reflexivity|]. split; [reflexivity|].
    split; [cbn [g_heap]; now apply new_computes|]. split; [exact N|]. split; [reflexivity|]. split; [reflexivity|]. cbn [b_dims]. split.
    - unfold knows_dim, dim_of. destruct (dget "nI" (b_dims n1)) as [[v|]|]; reflexivity.
    - cbn [dget]. change (eqd "nO" "nO") with (string_dec "nO" "nO"). cbn [string_dec]. unfold dim_of. destruct (dget "nO" (b_dims (last (n1 :: ns) n1))) as [[v|]|]; reflexivity.
  Qed.

  Lemma grows_refl (s : bst) : grows s s [].
  Proof. split; [now rewrite app_nil_r|]. split; [cbn; lia|]. intros [|k] n E; discriminate E. Qed.
  Lemma grows_trans (s1 s2 s3 : bst) l r : grows s1 s2 l -> grows s2 s3 r -> grows s1 s3 (l ++ r)%list.
  Proof.
    intros (H1 & I1 & N1) (H2 & I2 & N2). split; [now rewrite H2, H1, app_assoc|]. split; [rewrite I2, I1, app_length; lia|].
    intros k n E. destruct (Nat.ltb_spec k (length l)) as [L|L].
    - rewrite nth_error_app1 in E by exact L. now apply N1.
    - rewrite nth_error_app2 in E by exact L. rewrite (N2 _ _ E), I1. lia.
  Qed.
  Lemma grows_computes (s s' : bst) news a e : grows s s' news -> computes (g_heap s) a e -> computes (g_heap s') a e.
  Proof. intros (E & _) C. rewrite E. now apply computes_mono. Qed.
  Lemma grows_at (s s' : bst) news a n : grows s s' news -> nth_error (g_heap s) a = Some n -> nth_error (g_heap s') a = Some n.
  Proof. intros (E & _) N. rewrite E, nth_error_app1; [exact N|]. apply nth_error_Some. congruence. Qed.
  Lemma chain_two (s : bst) a b na nb ea eb : nth_error (g_heap s) a = Some na -> nth_error (g_heap s) b = Some nb -> computes (g_heap s) a ea -> computes (g_heap s) b eb ->
    exists s' root n, chain [a; b] s = (s', Ok root) /\ grows s s' [n] /\ nth_error (g_heap s') root = Some n /\ computes (g_heap s') root (EComb Seq [ea; eb]) /\
      dget "nI" (b_dims n) = dget "nI" (b_dims na) /\ dget "nO" (b_dims n) = Some (match dget "nO" (b_dims nb) with Some v => v | None => None end) /\ b_attrs n = [] /\ b_func n = FChain.
  Proof.
    intros Na Nb Ca Cb. unfold chain, nodes_at, andthen, ret. cbn [last]. rewrite (node_at_run _ _ _ Na), (node_at_run _ _ _ Nb). rewrite (node_at_run _ _ _ Na), (node_at_run _ _ _ Nb). unfold new_model.
    eexists. exists (length (g_heap s)). eexists. split; [reflexivity|]. split; [apply grows_one; reflexivity|]. split; [cbn [g_heap]; apply nth_new|]. split.
    { cbn [g_heap]. apply new_computes; [reflexivity|]. cbn [b_layers]. auto. }
    cbn [b_dims]. split; [|split; [|split; reflexivity]].
    - unfold knows_dim, dim_of. destruct (dget "nI" (b_dims na)) as [[v|]|]; reflexivity.
    - unfold dim_of. destruct (dget "nO" (b_dims nb)) as [[v|]|]; reflexivity.
  Qed.
  Lemma new_run name f inits dims params attrs (s : bst) : combinator_of f = None ->
    exists s', new_model name f inits dims params attrs [] s = (s', Ok (length (g_heap s))) /\ g_id s' = (g_id s + 1)%Z /\
      grows s s' [mkB (g_id s + 1) name f inits dims params attrs []] /\
      nth_error (g_heap s') (length (g_heap s)) = Some (mkB (g_id s + 1) name f inits dims params attrs []) /\
      computes (g_heap s') (length (g_heap s)) (ELeaf (mkB (g_id s + 1) name f inits dims params attrs [])).
  Proof.
    intros L. unfold new_model. eexists. split; [reflexivity|]. split; [reflexivity|]. split; [apply grows_one; reflexivity|]. split; [apply nth_new|].
    apply computes_leaf; [apply nth_new|exact L].
  Qed.
  Lemma finish_run (s : bst) a na ea o : nth_error (g_heap s) a = Some na -> computes (g_heap s) a ea -> dget "nI" (b_dims na) = Some (o_nI o) -> dget "nO" (b_dims na) = Some (o_nO o) ->
    exists s' root news, finish a o s = (s', Ok root) /\ grows s s' news /\
      let norm := ELeaf (mkB (g_id s + 1) "layernorm" FLayerNorm [] [("nI", o_nO o); ("nO", o_nO o)] ["G"; "b"] [] []) in
      let drop j r := ELeaf (mkB (g_id s + j) "dropout" FDropout [] [] [] [("dropout_rate", AFloat r); ("is_enabled", ABool true)] []) in
      computes (g_heap s') root match o_normalize o, o_dropout o with
        | false, None => ea
        | true, None => EComb Seq [ea; norm]
        | false, Some r => EComb Seq [ea; drop 1%Z r]
        | true, Some r => EComb Seq [EComb Seq [ea; norm]; drop 3%Z r]
        end /\
      dim_state s' root "nI" = Some (o_nI o) /\ dim_state s' root "nO" = Some (match o_dropout o with None => o_nO o | Some _ => None end).
  Proof.
    intros Na Ca DI DO. cbn zeta.
    (* the normalization *)
    assert (S1 : exists s1 a1 n1 news, (if o_normalize o then andthen (LayerNorm (o_nO o)) (fun norm => chain [a; norm]) else ret a) s = (s1, Ok a1) /\ grows s s1 news /\
      g_id s1 = (g_id s + if o_normalize o then 2 else 0)%Z /\ nth_error (g_heap s1) a1 = Some n1 /\
      computes (g_heap s1) a1 (if o_normalize o then EComb Seq [ea; ELeaf (mkB (g_id s + 1) "layernorm" FLayerNorm [] [("nI", o_nO o); ("nO", o_nO o)] ["G"; "b"] [] [])] else ea) /\
      dget "nI" (b_dims n1) = Some (o_nI o) /\ dget "nO" (b_dims n1) = Some (o_nO o)).
    { destruct (o_normalize o).
      - unfold andthen, LayerNorm. destruct (new_run "layernorm" FLayerNorm [] [("nI", o_nO o); ("nO", o_nO o)] ["G"; "b"] [] s eq_refl) as (s1 & -> & I1 & G1 & N1 & C1).
        destruct (chain_two s1 a (length (g_heap s)) _ _ _ _ (grows_at _ _ _ _ _ G1 Na) N1 (grows_computes _ _ _ _ _ G1 Ca) C1) as (s2 & root & n & E2 & G2 & N2 & C2 & A2 & B2 & _).
        exists s2, root, n, ([mkB (g_id s + 1) "layernorm" FLayerNorm [] [("nI", o_nO o); ("nO", o_nO o)] ["G"; "b"] [] []] ++ [n])%list.
        split; [exact E2|]. split; [exact (grows_trans _ _ _ _ _ G1 G2)|]. split; [destruct G2 as (_ & -> & _); rewrite I1; cbn; lia|].
        split; [exact N2|]. split; [exact C2|]. split; [now rewrite A2|]. rewrite B2. reflexivity.
      - exists s, a, na, []. split; [reflexivity|]. split; [apply grows_refl|]. split; [lia|]. auto. }
    destruct S1 as (s1 & a1 & n1 & news1 & E1 & G1 & I1 & N1 & C1 & D1 & D2). unfold finish. unfold andthen at 1. rewrite E1.
    destruct (o_dropout o) as [r|].
    - unfold andthen, Dropout. destruct (new_run "dropout" FDropout [] [] [] [("dropout_rate", AFloat r); ("is_enabled", ABool true)] s1 eq_refl) as (s2 & -> & I2 & G2 & N2 & C2).
      destruct (chain_two s2 a1 (length (g_heap s1)) _ _ _ _ (grows_at _ _ _ _ _ G2 N1) N2 (grows_computes _ _ _ _ _ G2 C1) C2) as (s3 & root & n & E3 & G3 & N3 & C3 & A3 & B3 & _).
      exists s3, root. eexists. split; [exact E3|]. split; [exact (grows_trans _ _ _ _ _ (grows_trans _ _ _ _ _ G1 G2) G3)|]. split; [|split].
      + rewrite I1 in C3. destruct (o_normalize o); [replace (g_id s + 2 + 1)%Z with (g_id s + 3)%Z in C3 by lia|replace (g_id s + 0 + 1)%Z with (g_id s + 1)%Z in C3 by lia]; exact C3.
      + unfold dim_state. rewrite N3, A3. exact D1.
      + unfold dim_state. rewrite N3, B3. reflexivity.
    - exists s1, a1, news1. split; [reflexivity|]. split; [exact G1|]. split; [destruct (o_normalize o); exact C1|]. unfold dim_state. rewrite N1. auto.
  Qed.
  Lemma dense_run name f W b extra attrs o (s : bst) : combinator_of f = None ->
    exists s' root news, dense name f W b (("nO", o_nO o) :: ("nI", o_nI o) :: extra) attrs o s = (s', Ok root) /\ grows s s' news /\
      computes (g_heap s') root (dense_expr (g_id s) name f W extra attrs (mkOptions (o_nO o) (o_nI o) (Some W) (Some b) (o_dropout o) (o_normalize o))) /\
      dim_state s' root "nI" = Some (o_nI o) /\ dim_state s' root "nO" = Some (match o_dropout o with None => o_nO o | Some _ => None end).
  Proof.
    intros L. unfold dense, andthen. destruct (new_run name f [W; b] (("nO", o_nO o) :: ("nI", o_nI o) :: extra) ["W"; "b"] attrs s L) as (s1 & -> & I1 & G1 & N1 & C1).
    destruct (finish_run s1 _ _ _ o N1 C1 eq_refl eq_refl) as (s2 & root & news & E2 & G2 & C2 & D). exists s2, root. eexists. split; [exact E2|].
    split; [exact (grows_trans _ _ _ _ _ G1 G2)|]. split; [|exact D]. rewrite I1 in C2. unfold dense_expr. cbn [o_normalize o_dropout o_nO o_nI o_W o_b].
    replace (g_id s + 2)%Z with (g_id s + 1 + 1)%Z by lia. replace (g_id s + 4)%Z with (g_id s + 1 + 3)%Z by lia. exact C2.
  Qed.
  Lemma dense_ok build name f W extra attrs : dense_layer build name f W extra attrs -> forall o (s : bst),
    exists s' root news, build o s = (s', Ok root) /\ grows s s' news /\ computes (g_heap s') root (dense_expr (g_id s) name f W extra attrs o) /\
      dim_state s' root "nI" = Some (o_nI o) /\ dim_state s' root "nO" = Some (match o_dropout o with None => o_nO o | Some _ => None end).
  Proof.
    intros D o s.
    assert (R : forall name f W extra attrs, combinator_of f = None -> exists s' root news,
      dense name f (or_else (o_W o) W) (or_else (o_b o) ZeroInit) (("nO", o_nO o) :: ("nI", o_nI o) :: extra) attrs o s = (s', Ok root) /\ grows s s' news /\
      computes (g_heap s') root (dense_expr (g_id s) name f W extra attrs o) /\
      dim_state s' root "nI" = Some (o_nI o) /\ dim_state s' root "nO" = Some (match o_dropout o with None => o_nO o | Some _ => None end)).
    { intros name' f' W' extra' attrs' L. exact (dense_run name' f' (or_else (o_W o) W') (or_else (o_b o) ZeroInit) extra' attrs' o s L). }
    destruct D; now apply R.
  Qed.
  Lemma hard_ok o (s : bst) :
    HardSigmoid o s = ClippedLinear (nZ 1 / nZ 5)%num (nZ 1 / nZ 2)%num (nZ 0) (nZ 1) (without_b o) s /\
    HardTanh o s = ClippedLinear (nZ 1) (nZ 0) (nZ (-1)) (nZ 1) (without_b o) s /\
    forall k, ReluK k o s = ClippedLinear (nZ 1) (nZ 0) (nZ 0) k (without_b o) s.
  Proof. split; [reflexivity|]. split; [reflexivity|]. reflexivity. Qed.

  (** ** Embeddings *)
  Lemma replace_app (h : list bnode) n m r : replace (h ++ n :: r)%list (length h) m = (h ++ m :: r)%list.
  Proof. induction h as [|x h IH]; [reflexivity|]. cbn. now rewrite IH. Qed.
  Lemma hash_ok nO nV seed column init dropout (s : bst) : exists s' root, HashEmbed nO nV seed column init dropout s = (s', Ok root) /\
    let node := hash_node (g_id s) nO nV seed column (match init with Some i => i | None => UniformInit end) dropout in
    match column with
    | None => grows s s' [node] /\ root = length (g_heap s) /\ computes (g_heap s') root (ELeaf node)
    | Some c => exists top, grows s s' [node; column_node (g_id s) c; top] /\ computes (g_heap s') root (EComb Seq [ELeaf (column_node (g_id s) c); ELeaf node]) /\
        root = length (g_heap s) + 2 /\ nth_error (g_heap s') root = Some top /\ b_attrs top = [("column", AInt c)] /\ b_dims top = [("nO", Some nO)]
    end.
  Proof.
    unfold HashEmbed. unfold andthen at 1. unfold new_model at 1. cbn zeta.
    set (n0 := mkB (g_id s + 1) "hashembed" FHashEmbed [or_else init UniformInit] [("nO", Some nO); ("nV", Some nV); ("nI", None)] ["E"] (("column", int_attr column) :: ("seed", int_attr seed) :: rate_attr dropout) []).
    set (n1 := hash_node (g_id s) nO nV seed column (match init with Some i => i | None => UniformInit end) dropout).
    assert (S1 : (match seed with None => andthen (node_at (length (g_heap s))) (fun n => set_attr (length (g_heap s)) "seed" (AInt (b_id n))) | Some _ => ret tt end)
        (mkSt (g_id s + 1)%Z (g_heap s ++ [n0])%list) = (mkSt (g_id s + 1)%Z (g_heap s ++ [n1])%list, Ok tt)).
    { destruct seed as [z|]; [destruct column; reflexivity|]. unfold andthen. rewrite (node_at_run _ _ n0) by (cbn [g_heap]; apply nth_new).
      unfold set_attr, change. cbn [g_heap]. rewrite nth_new, replace_app. cbn [g_id]. destruct column; reflexivity. }
    unfold andthen at 1. rewrite S1. unfold with_column.
    assert (G1 : grows s (mkSt (g_id s + 1)%Z (g_heap s ++ [n1])%list) [n1]) by (apply grows_one; reflexivity).
    assert (C1 : computes (g_heap s ++ [n1])%list (length (g_heap s)) (ELeaf n1)) by (apply computes_leaf; [apply nth_new|reflexivity]).
    destruct column as [c|].
    - unfold andthen at 1 2. unfold ints_column, new_model at 1. cbn [g_heap g_id].
      set (n2 := mkB (g_id s + 1 + 1) "ints-getitem" FGetitem [] [] [] [("index", AColumn c)] []).
      set (s2 := mkSt (g_id s + 1 + 1)%Z ((g_heap s ++ [n1]) ++ [n2])%list).
      assert (N2 : n2 = column_node (g_id s) c) by (unfold n2, column_node; f_equal; lia).
      assert (H1 : nth_error (g_heap s2) (length (g_heap s)) = Some n1) by (cbn [s2 g_heap]; rewrite nth_error_app1; [apply nth_new|rewrite app_length; cbn; lia]).
      assert (H2 : nth_error (g_heap s2) (length (g_heap s ++ [n1])) = Some n2) by (cbn [s2 g_heap]; apply nth_new).
      unfold chain, nodes_at, andthen, ret. cbn [last]. rewrite (node_at_run _ _ _ H2), (node_at_run _ _ _ H1). rewrite (node_at_run _ _ _ H2), (node_at_run _ _ _ H1).
      unfold new_model. set (top0 := mkB _ _ FChain _ _ _ _ _). unfold set_attr, change. cbn [g_heap]. rewrite nth_new, replace_app.
      eexists. eexists. split; [reflexivity|]. set (top := mkB _ _ (b_func top0) _ _ _ _ _). exists top. cbn [g_heap]. split; [|split; [|split; [|split; [|split]]]].
      + rewrite <- N2. split; [cbn [g_heap s2]; now rewrite <- !app_assoc|]. split; [cbn; lia|]. intros [|[|[|k]]] m E; [injection E as <-; cbn; lia..|]. destruct k; discriminate E.
      + apply computes_comb with (n := top); [apply nth_new|reflexivity|]. cbn [b_layers top top0]. constructor; [|constructor; [|constructor]].
        * rewrite <- N2. apply computes_mono. apply computes_leaf; [exact H2|reflexivity].
        * apply computes_mono. apply computes_leaf; [exact H1|reflexivity].
      + cbn [s2 g_heap]. rewrite !app_length. cbn. lia.
      + apply nth_new.
      + reflexivity.
      + reflexivity.
    - unfold andthen, ret, set_attr, change. cbn [g_heap]. rewrite nth_new, replace_app. eexists. eexists. split; [reflexivity|]. cbn [g_heap g_id].
      replace (mkB (b_id n1) (b_name n1) (b_func n1) (b_inits n1) (b_dims n1) (b_params n1) (dset "column" (int_attr None) (b_attrs n1)) (b_layers n1)) with n1 by reflexivity. auto.
  Qed.

  Lemma computes_unique (h : list bnode) e : forall a e', computes h a e -> computes h a e' -> e = e'.
  Proof.
    induction e as [n|k es IH] using fexpr_rec'; intros a e' C C'; inversion C as [? ? E L|? m ? ? E K F]; subst; inversion C' as [? ? E' L'|? m' ? ? E' K' F']; subst;
      rewrite E in E'; injection E' as <-; try congruence.
    rewrite K in K'. injection K' as <-. f_equal. clear C C' E K. revert es0 F' IH. induction F as [|l e ls es HE F IHF]; intros es' F' IH; inversion F'; subst; [reflexivity|].
    inversion IH; subst. f_equal; eauto.
  Qed.
  Lemma hash_leaf nO nV column init dropout (s s' : bst) root e n : HashEmbed nO nV None column init dropout s = (s', Ok root) ->
    computes (g_heap s') root e -> leaf_of e n -> b_func n = FHashEmbed -> dget "seed" (b_attrs n) = Some (AInt (g_id s + 1)) /\ (g_id s < g_id s')%Z.
  Proof.
    intros E C L Fn. destruct (hash_ok nO nV None column init dropout s) as (s1 & root1 & E1 & R). rewrite E in E1. injection E1 as <- <-. cbn zeta in R.
    destruct column as [c|].
    - destruct R as (top & (_ & I1 & _) & C1 & _). rewrite (computes_unique _ _ _ _ C C1) in L. split; [|rewrite I1; cbn; lia].
      inversion L as [|? ? e' ? I L']; subst. destruct I as [<-|[<-|[]]]; inversion L'; subst; [discriminate Fn|reflexivity].
    - destruct R as ((_ & I1 & _) & _ & C1). rewrite (computes_unique _ _ _ _ C C1) in L. split; [|rewrite I1; cbn; lia]. inversion L; subst. reflexivity.
  Qed.
  Lemma seeds_differ nO nV column init dropout nO' nV' column' init' dropout' (s1 s1' s2 s2' : bst) r1 r2 e1 e2 n1 n2 :
    HashEmbed nO nV None column init dropout s1 = (s1', Ok r1) -> (g_id s1' <= g_id s2)%Z -> HashEmbed nO' nV' None column' init' dropout' s2 = (s2', Ok r2) ->
    computes (g_heap s1') r1 e1 -> computes (g_heap s2') r2 e2 -> leaf_of e1 n1 -> leaf_of e2 n2 -> b_func n1 = FHashEmbed -> b_func n2 = FHashEmbed ->
    dget "seed" (b_attrs n1) <> dget "seed" (b_attrs n2).
  Proof.
    intros E1 L E2 C1 C2 L1 L2 F1 F2. destruct (hash_leaf _ _ _ _ _ _ _ _ _ _ E1 C1 L1 F1) as [-> G1], (hash_leaf _ _ _ _ _ _ _ _ _ _ E2 C2 L2 F2) as [-> G2].
    intros Q. injection Q as Q. lia.
  Qed.
  Lemma embed_ok nO nV column init dropout (s : bst) : exists s' root, Embed nO nV column init dropout s = (s', Ok root) /\
    let node top := mkB (g_id s + 1) "embed" FEmbed [match init with Some i => i | None => UniformInit end] [("nO", nO); ("nV", nV)] ["E"]
      (match dropout with Some r => [("dropout_rate", AFloat r)] | None => [] end ++ if top : bool then [("column", ANone)] else [])%list [] in
    match column with
    | None => grows s s' [node true] /\ root = length (g_heap s) /\ computes (g_heap s') root (ELeaf (node true))
    | Some c => exists top, grows s s' [node false; column_node (g_id s) c; top] /\ computes (g_heap s') root (EComb Seq [ELeaf (column_node (g_id s) c); ELeaf (node false)]) /\
        root = length (g_heap s) + 2 /\ nth_error (g_heap s') root = Some top /\ b_attrs top = [("column", AInt c)] /\ b_dims top = [("nO", nO)]
    end.
  Proof.
    unfold Embed. unfold andthen at 1. unfold new_model at 1. cbn zeta.
    set (n1 := mkB (g_id s + 1) "embed" FEmbed [or_else init UniformInit] [("nO", nO); ("nV", nV)] ["E"] (rate_attr dropout) []). unfold with_column.
    assert (G1 : grows s (mkSt (g_id s + 1)%Z (g_heap s ++ [n1])%list) [n1]) by (apply grows_one; reflexivity).
    destruct column as [c|].
    - unfold andthen at 1 2. unfold ints_column, new_model at 1. cbn [g_heap g_id].
      set (n2 := mkB (g_id s + 1 + 1) "ints-getitem" FGetitem [] [] [] [("index", AColumn c)] []).
      set (s2 := mkSt (g_id s + 1 + 1)%Z ((g_heap s ++ [n1]) ++ [n2])%list).
      assert (N2 : n2 = column_node (g_id s) c) by (unfold n2, column_node; f_equal; lia).
      assert (H1 : nth_error (g_heap s2) (length (g_heap s)) = Some n1) by (cbn [s2 g_heap]; rewrite nth_error_app1; [apply nth_new|rewrite app_length; cbn; lia]).
      assert (H2 : nth_error (g_heap s2) (length (g_heap s ++ [n1])) = Some n2) by (cbn [s2 g_heap]; apply nth_new).
      unfold chain, nodes_at, andthen, ret. cbn [last]. rewrite (node_at_run _ _ _ H2), (node_at_run _ _ _ H1). rewrite (node_at_run _ _ _ H2), (node_at_run _ _ _ H1).
      unfold new_model. set (top0 := mkB _ _ FChain _ _ _ _ _). unfold set_attr, change. cbn [g_heap]. rewrite nth_new, replace_app.
      eexists. eexists. split; [reflexivity|]. set (top := mkB _ _ (b_func top0) _ _ _ _ _). exists top. cbn [g_heap]. rewrite app_nil_r. fold n1. change (match dropout with Some r => [("dropout_rate", AFloat r)] | None => [] end) with (rate_attr dropout).
      change (match init with Some i => i | None => UniformInit end) with (or_else init UniformInit). fold n1. split; [|split; [|split; [|split; [|split]]]].
      + rewrite <- N2. split; [cbn [g_heap s2]; now rewrite <- !app_assoc|]. split; [cbn; lia|]. intros [|[|[|k]]] m E; [injection E as <-; cbn; lia..|]. destruct k; discriminate E.
      + apply computes_comb with (n := top); [apply nth_new|reflexivity|]. cbn [b_layers top top0]. constructor; [|constructor; [|constructor]].
        * rewrite <- N2. apply computes_mono. apply computes_leaf; [exact H2|reflexivity].
        * apply computes_mono. apply computes_leaf; [exact H1|reflexivity].
      + cbn [s2 g_heap]. rewrite !app_length. cbn. lia.
      + apply nth_new.
      + reflexivity.
      + cbn. unfold dim_of. cbn. destruct nO; reflexivity.
    - unfold andthen, ret, set_attr, change. cbn [g_heap]. rewrite nth_new, replace_app. eexists. eexists. split; [reflexivity|]. cbn [g_heap g_id].
      change (match dropout with Some r => [("dropout_rate", AFloat r)] | None => [] end) with (rate_attr dropout). change (match init with Some i => i | None => UniformInit end) with (or_else init UniformInit).
      set (n3 := mkB (b_id n1) _ _ _ _ _ _ _).
      replace (mkB (g_id s + 1) "embed" FEmbed [or_else init UniformInit] [("nO", nO); ("nV", nV)] ["E"] (rate_attr dropout ++ [("column", ANone)])%list []) with n3 by (unfold n3, n1; destruct dropout; reflexivity).
      split; [apply grows_one; reflexivity|]. split; [reflexivity|]. apply computes_leaf; [apply nth_new|reflexivity].
  Qed.

  (** ** Combinators *)
  Lemma joint_ok (ns : list bnode) : dget "nO" (joint_dims ns) = Some None /\ (Forall (fun m => dget "nI" (b_dims m) <> None) ns -> dget "nI" (joint_dims ns) = Some None) /\
    (Exists (fun m => dget "nI" (b_dims m) = None) ns -> dget "nI" (joint_dims ns) = None).
  Proof.
    unfold joint_dims. destruct (forallb (fun n => knows_dim n "nI") ns) eqn:E.
    - split; [reflexivity|]. split; [reflexivity|]. intros X. apply Exists_exists in X. destruct X as (m & I & N). apply forallb_forall with (x := m) in E; [|exact I]. unfold knows_dim in E. now rewrite N in E.
    - split; [reflexivity|]. split; [|reflexivity]. intros A. rewrite <- not_true_iff_false in E. destruct E. apply forallb_forall. intros m I. apply (proj1 (Forall_forall _ _) A) in I. unfold knows_dim. now destruct (dget "nI" (b_dims m)).
  Qed.
  Lemma add_new (s : bst) l1 l2 ls es n1 : Forall2 (computes (g_heap s)) (l1 :: l2 :: ls) es -> nth_error (g_heap s) l1 = Some n1 -> b_name n1 <> "add" ->
    exists s' root n ns, add (l1 :: l2 :: ls) s = (s', Ok root) /\ grows s s' [n] /\ computes (g_heap s') root (EComb Sum es) /\ nth_error (g_heap s') root = Some n /\
      Forall2 (fun l m => nth_error (g_heap s) l = Some m) (l1 :: l2 :: ls) ns /\ b_name n = "add" /\ dget "nO" (b_dims n) = Some None /\
      (Forall (fun m => dget "nI" (b_dims m) <> None) ns -> dget "nI" (b_dims n) = Some None) /\ (Exists (fun m => dget "nI" (b_dims m) = None) ns -> dget "nI" (b_dims n) = None).
  Proof.
    intros F N1 Nn. destruct (nodes_at_run s _ (computes_lives _ _ _ F)) as (ns & E & A). unfold add, andthen at 1. rewrite (node_at_run _ _ _ N1), (proj2 (String.eqb_neq _ _) Nn).
    unfold andthen. rewrite E. unfold new_model. eexists. exists (length (g_heap s)). eexists. exists ns. split; [reflexivity|]. split; [apply grows_one; reflexivity|]. split; [now apply new_computes|].
    split; [cbn [g_heap]; apply nth_new|]. split; [exact A|]. split; [reflexivity|]. cbn [b_dims]. apply joint_ok.
  Qed.
  Lemma concat_new (s : bst) l1 l2 ls es n1 : Forall2 (computes (g_heap s)) (l1 :: l2 :: ls) es -> nth_error (g_heap s) l1 = Some n1 -> b_func n1 <> FConcat ->
    exists s' root n ns, concatenate (l1 :: l2 :: ls) s = (s', Ok root) /\ grows s s' [n] /\ computes (g_heap s') root (EComb Cat es) /\ nth_error (g_heap s') root = Some n /\
      Forall2 (fun l m => nth_error (g_heap s) l = Some m) (l1 :: l2 :: ls) ns /\ b_name n = String.concat "|" (map b_name ns) /\ dget "nO" (b_dims n) = Some None /\
      (Forall (fun m => dget "nI" (b_dims m) <> None) ns -> dget "nI" (b_dims n) = Some None) /\ (Exists (fun m => dget "nI" (b_dims m) = None) ns -> dget "nI" (b_dims n) = None).
  Proof.
    intros F N1 Nn. destruct (nodes_at_run s _ (computes_lives _ _ _ F)) as (ns & E & A). unfold concatenate, andthen at 1. rewrite (node_at_run _ _ _ N1).
    set (G := andthen (nodes_at (l1 :: l2 :: ls)) (fun ns => new_model (String.concat "|" (map b_name ns)) FConcat [] (joint_dims ns) [] [] (l1 :: l2 :: ls)) s).
    replace (match b_func n1 with FConcat => _ | _ => _ end s) with G by (destruct (b_func n1); try reflexivity; contradiction).
    subst G. unfold andthen. rewrite E. unfold new_model. eexists. exists (length (g_heap s)). eexists. exists ns. split; [reflexivity|]. split; [apply grows_one; reflexivity|]. split; [now apply new_computes|].
    split; [cbn [g_heap]; apply nth_new|]. split; [exact A|]. split; [reflexivity|]. cbn [b_dims]. apply joint_ok.
  Qed.
  Lemma tuplify_new (s : bst) l1 l2 ls es : Forall2 (computes (g_heap s)) (l1 :: l2 :: ls) es ->
    exists s' root n ns, tuplify (l1 :: l2 :: ls) s = (s', Ok root) /\ grows s s' [n] /\ computes (g_heap s') root (EComb Tup es) /\ nth_error (g_heap s') root = Some n /\
      Forall2 (fun l m => nth_error (g_heap s) l = Some m) (l1 :: l2 :: ls) ns /\ b_name n = "tuple(" ++ String.concat ", " (map b_name ns) ++ ")" /\ b_dims n = [("nI", None)].
  Proof.
    intros F. destruct (nodes_at_run s _ (computes_lives _ _ _ F)) as (ns & E & A). unfold tuplify, andthen. rewrite E. unfold new_model.
    eexists. exists (length (g_heap s)). eexists. exists ns. split; [reflexivity|]. split; [apply grows_one; reflexivity|]. split; [now apply new_computes|].
    split; [cbn [g_heap]; apply nth_new|]. split; [exact A|]. split; reflexivity.
  Qed.
  Lemma residual_new (s : bst) l e m : computes (g_heap s) l e -> nth_error (g_heap s) l = Some m ->
    exists s' root n, residual l s = (s', Ok root) /\ grows s s' [n] /\ computes (g_heap s') root (EComb Res [e]) /\ nth_error (g_heap s') root = Some n /\
      b_name n = "residual(" ++ b_name m ++ ")" /\ forall d v, d = "nI" \/ d = "nO" -> (dget d (b_dims n) = Some (Some v) <-> dget d (b_dims m) = Some (Some v)).
  Proof.
    intros C N. unfold residual, andthen. rewrite (node_at_run _ _ _ N). unfold new_model. eexists. exists (length (g_heap s)). eexists. split; [reflexivity|]. split; [apply grows_one; reflexivity|].
    split; [apply new_computes; [reflexivity|]; cbn [b_layers]; auto|]. split; [cbn [g_heap]; apply nth_new|]. split; [reflexivity|]. cbn [b_dims].
    intros d v [->| ->]; cbn -[string_dec]; unfold dim_of.
    - change (string_dec "nI" "nO") with (eqd "nI" "nO"). cbn. destruct (dget "nI" (b_dims m)) as [[w|]|]; split; intros Q; try discriminate Q; congruence.
    - cbn. destruct (dget "nO" (b_dims m)) as [[w|]|]; split; intros Q; try discriminate Q; congruence.
  Qed.
  Lemma few_layers (s : bst) l : chain [] s = (s, Err TypeError) /\ chain [l] s = (s, Err TypeError) /\ add [] s = (s, Err TypeError) /\ add [l] s = (s, Err TypeError) /\
    tuplify [] s = (s, Err TypeError) /\ tuplify [l] s = (s, Err TypeError) /\ concatenate [l] s = (s, Ok l) /\
    exists s' n, concatenate [] s = (s', Ok (length (g_heap s))) /\ grows s s' [n] /\ computes (g_heap s') (length (g_heap s)) (ELeaf n) /\ b_func n = FNoop.
  Proof.
    do 7 (split; [reflexivity|]). unfold concatenate, noop, new_model. eexists. eexists. split; [reflexivity|]. split; [apply grows_one; reflexivity|].
    split; [|reflexivity]. apply computes_leaf; [apply nth_new|reflexivity].
  Qed.

  (** Extending a model in place. *)
  Definition longer (n : bnode) (ls : list nat) : bnode := mkB (b_id n) (b_name n) (b_func n) (b_inits n) (b_dims n) (b_params n) (b_attrs n) (b_layers n ++ ls)%list.
  Lemma extend_run (s : bst) a ls n : nth_error (g_heap s) a = Some n -> extend a ls s = (mkSt (g_id s) (replace (g_heap s) a (longer n ls)), Ok tt).
  Proof. intros N. unfold extend, change. now rewrite N. Qed.
  Lemma add_run (s : bst) a l ls n : nth_error (g_heap s) a = Some n -> b_name n = "add" -> add (a :: l :: ls) s = (mkSt (g_id s) (replace (g_heap s) a (longer n (l :: ls))), Ok a).
  Proof. intros N Nn. unfold add, andthen. rewrite (node_at_run _ _ _ N), Nn, String.eqb_refl, (extend_run _ _ _ _ N). reflexivity. Qed.
  Lemma concat_run (s : bst) a l ls n : nth_error (g_heap s) a = Some n -> b_func n = FConcat -> concatenate (a :: l :: ls) s = (mkSt (g_id s) (replace (g_heap s) a (longer n (l :: ls))), Ok a).
  Proof. intros N Nn. unfold concatenate, andthen. rewrite (node_at_run _ _ _ N), Nn, (extend_run _ _ _ _ N). reflexivity. Qed.
  Lemma extended_computes (h : list bnode) a n k es ls es' : nth_error h a = Some n -> combinator_of (b_func n) = Some k -> Forall2 (computes h) (b_layers n) es -> Forall2 (computes h) ls es' ->
    (forall b, In b (b_layers n ++ ls) -> ~ reaches h b a) -> computes (replace h a (longer n ls)) a (EComb k (es ++ es')).
  Proof.
    intros N K F F' R. apply computes_comb with (n := longer n ls); [|exact K|].
    - apply replace_eq. apply nth_error_Some. congruence.
    - cbn [longer b_layers]. apply Forall2_app; apply computes_replace_all; auto using in_or_app with datatypes.
  Qed.
  Lemma extended_changes (h : list bnode) a n k es l ls : nth_error h a = Some n -> computes h a (EComb k es) -> ~ computes (replace h a (longer n (l :: ls))) a (EComb k es).
  Proof.
    intros N C C'. assert (L : a < length h) by (apply nth_error_Some; congruence).
    inversion C as [|? m ? ? E K F]; subst. inversion C' as [|? m' ? ? E' K' F']; subst. rewrite N in E. injection E as <-. rewrite (replace_eq _ _ _ L) in E'. injection E' as <-.
    assert (LL : forall (R1 R2 : nat -> fexpr -> Prop) u v z, Forall2 R1 u z -> Forall2 R2 v z -> length u = length v).
    { intros R1 R2 u v z G. revert v. induction G as [|u1 z1 us zs HG G IG]; intros v G'; inversion G'; subst; cbn; [reflexivity|]. f_equal. now apply IG. }
    specialize (LL _ _ _ _ _ F F'). cbn [longer b_layers] in LL. rewrite app_length in LL. cbn in LL. lia.
  Qed.
  Lemma cyclic_computes (h : list bnode) a n : nth_error h a = Some n -> In a (b_layers n) -> combinator_of (b_func n) <> None -> forall e, ~ computes h a e.
  Proof.
    intros N I K e. induction e as [m|k es IH] using fexpr_rec'; intros C; inversion C as [? ? E L|? m' ? ? E K' F]; subst; rewrite N in E; injection E as <-; [contradiction|].
    clear C K'. revert I IH. induction F as [|l e ls es HE F IHF]; intros I IH; [destruct I|]. inversion IH; subst. destruct I as [->|I]; [contradiction|]. now apply IHF.
  Qed.
  Lemma add_extends (s : bst) a n l ls es es' : nth_error (g_heap s) a = Some n -> b_name n = "add" -> computes (g_heap s) a (EComb Sum es) -> Forall2 (computes (g_heap s)) (l :: ls) es' ->
    (forall b, In b (l :: ls) -> ~ reaches (g_heap s) b a) -> (forall b, In b (b_layers n) -> ~ reaches (g_heap s) b a) ->
    exists s', add (a :: l :: ls) s = (s', Ok a) /\ computes (g_heap s') a (EComb Sum (es ++ es')) /\ ~ computes (g_heap s') a (EComb Sum es) /\ g_id s' = g_id s.
  Proof.
    intros N Nn C F R R'. eexists. split; [apply (add_run s a l ls n N Nn)|]. cbn [g_heap]. split; [|split; [now apply extended_changes|reflexivity]].
    inversion C as [|? m ? ? E K G]; subst. rewrite N in E. injection E as <-. apply extended_computes; auto. intros b Hb. apply in_app_or in Hb. destruct Hb; auto.
  Qed.
  Lemma concat_extends (s : bst) a n l ls es es' : nth_error (g_heap s) a = Some n -> computes (g_heap s) a (EComb Cat es) -> Forall2 (computes (g_heap s)) (l :: ls) es' ->
    (forall b, In b (l :: ls) -> ~ reaches (g_heap s) b a) -> (forall b, In b (b_layers n) -> ~ reaches (g_heap s) b a) ->
    exists s', concatenate (a :: l :: ls) s = (s', Ok a) /\ computes (g_heap s') a (EComb Cat (es ++ es')) /\ ~ computes (g_heap s') a (EComb Cat es) /\ g_id s' = g_id s.
  Proof.
    intros N C F R R'. inversion C as [|? m ? ? E K G]; subst. rewrite N in E. injection E as <-.
    eexists. split; [apply (concat_run s a l ls n N); destruct (b_func n); (discriminate K || reflexivity)|]. cbn [g_heap]. split; [|split; [now apply extended_changes|reflexivity]].
    apply extended_computes; auto. intros b Hb. apply in_app_or in Hb. destruct Hb; auto.
  Qed.
  Lemma add_self (s : bst) a n ls : nth_error (g_heap s) a = Some n -> b_name n = "add" -> b_func n = FAdd ->
    exists s', add (a :: a :: ls) s = (s', Ok a) /\ forall e, ~ computes (g_heap s') a e.
  Proof.
    intros N Nn Nf. eexists. split; [apply (add_run s a a ls n N Nn)|]. cbn [g_heap]. assert (L : a < length (g_heap s)) by (apply nth_error_Some; congruence).
    apply cyclic_computes with (n := longer n (a :: ls)); [now apply replace_eq|cbn [longer b_layers]; apply in_or_app; right; now left|cbn; rewrite Nf; discriminate].
  Qed.
  Lemma concat_self (s : bst) a n ls : nth_error (g_heap s) a = Some n -> b_func n = FConcat ->
    exists s', concatenate (a :: a :: ls) s = (s', Ok a) /\ forall e, ~ computes (g_heap s') a e.
  Proof.
    intros N Nf. eexists. split; [apply (concat_run s a a ls n N Nf)|]. cbn [g_heap]. assert (L : a < length (g_heap s)) by (apply nth_error_Some; congruence).
    apply cyclic_computes with (n := longer n (a :: ls)); [now apply replace_eq|cbn [longer b_layers]; apply in_or_app; right; now left|cbn; rewrite Nf; discriminate].
  Qed.
  Lemma add_by_name (s : bst) a n l ls : nth_error (g_heap s) a = Some n -> b_name n = "add" -> combinator_of (b_func n) = None ->
    exists s' n', add (a :: l :: ls) s = (s', Ok a) /\ computes (g_heap s') a (ELeaf n') /\ b_func n' = b_func n.
  Proof.
    intros N Nn K. exists (mkSt (g_id s) (replace (g_heap s) a (longer n (l :: ls)))), (longer n (l :: ls)). split; [exact (add_run s a l ls n N Nn)|]. split; [|reflexivity].
    apply computes_leaf; [|exact K]. cbn [g_heap]. apply replace_eq. apply nth_error_Some. congruence.
  Qed.
  Lemma softmax_versions nO nI W b (s : bst) : nltb (nZ 1) (nZ 0) = false -> neqb (nZ 1) (nZ 0) = false -> Softmax nO nI W b s = Softmax_v2 nO nI W b true (nZ 1) s.
  Proof. intros E1 E2. unfold Softmax_v2. rewrite E1, E2. reflexivity. Qed.
End Build.
