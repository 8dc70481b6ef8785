(** Initialization of a chain of linear layers. *)
From Coq Require Import Reals String Lia Lra.
From Verif Require Import Base BaseFacts DictModel DictFacts NodeModel CombModel CombSpec DenseModel SoftModel ActSpec NumR MatProofs MkProofs.
From Verif Require Import InitModel InitSpec InitProofs InitFrameProofs InitReadyProofs.
Set Default Goal Selector "!".
Local Open Scope string_scope.

Section Chain.
  Variable draw : nat -> list Z -> result (arr R).
  Variable to_int : R -> Z.
  Variable numpy : bool.
  Hypothesis HD : shape_ok draw.
  Hypothesis HT : always_draws draw.
  Notation ist := (ist (T := R)).
  Notation inode := (inode (T := R)).
  Definition done_linear (id v w : Z) (W b : arr R) : inode :=
    mkNode id "linear" 0 [] [] [("nO", Some v); ("nI", Some w)] [("W", true); ("b", true)] [("W", W); ("b", b)] [] [] [].
  Lemma set_twice {A} i (x y : A) l : set_nth i x (set_nth i y l) = set_nth i x l.
  Proof. revert i. induction l as [|z l IH]; intros [|i]; cbn; auto. now rewrite IH. Qed.
  Lemma linear_inits id o a (m : mat R) Y v h k : nth_error h a = Some (new_linear id o None) -> (0 < m_cols m)%nat -> (0 < v)%Z ->
    match o with Some z => z = v /\ Y = None | None => exists y, Y = Some (Arr2 y) /\ Z.of_nat (m_cols y) = v end ->
    exists W b, leaf_init draw to_int a (Some (Arr2 m)) Y (mkIst h k) = (mkIst (set_nth a (done_linear id v (Z.of_nat (m_cols m)) W b) h) (S (S k)), Ok tt).
  Proof.
    intros En Hw Hv HY. assert (Ha : a < length h) by (apply nth_error_Some; congruence).
    set (w := Z.of_nat (m_cols m)). assert (Hw' : (0 < w)%Z) by (unfold w; lia).
    destruct (HT k [v; w]) as [W EW]; [repeat constructor; lia|]. destruct (HT (S k) [v]) as [b Eb]; [repeat constructor; lia|]. exists W, b.
    unfold leaf_init, seqa at 1, self. cbn [i_heap]. rewrite En. cbn [n_func new_linear fresh_node].
    unfold dense_init. unfold seqa at 1. unfold with_width at 1. cbn [get_width]. unfold seqa at 1, lift. fold w. rewrite set_dim_run. cbn [i_heap]. rewrite En. cbn -[set_nth w].
    unfold seqa at 1.
    assert (E2 : with_width to_int Y (node_set_dim a "nO") (mkIst (set_nth a (with_dims (new_linear id o None) [("nO", o); ("nI", Some w)]) h) k)
               = (mkIst (set_nth a (with_dims (new_linear id o None) [("nO", Some v); ("nI", Some w)]) h) k, Ok tt)).
    { destruct o as [z|].
      - destruct HY as [-> ->]. reflexivity.
      - destruct HY as (y & -> & Ey). cbn [with_width get_width]. unfold seqa, lift. rewrite Ey, set_dim_run. cbn [i_heap]. rewrite nth_error_set_nth_eq by exact Ha. cbn -[set_nth]. now rewrite set_twice. }
    cbn in E2. rewrite E2. clear E2.
    unfold seqa, node_get_dim, seqa, self. cbn [i_heap]. rewrite nth_error_set_nth_eq by exact Ha. cbn -[set_nth w].
    rewrite nth_error_set_nth_eq by exact Ha. cbn -[set_nth w]. unfold initializer. cbn [i_draws i_heap]. rewrite EW.
    cbn -[set_nth w]. rewrite nth_error_set_nth_eq by exact Ha. cbn -[set_nth w].
    rewrite set_twice, nth_error_set_nth_eq by exact Ha. cbn -[set_nth w]. rewrite Eb.
    cbn -[set_nth w]. rewrite nth_error_set_nth_eq by exact Ha. cbn -[set_nth w]. unfold store. cbn [i_heap i_draws]. rewrite set_twice. reflexivity.
  Qed.
  Notation init := (initialize draw to_int numpy).
  Notation as_sub := (fun q => mkSub (addr_of q) (init q) (predict numpy q)).
  Notation leaves L := (map (fun q : addr * option Z => as_sub (NLeaf (fst q))) L).
  Definition outw (v : Z) (o : option Z) : Z := match o with Some z => z | None => v end.
  Lemma wired_later v L : forall (s s' : ist) w, later s s' -> wired s v w L -> wired s' v w L.
  Proof.
    induction L as [|[a o] L IH]; intros s s' w Ls; cbn; [auto|]. intros (D1 & D2 & HW). repeat split; try (eapply later_dim; eauto; fail). eapply IH; eauto.
  Qed.
  Lemma has_new (s : ist) a id o : nth_error (i_heap s) a = Some (new_linear id o None) -> node_has_dim a "nO" s = (s, Ok (match o with Some _ => Some true | None => None end)).
  Proof. intros E. unfold node_has_dim, seqa, self. rewrite E. cbn. now destruct o. Qed.
  Lemma walk_inits v (y : mat R) : Z.of_nat (m_cols y) = v -> (0 < v)%Z -> forall L N w x s, NoDup (map fst L) -> Forall (unset_linear (i_heap s)) L -> (0 < w)%nat -> all_sized s -> all_positive s ->
    exists s' w' z, chain_walk (leaves L) (Some (Arr2 (mkR N w x))) (Some (Arr2 y)) s = (s', Ok (Some (Arr2 (mkR N w' z)))) /\
      Z.of_nat w' = last_width v (Z.of_nat w) L /\ wired s' v (Z.of_nat w) L /\ all_positive s' /\ (forall b, ~ In b (map fst L) -> nth_error (i_heap s') b = nth_error (i_heap s) b).
  Proof.
    intros Ey Hv. induction L as [|[a o] L IH]; intros N w x s ND HU Hw Ss Hp.
    - exists s, w, x. repeat split; auto.
    - cbn [map fst] in ND. apply NoDup_cons_iff in ND as [Na ND]. apply Forall_cons_iff in HU as [[[id En] Ho] HU]. cbn [fst snd] in *.
      assert (Ha : a < length (i_heap s)) by (apply nth_error_Some; congruence).
      assert (Hv' : (0 < outw v o)%Z) by (destruct o; cbn; assumption).
      assert (HY : match o with Some z => z = outw v o /\ (match o with Some _ => None | None => Some (Arr2 y) end = None)
                   | None => exists y', match o with Some _ => None | None => Some (Arr2 y) end = Some (Arr2 y') /\ Z.of_nat (m_cols y') = outw v o end)
        by (destruct o; cbn; eauto).
      destruct s as [h k]. cbn [i_heap] in *.
      destruct (linear_inits id o a (mkR N w x) (match o with Some _ => None | None => Some (Arr2 y) end) (outw v o) h k En) as (W & b & E1).
      { cbn. exact Hw. } { exact Hv'. } { destruct o; exact HY. }
      set (s1 := mkIst (set_nth a (done_linear id (outw v o) (Z.of_nat w) W b) h) (S (S k))) in *. change (m_cols (mkR N w x)) with w in E1. fold s1 in E1.
      assert (K1 : nth_error (i_heap s1) a = Some (done_linear id (outw v o) (Z.of_nat w) W b)) by (unfold s1; cbn [i_heap]; now apply nth_error_set_nth_eq).
      assert (KN : forall c, c <> a -> nth_error (i_heap s1) c = nth_error h c) by (intros c Hc; unfold s1; cbn [i_heap]; apply nth_error_set_nth_neq; congruence).
      destruct (safe_go _ _ _ _ (init_safe draw to_int numpy HD (NLeaf a) _ _) Ss E1) as [S1 L1].
      assert (P1 : all_positive s1).
      { intros c d z. unfold dim_at. destruct (Nat.eq_dec c a) as [->|Hc].
        - rewrite K1. unfold dim_of. cbn [n_dims done_linear]. unfold dget. cbn [find]. destruct (eqd d "nO"); [intros [= <-]; exact Hv'|]. destruct (eqd d "nI"); [intros [= <-]; lia|discriminate].
        - rewrite (KN c Hc). exact (Hp c d z). }
      assert (DI : dim_at s1 a "nI" = Some (Z.of_nat w)) by (unfold dim_at; rewrite K1; reflexivity).
      assert (DO : dim_at s1 a "nO" = Some (outw v o)) by (unfold dim_at; rewrite K1; reflexivity).
      set (u := Z.to_nat (outw v o)). assert (Hu : Z.of_nat u = outw v o) by (unfold u; lia).
      assert (F : fits s1 (NLeaf a) w u).
      { constructor. exists 0. split; [eexists; split; [exact K1|reflexivity]|]. split.
        - cbn. split; [split; eexists; eassumption|]. split; eexists; (split; [exact K1|cbn; auto]).
        - split; [exact DI|]. now rewrite Hu. }
      destruct (fits_run numpy false [] s1 (NLeaf a) w u S1 P1 F N x) as (z1 & bk & ER).
      destruct (IH N u z1 s1 ND) as (s' & w' & z & E2 & Ew & HW & P' & K').
      { apply Forall_forall. intros q Hq. destruct (proj1 (Forall_forall _ _) HU q Hq) as [[id' Eq] Hpos]. split; [exists id'|exact Hpos].
        rewrite KN; [exact Eq|]. intros Eqa. apply Na. rewrite <- Eqa. now apply in_map. }
      { lia. } { exact S1. } { exact P1. }
      exists s', w', z. split.
      + cbn [map chain_walk s_addr s_init s_predict fst addr_of]. unfold seqa at 1. rewrite (has_new (mkIst h k) a id o En).
        unfold seqa at 1. cbn [initialize].
        assert (EB : (match (match o with Some _ => Some true | None => None end) with None => leaf_init draw to_int a (Some (Arr2 (mkR N w x))) (Some (Arr2 y)) | Some _ => leaf_init draw to_int a (Some (Arr2 (mkR N w x))) None end) (mkIst h k) = (s1, Ok tt)) by (destruct o; exact E1).
        rewrite EB. unfold seqa at 1. unfold seqa at 1. unfold predict at 1. rewrite ER. cbn [bind fst pure]. exact E2.
      + assert (L2 : later s1 s') by (eapply (walk_later draw to_int numpy (map (fun q => NLeaf (fst q)) L)); rewrite map_map; exact E2).
        split; [cbn [last_width]; rewrite Ew, Hu; reflexivity|]. split.
        * cbn [wired]. split; [eapply later_dim; eauto|]. split; [eapply later_dim; eauto|]. rewrite Hu in HW. exact HW.
        * split; [exact P'|]. intros c Hc. rewrite K' by (intros Hin; apply Hc; now right). apply KN. intros ->. apply Hc. now left.
  Qed.
  Lemma chain_inits a id name k ls o v w L (m y : mat R) s : L <> [] -> NoDup (a :: map fst L) ->
    nth_error (i_heap s) a = Some (fresh_node id name k ls [("nO", o); ("nI", None)] []) -> Forall (unset_linear (i_heap s)) L ->
    wf_mat m -> Z.of_nat (m_cols m) = w -> Z.of_nat (m_cols y) = v -> (0 < w)%Z -> (0 < v)%Z -> all_sized s -> all_positive s ->
    exists s', init (NChain a (map (fun q => NLeaf (fst q)) L)) (Some (Arr2 m)) (Some (Arr2 y)) s = (s', Ok tt) /\ wired s' v w L /\
      dim_at s' a "nI" = Some w /\ dim_at s' a "nO" = Some (match o with Some z => z | None => last_width v w L end).
  Proof.
    intros HL ND En HU Wm <- Ey Hw Hv Ss Hp. apply NoDup_cons_iff in ND as [Na ND]. rewrite (mat_mk m Wm).
    destruct (walk_inits v y Ey Hv L (length (m_rows m)) (m_cols m) (ent m) s ND HU) as (s1 & w' & z & E1 & Ew & HW & P1 & K1); [lia|assumption..|].
    rewrite <- (mat_mk m Wm) in *. change (m_cols (mk (length (m_rows m)) (m_cols m) (ent m))) with (m_cols m).
    assert (Ea : nth_error (i_heap s1) a = Some (fresh_node id name k ls [("nO", o); ("nI", None)] [])) by (rewrite K1; assumption).
    assert (Ha : a < length (i_heap s1)) by (apply nth_error_Some; congruence).
    destruct L as [|[b ob] L]; [congruence|]. cbn [wired] in HW. destruct HW as (DI & DO & HW).
    set (s2 := mkIst (set_nth a (fresh_node id name k ls [("nO", o); ("nI", Some (Z.of_nat (m_cols m)))] []) (i_heap s1)) (i_draws s1)).
    assert (E2 : copy_dim a "nI" (mkSub b (init (NLeaf b)) (predict numpy (NLeaf b))) s1 = (s2, Ok tt)).
    { unfold copy_dim, seqa at 1, node_has_dim, seqa, self. cbn [s_addr]. unfold dim_at in DI. destruct (nth_error (i_heap s1) b) as [nb|] eqn:Eb; [|discriminate].
      unfold dim_of in DI. destruct (dget "nI" (n_dims nb)) as [ob'|] eqn:Db; [|discriminate]. subst ob'. unfold pure, has_dim. rewrite Db. cbn [truthy].
      unfold node_get_dim, seqa, self. rewrite Eb. unfold lift, get_dim. rewrite Db. rewrite set_dim_run, Ea. reflexivity. }
    assert (L2 : later s1 s2).
    { assert (G : forall l, grows (copy_dim (T := R) a "nI" l)).
      { intros l. apply grows_seqa; [apply grows_has_dim|intros h]. destruct (truthy h); [|apply grows_pure]. apply grows_seqa; [apply grows_get_dim|intros; apply grows_set_dim]. }
      specialize (G (mkSub b (init (NLeaf b)) (predict numpy (NLeaf b))) s1). now rewrite E2 in G. }
    assert (Ea2 : nth_error (i_heap s2) a = Some (fresh_node id name k ls [("nO", o); ("nI", Some (Z.of_nat (m_cols m)))] [])) by (unfold s2; cbn [i_heap]; now apply nth_error_set_nth_eq).
    set (w0 := Z.of_nat (m_cols m)) in *.
    set (s3 := match o with Some _ => s2 | None => mkIst (set_nth a (fresh_node id name k ls [("nO", Some (Z.of_nat w')); ("nI", Some w0)] []) (i_heap s2)) (i_draws s2) end).
    assert (E3 : init (NChain a (map (fun q => NLeaf (fst q)) ((b, ob) :: L))) (Some (Arr2 m)) (Some (Arr2 y)) s = (s3, Ok tt)).
    { cbn [initialize]. unfold chain_init. unfold seqa at 1. cbn [pure]. unfold seqa at 1. rewrite map_map. rewrite E1.
      unfold seqa at 1. cbn [map head_of lift]. unfold seqa at 1. cbn [fst]. cbn [addr_of] in *. unfold head_of, lift at 1. rewrite E2.
      unfold seqa at 1, node_has_dim, seqa, self. rewrite Ea2. unfold pure, has_dim. cbn [n_dims fresh_node]. unfold s3. destruct o as [z0|]; [reflexivity|].
      cbn -[set_nth]. unfold lift. rewrite nth_error_set_nth_eq by exact Ha. cbn -[set_nth w0]. reflexivity. }
    exists s3. split; [exact E3|]. assert (L3 : later s2 s3).
    { unfold s3. destruct o; [apply later_refl|]. eapply later_store; [exact Ea2|]. apply (set_dim_later (fresh_node id name k ls [("nO", None); ("nI", Some w0)] []) "nO" (Z.of_nat w')). }
    split; [|split].
    - apply (wired_later v ((b, ob) :: L) s2 s3); [exact L3|]. apply (wired_later v ((b, ob) :: L) s1 s2 w0 L2). cbn [wired]. auto.
    - eapply later_dim; [exact L3|]. unfold dim_at. rewrite Ea2. reflexivity.
    - unfold s3. destruct o as [z0|].
      + unfold dim_at. rewrite Ea2. reflexivity.
      + unfold dim_at. cbn [i_heap]. rewrite nth_error_set_nth_eq by (apply nth_error_Some; congruence). rewrite <- Ew. reflexivity.
  Qed.
End Chain.

(** ** Other facts *)
Lemma nested_calls {T} (h : list (inode (T := T))) chains b : calls h (nested chains b) = 2 ^ length chains * leaf_calls h b.
Proof. induction chains as [|a r IH]; cbn [nested calls length Nat.pow map list_sum fold_right]; [lia|]. cbn. rewrite IH. lia. Qed.
Section Other.
  Context {T : Type} `{Num T} `{Trans T}.
  Variable draw : nat -> list Z -> result (arr T).
  Variable to_int : T -> Z.
  Variable numpy : bool.
  Lemma no_dim_later (s s' : ist (T := T)) a n d : later s s' -> nth_error (i_heap s) a = Some n -> has_dim n d = Some false ->
    exists n', nth_error (i_heap s') a = Some n' /\ has_dim n' d = Some false.
  Proof.
    intros L En Hn. destruct (later_nth _ _ _ _ L En) as (n' & E' & Ln). exists n'. split; [exact E'|]. unfold has_dim in *.
    destruct (dget d (n_dims n')) as [o|] eqn:D'; [|reflexivity]. apply dget_some_key in D'. rewrite (later_dims _ _ Ln) in D'. apply dget_key in D' as [o' D]. rewrite D in Hn. destruct o'; discriminate.
  Qed.
  Lemma add_first_dim a q qs X Y s n : nth_error (i_heap s) (addr_of q) = Some n -> has_dim n "nO" = Some false ->
    exists s' e, initialize draw to_int numpy (NAdd a (q :: qs)) X Y s = (s', Err e).
  Proof.
    intros En Hn. destruct (initialize draw to_int numpy (NAdd a (q :: qs)) X Y s) as [s' [[]|e]] eqn:E; [|eauto]. exfalso.
    cbn [initialize] in E. unfold add_init in E. apply seqa_inv in E as (s1 & [] & E1 & E). apply seqa_inv in E as (s2 & [] & E2 & E). apply seqa_inv in E as (s3 & [] & E3 & E).
    assert (GO : forall (c : addr) d w, grows (T := T) (offer_dim c d w)) by (intros; apply grows_seqa; [apply grows_has_dim|intros h; destruct (not_false h); [apply grows_set_dim|apply grows_pure]]).
    assert (GE : forall {A} (f : A -> act unit) l, (forall x, grows (T := T) (f x)) -> grows (each f l)) by (intros A f l Hf; apply grows_each, Forall_forall; auto).
    assert (L1 : later s s1) by (refine (eq_ind _ (fun p => later s (fst p)) _ _ E1); apply grows_with_width; intros; apply grows_seqa; [apply GO|intros; apply GE; intros; apply GO]).
    assert (L2 : later s1 s2) by (refine (eq_ind _ (fun p => later s1 (fst p)) _ _ E2); apply grows_with_width; intros; apply grows_seqa; [apply GO|intros; apply GE; intros; apply GO]).
    assert (L3 : later s2 s3).
    { refine (eq_ind _ (fun p => later s2 (fst p)) _ _ E3). apply grows_each, Forall_forall. intros l Hl. apply in_map_iff in Hl as (p & <- & _). apply grows_init. }
    destruct (no_dim_later s s3 _ n "nO" (later_trans _ _ _ L1 (later_trans _ _ _ L2 L3)) En Hn) as (n' & En' & Hn').
    apply seqa_inv in E as (s4 & first & E4 & E). cbn [map] in E4. unfold head_of, lift in E4. injection E4 as <- <-. apply seqa_inv in E as (s5 & v & E5 & E). cbn [s_addr] in E5.
    unfold node_get_dim, seqa, self, lift in E5. rewrite En' in E5. injection E5 as _ E5. unfold get_dim in E5. unfold has_dim in Hn'. destruct (dget "nO" (n_dims n')) as [[]|]; discriminate.
  Qed.
End Other.

Lemma zero_draw_shape : shape_ok (zero_draw (T := R)).
Proof.
  intros n shape x. unfold zero_draw. destruct (forallb (fun z => 0 <=? z)%Z shape) eqn:E; [|discriminate]. intros [= <-]. split.
  - apply Forall_forall. intros z Hz. apply (proj1 (forallb_forall _ _) E) in Hz. lia.
  - split; [reflexivity|apply repeat_length].
Qed.
Lemma zero_draw_always : always_draws (zero_draw (T := R)).
Proof.
  intros n shape F. unfold zero_draw. destruct (forallb (fun z => 0 <=? z)%Z shape) eqn:E; [eauto|]. exfalso. apply Bool.not_true_iff_false in E. apply E.
  apply forallb_forall. intros z Hz. apply (proj1 (Forall_forall _ _) F) in Hz. lia.
Qed.
(** Evaluation that leaves the arithmetic of reals alone *)
Ltac calc := cbv -[Rplus Rmult Rminus Ropp IZR Int_part num_R trans_R]; reflexivity.
Lemma add_mismatch : exists (s s' : ist (T := R)) (p : net) (m : mat R),
  all_sized s /\ wf_mat m /\ initialize zero_draw Int_part true p (Some (Arr2 m)) None s = (s', Ok tt) /\ predict true p (Arr2 m) s' = (s', Err ValueError).
Proof.
  exists (mkIst [fresh_node 3 "add" 9 [1; 2] [("nO", None); ("nI", None)] []; new_linear 1 (Some 3%Z) None; new_linear 2 (Some 2%Z) None] 0).
  eexists. exists (NAdd 0 [NLeaf 1; NLeaf 2]), (mkM 1 [[1%R]]).
  split; [repeat constructor; intros param x names Hx; discriminate Hx|]. split; [repeat constructor|]. split; calc.
Qed.
Lemma residual_mismatch : exists (s s' : ist (T := R)) (p : net) (m : mat R),
  all_sized s /\ wf_mat m /\ initialize zero_draw Int_part true p (Some (Arr2 m)) None s = (s', Ok tt) /\ predict true p (Arr2 m) s' = (s', Err ValueError).
Proof.
  exists (mkIst [fresh_node 3 "residual" 9 [1] [("nO", Some 3%Z); ("nI", None)] []; new_linear 1 (Some 3%Z) None] 0).
  eexists. exists (NResidual 0 (NLeaf 1)), (mkM 2 [[1%R; 1%R]]).
  split; [repeat constructor; intros param x names Hx; discriminate Hx|]. split; [repeat constructor|]. split; calc.
Qed.
Lemma concat_width : exists (s s' : ist (T := R)) (p : net) (m y : mat R),
  all_sized s /\ wf_mat m /\ wf_mat y /\ initialize zero_draw Int_part true p (Some (Arr2 m)) (Some (Arr2 y)) s = (s', Ok tt) /\
  m_cols y = 2 /\ dim_at s (addr_of p) "nO" = None /\ dim_at s' (addr_of p) "nO" = Some 4%Z.
Proof.
  exists (mkIst [fresh_node 3 "concatenate" 9 [1; 2] [("nO", None); ("nI", None)] []; new_linear 1 None None; new_linear 2 None None] 0).
  eexists. exists (NConcat 0 [NLeaf 1; NLeaf 2]), (mkM 1 [[1%R]]), (mkM 2 [[1%R; 1%R]]).
  split; [repeat constructor; intros param x names Hx; discriminate Hx|]. split; [repeat constructor|]. split; [repeat constructor|]. split; [calc|]. split; [reflexivity|]. split; calc.
Qed.
