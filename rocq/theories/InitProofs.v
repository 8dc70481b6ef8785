(** Initialization: what it never changes, and the shapes of parameters. *)
From Coq Require Import String Lia.
From Verif Require Import Base BaseFacts DictModel DictFacts NodeModel InitModel InitSpec.
Set Default Goal Selector "!".
Local Open Scope string_scope.

Lemma Forall2_weak {A B} (Q Q' : A -> B -> Prop) l l' : (forall x y, Q x y -> Q' x y) -> Forall2 Q l l' -> Forall2 Q' l l'.
Proof. intros HQ. induction 1; constructor; auto. Qed.

Section Net.
  Variable P : net -> Prop.
  Hypothesis HL : forall a, P (NLeaf a).
  Hypothesis HC : forall a ps, Forall P ps -> P (NChain a ps).
  Hypothesis HA : forall a ps, Forall P ps -> P (NAdd a ps).
  Hypothesis HK : forall a ps, Forall P ps -> P (NConcat a ps).
  Hypothesis HR : forall a p, P p -> P (NResidual a p).
  Hypothesis HT : forall a ps, Forall P ps -> P (NTuplify a ps).
  Lemma net_ind' : forall p, P p.
  Proof.
    fix IH 1. intros [a|a ps|a ps|a ps|a p|a ps]; [apply HL|apply HC|apply HA|apply HK|apply HR, IH|apply HT];
    (induction ps as [|q ps IHps]; constructor; [apply IH|exact IHps]).
  Qed.
End Net.

Section Later.
  Context {T : Type} `{Num T} `{Trans T}.
  Notation ist := (ist (T := T)).
  Notation inode := (inode (T := T)).
  Variable draw : nat -> list Z -> result (arr T).
  Variable to_int : T -> Z.
  Variable numpy : bool.

  Lemma later_node_refl (n : inode) : later_node n n.
  Proof. constructor; auto. repeat split. Qed.
  Lemma later_node_trans (n m o : inode) : later_node n m -> later_node m o -> later_node n o.
  Proof.
    intros [A1 A2 A3 A4 A5] [B1 B2 B3 B4 B5]. constructor; auto; [congruence|].
    destruct A5 as (?&?&?&?&?&?&?&?), B5 as (?&?&?&?&?&?&?&?). repeat split; congruence.
  Qed.
  Lemma later_refl (s : ist) : later s s.
  Proof. unfold later. induction (i_heap s); constructor; auto using later_node_refl. Qed.
  Lemma later_trans (s t u : ist) : later s t -> later t u -> later s u.
  Proof.
    unfold later. intros A. revert u. induction A as [|n m l l' Hn A IH]; intros u B; inversion B; subst; constructor; auto.
    - eapply later_node_trans; eauto.
    - match goal with F : Forall2 _ l' ?h |- _ => exact (IH (mkIst h 0) F) end.
  Qed.
  Lemma later_nth (s t : ist) a n : later s t -> nth_error (i_heap s) a = Some n ->
    exists n', nth_error (i_heap t) a = Some n' /\ later_node n n'.
  Proof.
    unfold later. intros F. revert a. induction F as [|x y l l' Hx F IH]; intros [|a] E; cbn in E; try discriminate.
    - injection E as <-. exists y. split; [reflexivity|exact Hx].
    - exact (IH a E).
  Qed.
  Lemma later_store (s : ist) a n n' : nth_error (i_heap s) a = Some n -> later_node n n' -> later s (mkIst (set_nth a n' (i_heap s)) (i_draws s)).
  Proof.
    unfold later. cbn. revert a. induction (i_heap s) as [|x l IH]; intros [|a] E Hn; cbn in E; try discriminate; cbn.
    - injection E as ->. constructor; [exact Hn|]. exact (later_refl (mkIst l 0)).
    - constructor; [apply later_node_refl|]. exact (IH a E Hn).
  Qed.

  Lemma set_dim_later (n : inode) name v : later_node n (fst (set_dim n name v false)).
  Proof.
    unfold set_dim. destruct (dget name (n_dims n)) as [old|] eqn:E; [|apply later_node_refl].
    destruct old as [o|]; cbn [fst].
    - destruct (o =? v)%Z eqn:Ev; cbn -[n_has]; [|apply later_node_refl].
      apply Z.eqb_eq in Ev as ->. rewrite dset_id by exact E. destruct n. apply later_node_refl.
    - cbn -[n_has]. constructor; cbn; auto; [..|repeat split].
      + apply dkeys_dset_mem. apply (dget_some_key _ _ _ E).
      + intros k w Ek. rewrite dget_dset. destruct (eqd k name) as [->|]; [congruence|exact Ek].
  Qed.
  Lemma set_param_later (n : inode) name v : later_node n (set_param n name (Some v)).
  Proof.
    constructor; cbn; auto; [..|repeat split]; intros k Hk; apply in_dkeys_dset; auto.
  Qed.

  (** ** Properties of computations that hold for every initialization *)
  Section Closed.
    Variable G : forall A, act (T := T) A -> Prop.
    Variable Sc : addr -> Prop.
    Notation grows := (G _).
    Hypothesis grows_seqa : forall A B (m : act A) (k : A -> act B), G A m -> (forall x, G B (k x)) -> G B (seqa m k).
    Hypothesis grows_lift : forall A (x : result A), G A (lift x).
    Hypothesis grows_self : forall a, G _ (self a).
    Hypothesis grows_set_dim : forall a name v, Sc a -> G _ (node_set_dim a name v).
    Hypothesis grows_leaf : forall a X Y, Sc a -> G _ (leaf_init draw to_int a X Y).
    Hypothesis grows_predict : forall p X, G _ (predict numpy p X).
    Hypothesis grows_catch : forall (m k : act unit), G _ m -> G _ k ->
      G _ (fun s => match m s with (s', Err ValueError) => k s' | r => r end).
    Lemma c_pure A (x : A) : grows (pure x). Proof. exact (grows_lift A (Ok x)). Qed.
    Lemma c_each {A} (f : A -> act unit) l : Forall (fun x => grows (f x)) l -> grows (each f l).
    Proof. induction 1 as [|x l Hx _ IH]; cbn; [apply c_pure|apply grows_seqa; auto]. Qed.
    Lemma c_has_dim a name : grows (node_has_dim a name).
    Proof. apply grows_seqa; [apply grows_self|intros; apply c_pure]. Qed.
    Lemma c_get_dim a name : grows (node_get_dim a name).
    Proof. apply grows_seqa; [apply grows_self|intros; apply grows_lift]. Qed.
    Create HintDb cl.
    Hint Resolve c_pure grows_lift grows_self c_has_dim c_get_dim grows_set_dim : cl.
    Lemma c_with_width X f : (forall w, grows (f w)) -> grows (with_width to_int X f).
    Proof. intros Hf. destruct X; cbn; [apply grows_seqa; auto with cl|apply c_pure]. Qed.
    Lemma c_offer a name w : Sc a -> grows (offer_dim (T := T) a name w).
    Proof. intros Ha. apply grows_seqa; [auto with cl|]. intros h. destruct (not_false h); auto with cl. Qed.
    Lemma c_copy a name l : Sc a -> grows (copy_dim (T := T) a name l).
    Proof.
      intros Ha. apply grows_seqa; [auto with cl|]. intros h. destruct (truthy h); [|auto with cl].
      apply grows_seqa; auto with cl.
    Qed.
    Hint Resolve c_with_width c_offer c_copy : cl.
    Ltac cgrow := repeat first [solve [auto with cl] | apply grows_seqa; [|intros ?] | apply c_with_width; intros ?].
    (** A sublayer that only grows the state. *)
    Definition c_sub (l : sub (T := T)) : Prop := Sc (s_addr l) /\ (forall X Y, grows (s_init l X Y)) /\ forall X, grows (s_predict l X).
    Lemma c_head ls : grows (head_of (T := T) ls). Proof. apply grows_lift. Qed.
    Lemma c_last ls : grows (last_of (T := T) ls). Proof. apply grows_lift. Qed.
    Hint Resolve c_head c_last : cl.
    Lemma c_walk ls : Forall c_sub ls -> forall X Y, grows (chain_walk ls X Y).
    Proof.
      induction 1 as [|l ls (Ha & Hi & Hp) _ IH]; intros X Y; cbn; [auto with cl|].
      apply grows_seqa; [auto with cl|intros h]. apply grows_seqa; [destruct h; apply Hi|intros _].
      apply grows_seqa; [|intros; apply IH]. destruct X; [apply grows_seqa; [apply Hp|auto with cl]|auto with cl].
    Qed.
    Lemma c_each_sub {ls : list sub} (f : sub -> act unit) : Forall c_sub ls -> (forall l, c_sub l -> grows (f l)) -> grows (each f ls).
    Proof. intros F Hf. apply c_each. eapply Forall_impl; [|exact F]. exact Hf. Qed.
    Lemma c_chain a ls : Sc a -> Forall c_sub ls -> forall X Y, grows (chain_init to_int a ls X Y).
    Proof.
      intros Sa F X Y. unfold chain_init. apply grows_seqa.
      { destruct X; [auto with cl|]. destruct Y; [auto with cl|].
        apply grows_seqa; [apply c_each_sub; [exact F|intros l (Ha & Hi & _); apply Hi]|intros _]. cgrow. }
      intros _. apply grows_seqa; [apply c_walk, F|intros out]. apply grows_seqa; [auto with cl|intros first].
      apply grows_seqa; [auto with cl|intros _]. apply grows_seqa; [auto with cl|intros h].
      destruct h as [b|]; [auto with cl|].
      apply (grows_catch (seqa (lift _) (fun w => node_set_dim a "nO" w)) (seqa (last_of ls) (fun last => copy_dim a "nO" last))); cgrow.
    Qed.
    Lemma c_add a ls : Sc a -> Forall c_sub ls -> forall X Y, grows (add_init to_int a ls X Y).
    Proof.
      intros Sa F X Y. unfold add_init.
      assert (E : forall name w, grows (each (fun l => offer_dim (s_addr l) name w) ls)) by (intros; apply c_each_sub; [exact F|intros l (Ha & _); auto with cl]).
      apply grows_seqa; [apply c_with_width; intros; apply grows_seqa; auto with cl|intros _].
      apply grows_seqa; [apply c_with_width; intros; apply grows_seqa; auto with cl|intros _].
      apply grows_seqa; [apply c_each_sub; [exact F|intros l (Ha & Hi & _); apply Hi]|intros _]. cgrow.
    Qed.
    Lemma c_all_have name ls : grows (all_have (T := T) name ls).
    Proof. induction ls; cbn; cgrow. Qed.
    Lemma c_sum name ls : grows (sum_dims (T := T) name ls).
    Proof. induction ls; cbn; cgrow. Qed.
    Lemma c_concat a ls : Sc a -> Forall c_sub ls -> forall X Y, grows (concat_init to_int a ls X Y).
    Proof.
      intros Sa F X Y. unfold concat_init.
      assert (E : forall name w, grows (each (fun l => offer_dim (s_addr l) name w) ls)) by (intros; apply c_each_sub; [exact F|intros l (Ha & _); auto with cl]).
      apply grows_seqa; [apply c_with_width; intros; apply grows_seqa; auto with cl|intros _].
      apply grows_seqa; [apply c_each_sub; [exact F|intros l (Ha & Hi & _); apply Hi]|intros _].
      apply grows_seqa; [apply c_all_have|intros b]. destruct b; [|auto with cl]. apply grows_seqa; [apply c_sum|auto with cl].
    Qed.
    Lemma c_residual a l : Sc a -> c_sub l -> forall X Y, grows (residual_init a l X Y).
    Proof.
      intros Sa (Ha & Hi & _) X Y. unfold residual_init. apply grows_seqa; [auto with cl|intros h].
      apply grows_seqa; [destruct h; apply Hi|intros _]. cgrow.
    Qed.
    Lemma c_tuplify_walk ls : Forall c_sub ls -> forall i X Y, grows (tuplify_walk ls i X Y).
    Proof.
      induction 1 as [|l ls (Ha & Hi & _) _ IH]; intros i X Y; cbn; [auto with cl|].
      apply grows_seqa; [auto with cl|intros h]. apply grows_seqa; [|intros _; apply IH].
      destruct Y; [|apply Hi]. destruct h; [apply Hi|]. apply grows_seqa; auto with cl.
    Qed.
    Lemma c_tuplify a ls : Sc a -> Forall c_sub ls -> forall X Y, grows (tuplify_init a ls X Y).
    Proof.
      intros Sa F X Y. unfold tuplify_init. apply grows_seqa.
      { destruct X; [auto with cl|]. destruct Y; [auto with cl|].
        apply grows_seqa; [apply c_each_sub; [exact F|intros l (Ha & Hi & _); apply Hi]|intros _]. cgrow. }
      intros _. apply grows_seqa; [apply c_tuplify_walk, F|intros _]. cgrow.
    Qed.
    Notation as_sub := (fun q => mkSub (addr_of q) (initialize draw to_int numpy q) (predict numpy q)).
    Lemma c_predict p X : grows (predict numpy p X). Proof. exact (grows_predict p X). Qed.
    Lemma c_init p : (forall a, In a (addrs p) -> Sc a) -> forall X Y, grows (initialize draw to_int numpy p X Y).
    Proof.
      set (Q := fun p => (forall a, In a (addrs p) -> Sc a) -> forall X Y, grows (initialize draw to_int numpy p X Y)).
      assert (AD : forall q, In (addr_of q) (addrs q)) by (intros []; cbn; auto).
      assert (M : forall a ps, Forall Q ps -> (forall b, In b (a :: flat_map addrs ps) -> Sc b) -> Sc a /\ Forall c_sub (map as_sub ps)).
      { intros a ps F HS. split; [apply HS; now left|]. assert (HS' : forall b, In b (flat_map addrs ps) -> Sc b) by (intros; apply HS; now right).
        clear HS. induction F as [|q qs Hq _ IH]; constructor.
        - cbn. split; [apply HS'; cbn; apply in_or_app; left; apply AD|]. split; [|apply c_predict].
          apply Hq. intros b Hb. apply HS'. cbn. apply in_or_app. now left.
        - apply IH. intros b Hb. apply HS'. cbn. apply in_or_app. now right. }
      change (Q p). induction p as [a|a ps IH|a ps IH|a ps IH|a q IHp|a ps IH] using net_ind'; intros HS; cbn [initialize addrs] in *.
      - intros X Y. apply grows_leaf, HS. now left.
      - destruct (M _ _ IH HS). now apply c_chain.
      - destruct (M _ _ IH HS). now apply c_add.
      - destruct (M _ _ IH HS). now apply c_concat.
      - apply c_residual; [apply HS; now left|]. split; [apply HS; right; apply AD|]. split; [apply IHp; intros b Hb; apply HS; now right|apply c_predict].
      - destruct (M _ _ IH HS). now apply c_tuplify.
    Qed.
  End Closed.

  (** ** Everything only grows *)
  Definition grows {A} (m : act (T := T) A) : Prop := forall s, later s (fst (m s)).
  Lemma grows_seqa {A B} (m : act A) (k : A -> act B) : grows m -> (forall x, grows (k x)) -> grows (seqa m k).
  Proof.
    intros Hm Hk s. unfold seqa. specialize (Hm s). destruct (m s) as [s' [x|e]]; cbn in *; [|exact Hm].
    eapply later_trans; [exact Hm|apply Hk].
  Qed.
  Lemma grows_pure {A} (x : A) : grows (pure x). Proof. intros s. apply later_refl. Qed.
  Lemma grows_lift {A} (x : result A) : grows (lift x). Proof. intros s. apply later_refl. Qed.
  Lemma grows_self a : grows (self a). Proof. intros s. apply later_refl. Qed.
  Lemma grows_each {A} (f : A -> act unit) l : Forall (fun x => grows (f x)) l -> grows (each f l).
  Proof. induction 1 as [|x l Hx _ IH]; cbn; [apply grows_pure|apply grows_seqa; auto]. Qed.
  Lemma grows_has_dim a name : grows (node_has_dim a name).
  Proof. apply grows_seqa; [apply grows_self|intros; apply grows_pure]. Qed.
  Lemma grows_get_dim a name : grows (node_get_dim a name).
  Proof. apply grows_seqa; [apply grows_self|intros; apply grows_lift]. Qed.
  Lemma set_dim_run a name v (s : ist) : node_set_dim a name v s =
    match nth_error (i_heap s) a with
    | Some n => (mkIst (set_nth a (fst (set_dim n name v false)) (i_heap s)) (i_draws s), snd (set_dim n name v false))
    | None => (s, Err MemFault)
    end.
  Proof. unfold node_set_dim, seqa, self, store, lift. now destruct (nth_error (i_heap s) a). Qed.
  Lemma grows_set_dim a name v : grows (node_set_dim a name v).
  Proof.
    intros s. rewrite set_dim_run. destruct (nth_error (i_heap s) a) as [n|] eqn:E; [|apply later_refl].
    cbn [fst]. eapply later_store; [exact E|apply set_dim_later].
  Qed.
  Lemma set_param_run a name v (s : ist) : node_set_param a name v s =
    match nth_error (i_heap s) a with
    | Some n => (mkIst (set_nth a (set_param n name (Some v)) (i_heap s)) (i_draws s), Ok tt)
    | None => (s, Err MemFault)
    end.
  Proof. unfold node_set_param, seqa, self, store. now destruct (nth_error (i_heap s) a). Qed.
  Lemma grows_set_param a name v : grows (node_set_param a name v).
  Proof.
    intros s. rewrite set_param_run. destruct (nth_error (i_heap s) a) as [n|] eqn:E; [|apply later_refl].
    cbn [fst]. eapply later_store; [exact E|apply set_param_later].
  Qed.
  Lemma grows_initializer shape : grows (initializer draw shape).
  Proof. intros s. unfold later. cbn. exact (later_refl s). Qed.
  Lemma grows_if {A} (b : bool) (m k : act A) : grows m -> grows k -> grows (if b then m else k).
  Proof. destruct b; auto. Qed.
  Create HintDb grow.
  Hint Resolve grows_pure grows_lift grows_self grows_has_dim grows_get_dim grows_set_dim grows_set_param grows_initializer : grow.
  Lemma grows_with_width X f : (forall w, grows (f w)) -> grows (with_width to_int X f).
  Proof. intros Hf. destruct X; cbn; [apply grows_seqa; auto with grow|apply grows_pure]. Qed.
  Hint Resolve grows_with_width : grow.
  Ltac grow := repeat first [solve [auto with grow] | apply grows_seqa; [|intros ?] | apply grows_with_width; intros ?].
  Lemma grows_leaf a X Y : grows (leaf_init draw to_int a X Y).
  Proof.
    unfold leaf_init. apply grows_seqa; [auto with grow|]. intros n.
    assert (D : grows (dense_init draw to_int a X Y)) by (unfold dense_init; grow).
    destruct (n_func n) as [|[|[|[|[|k]]]]]; try exact D; [..|auto with grow].
    - unfold maxout_init. grow.
    - unfold layernorm_init. apply grows_seqa; [destruct X; grow|intros _]. apply grows_seqa; [auto with grow|intros nI].
      apply grows_seqa; [auto with grow|intros h]. apply grows_seqa; [destruct (truthy h); auto with grow|intros _]. grow.
  Qed.

  Lemma grows_predict p X : grows (predict numpy p X). Proof. intros s. apply later_refl. Qed.
  Lemma grows_catch (m k : act unit) : grows m -> grows k -> grows (fun s => match m s with (s', Err ValueError) => k s' | r => r end).
  Proof.
    intros Hm Hk s. specialize (Hm s). destruct (m s) as [s' [x|[]]]; cbn in *; try exact Hm. eapply later_trans; [exact Hm|apply Hk].
  Qed.
  Lemma grows_init p : forall X Y, grows (initialize draw to_int numpy p X Y).
  Proof.
    apply (c_init (@grows) (fun _ => True)); auto; [apply @grows_seqa|apply @grows_lift|apply grows_self|intros; apply grows_set_dim|intros; apply grows_leaf|apply grows_predict|apply grows_catch].
  Qed.
  Lemma init_later p X Y s s' r : initialize draw to_int numpy p X Y s = (s', r) -> later s s'.
  Proof. intros E. pose proof (grows_init p X Y s) as G. rewrite E in G. exact G. Qed.
  Lemma later_dim (s s' : ist) a name v : later s s' -> dim_at s a name = Some v -> dim_at s' a name = Some v.
  Proof.
    intros L. unfold dim_at. destruct (nth_error (i_heap s) a) as [n|] eqn:E; [|discriminate].
    destruct (later_nth _ _ _ _ L E) as (n' & -> & Ln). unfold dim_of. intros D. destruct (dget name (n_dims n)) as [o|] eqn:Dn; [|discriminate].
    subst o. now rewrite (later_kept _ _ Ln _ _ Dn).
  Qed.

  (** ** Shapes of parameters *)
  Lemma sized_dims (n : inode) name v : sized_node n -> sized_node (fst (set_dim n name v false)).
  Proof.
    intros S param x names. pose proof (set_dim_later n name v) as L.
    assert (Ep : n_params (fst (set_dim n name v false)) = n_params n).
    { unfold set_dim. destruct (dget name (n_dims n)) as [o|]; [|reflexivity]. now match goal with |- context [if ?b then _ else _] => destruct b end. }
    rewrite Ep. assert (Ef : n_func (fst (set_dim n name v false)) = n_func n) by apply (later_rest _ _ L). rewrite Ef.
    intros D E. destruct (S param x names D E) as (zs & F & Hs). exists zs. split; [|exact Hs].
    eapply Forall2_weak; [|exact F]. cbv beta. intros k z. apply (later_kept _ _ L).
  Qed.
  Lemma sized_param (n : inode) name x : sized_node n ->
    (forall names, shape_names (n_func n) name = Some names -> exists zs, Forall2 (fun k z => dget k (n_dims n) = Some (Some z)) names zs /\ has_shape x zs) ->
    sized_node (set_param n name (Some x)).
  Proof.
    intros S Hx param y names. cbn. rewrite dget_dset. destruct (eqd param name) as [->|].
    - intros [= <-] E. exact (Hx names E).
    - apply S.
  Qed.
  Lemma Forall_set_nth {A} (Q : A -> Prop) i x l : Forall Q l -> Q x -> Forall Q (set_nth i x l).
  Proof. intros F Hx. revert i. induction F; intros [|i]; cbn; constructor; auto. Qed.

  (** Triples: from every state where all parameters are sized and [P] holds, the computation keeps them sized, only
      grows the state, and if it succeeds [Q] holds. *)
  Definition tri {A} (P : ist -> Prop) (m : act A) (Q : A -> ist -> Prop) : Prop :=
    forall s, all_sized s -> P s -> all_sized (fst (m s)) /\ later s (fst (m s)) /\ forall x, snd (m s) = Ok x -> Q x (fst (m s)).
  Definition stable (P : ist -> Prop) : Prop := forall s s', later s s' -> P s -> P s'.
  Lemma tri_seq {A B} P (m : act A) Q (k : A -> act B) R : tri P m Q -> (forall x, tri (Q x) (k x) R) -> tri P (seqa m k) R.
  Proof.
    intros Hm Hk s Ss Ps. unfold seqa. destruct (Hm s Ss Ps) as (S1 & L1 & Q1). destruct (m s) as [s1 [x|e]]; cbn in *.
    - destruct (Hk x s1 S1 (Q1 x eq_refl)) as (S2 & L2 & Q2). repeat split; auto. eapply later_trans; eauto.
    - repeat split; auto. discriminate.
  Qed.
  Lemma tri_weaken {A} (P P' : ist -> Prop) (m : act A) (Q Q' : A -> ist -> Prop) : tri P' m Q' -> (forall s, P s -> P' s) -> (forall x s, Q' x s -> Q x s) -> tri P m Q.
  Proof. intros Hm HP HQ s Ss Ps. destruct (Hm s Ss (HP s Ps)) as (?&?&?). repeat split; auto. Qed.
  Lemma tri_pre {A} (P P' : ist -> Prop) (m : act A) Q : tri P' m Q -> (forall s, P s -> P' s) -> tri P m Q.
  Proof. intros Hm HP. eapply tri_weaken; eauto. Qed.
  Lemma tri_post {A} (P : ist -> Prop) (m : act A) (Q Q' : A -> ist -> Prop) : tri P m Q' -> (forall x s, Q' x s -> Q x s) -> tri P m Q.
  Proof. intros Hm HQ. eapply tri_weaken; eauto. Qed.
  Lemma tri_lift {A} P (r : result A) : tri P (lift r) (fun x s => P s /\ r = Ok x).
  Proof. intros s Ss Ps. cbn. repeat split; auto using later_refl. Qed.
  Lemma tri_pure {A} P (x : A) : tri P (pure x) (fun _ s => P s).
  Proof. intros s Ss Ps. cbn. repeat split; auto using later_refl. Qed.
  Lemma tri_self P a : tri P (self a) (fun n s => P s /\ nth_error (i_heap s) a = Some n).
  Proof. intros s Ss Ps. cbn. repeat split; auto using later_refl. destruct (nth_error (i_heap s) a); congruence. Qed.
  Lemma tri_has_dim P a name : tri P (node_has_dim a name) (fun h s => P s /\ exists n, nth_error (i_heap s) a = Some n /\ h = has_dim n name).
  Proof.
    intros s Ss Ps. unfold node_has_dim, seqa, self, pure. destruct (nth_error (i_heap s) a) as [n|] eqn:E; cbn; (split; [exact Ss|split; [apply later_refl|]]); intros h; [|discriminate].
    intros [= <-]. eauto.
  Qed.
  Lemma tri_get_dim P a name : tri P (node_get_dim a name) (fun v s => P s /\ dim_at s a name = Some v).
  Proof.
    intros s Ss Ps. unfold node_get_dim, seqa, self, lift, dim_at, dim_of, get_dim.
    destruct (nth_error (i_heap s) a) as [n|] eqn:E; cbn; (split; [exact Ss|split; [apply later_refl|]]); intros v; [|discriminate].
    rewrite E. destruct (dget name (n_dims n)) as [[w|]|]; intros Hx; (split; [exact Ps|congruence]).
  Qed.
  Lemma tri_set_dim P a name v : stable P -> tri P (node_set_dim a name v) (fun _ s => P s /\ dim_at s a name = Some v).
  Proof.
    intros St s Ss Ps. pose proof (grows_set_dim a name v s) as L. rewrite set_dim_run in *.
    destruct (nth_error (i_heap s) a) as [n|] eqn:E; cbn [fst snd] in *.
    - split; [|split; [exact L|]].
      + unfold all_sized. cbn. apply Forall_set_nth; [exact Ss|]. apply sized_dims.
        apply (proj1 (Forall_forall _ _) Ss). eapply nth_error_In; exact E.
      + intros [] Hok. split; [exact (St _ _ L Ps)|]. unfold dim_at. cbn [i_heap].
        rewrite nth_error_set_nth_eq by (apply nth_error_Some; congruence). unfold dim_of.
        unfold set_dim in *. destruct (dget name (n_dims n)) as [o|]; [|discriminate].
        match type of Hok with context [if ?b then _ else _] => destruct b end; [discriminate|]. cbn. now rewrite dget_dset_same.
    - repeat split; auto; discriminate.
  Qed.
  Lemma stable_dim a name v : stable (fun s => dim_at s a name = Some v).
  Proof. intros s s' L. now apply later_dim. Qed.
  Lemma stable_and P Q : stable P -> stable Q -> stable (fun s => P s /\ Q s).
  Proof. intros A B s s' L [HP HQ]. split; eauto. Qed.
  Lemma stable_true : stable (fun _ => True). Proof. intros s s' L _. exact I. Qed.
  Lemma stable_const (Q : Prop) : stable (fun _ => Q). Proof. intros s s' L q. exact q. Qed.
  Definition kind_at (a : addr) (k : nat) (s : ist) : Prop := exists n, nth_error (i_heap s) a = Some n /\ n_func n = k.
  Lemma stable_kind a k : stable (kind_at a k).
  Proof.
    intros s s' L (n & E & K). destruct (later_nth _ _ _ _ L E) as (n' & E' & L'). exists n'. split; [exact E'|].
    rewrite <- K. apply (later_rest _ _ L').
  Qed.
  (** A parameter is set. *)
  Definition present (a : addr) (name : string) (s : ist) : Prop :=
    exists n, nth_error (i_heap s) a = Some n /\ In name (dkeys (n_params n)) /\ In name (dkeys (n_has n)).
  Lemma stable_present a name : stable (present a name).
  Proof.
    intros s s' L (n & E & K & K'). destruct (later_nth _ _ _ _ L E) as (n' & E' & L'). exists n'. split; [exact E'|].
    split; [exact (later_set _ _ L' _ K)|exact (later_has _ _ L' _ K')].
  Qed.
  Lemma tri_set_param P a k name names x zs : stable P -> shape_names k name = Some names ->
    (forall s, P s -> kind_at a k s /\ Forall2 (fun d z => dim_at s a d = Some z) names zs /\ has_shape x zs) ->
    tri P (node_set_param a name x) (fun _ s => P s /\ present a name s).
  Proof.
    intros St En HP s Ss Ps. pose proof (grows_set_param a name x s) as L. rewrite set_param_run in *.
    destruct (HP s Ps) as ((n & E & K) & F & Hx). rewrite E in *. cbn [fst snd] in *. split; [|split; [exact L|]].
    - unfold all_sized. cbn. apply Forall_set_nth; [exact Ss|]. apply sized_param.
      { apply (proj1 (Forall_forall _ _) Ss). eapply nth_error_In; exact E. }
      intros ns Ens. rewrite K, En in Ens. injection Ens as <-. exists zs. split; [|exact Hx].
      eapply Forall2_weak; [|exact F]. cbv beta. intros d z D. unfold dim_at, dim_of in D. rewrite E in D.
      destruct (dget d (n_dims n)); congruence.
    - intros [] _. split; [exact (St _ _ L Ps)|]. exists (set_param n name (Some x)). cbn [i_heap].
      rewrite nth_error_set_nth_eq by (apply nth_error_Some; congruence). split; [reflexivity|].
      split; apply in_dkeys_dset; auto.
  Qed.
  Hypothesis HD : shape_ok draw.
  Lemma tri_initializer P shape : stable P -> tri P (initializer draw shape) (fun x s => P s /\ has_shape x shape).
  Proof.
    intros St s Ss Ps. pose proof (grows_initializer shape s) as L. cbn in *. split; [exact Ss|split; [exact L|]].
    intros x E. split; [exact (St _ _ L Ps)|exact (HD _ _ _ E)].
  Qed.

  Lemma tri_catch (m k : act unit) : tri (fun _ => True) m (fun _ _ => True) -> tri (fun _ => True) k (fun _ _ => True) ->
    tri (fun _ => True) (fun s => match m s with (s', Err ValueError) => k s' | r => r end) (fun _ _ => True).
  Proof.
    intros Hm Hk s Ss _. destruct (Hm s Ss I) as (S1 & L1 & _). destruct (m s) as [s' [x|[]]]; cbn in *; try (repeat split; auto; fail).
    destruct (Hk s' S1 I) as (S2 & L2 & _). repeat split; auto. eapply later_trans; eauto.
  Qed.
  (** The data told the width. *)
  Definition told (X : option (value T)) (a : addr) (name : string) (s : ist) : Prop :=
    forall x w, X = Some x -> get_width to_int x = Ok w -> dim_at s a name = Some w.
  Lemma tri_width P X a name : stable P -> tri P (with_width to_int X (node_set_dim a name))
    (fun _ s => P s /\ told X a name s).
  Proof.
    intros St. destruct X as [x|]; cbn [with_width].
    - eapply tri_seq; [apply tri_lift|]. intros w. eapply tri_weaken; [apply (tri_set_dim (fun s => P s /\ get_width to_int x = Ok w))| |].
      + apply stable_and; [exact St|apply stable_const].
      + auto.
      + cbv beta. intros _ s [[Ps E] D]. split; [exact Ps|]. intros x' w' [= <-] E'. congruence.
    - eapply tri_weaken; [apply tri_pure|intros s Ps; exact Ps|]. cbv beta. intros _ s Ps. split; [exact Ps|discriminate].
  Qed.
  Definition some_dim (a : addr) (name : string) (s : ist) : Prop := exists v, dim_at s a name = Some v.
  Definition ready_leaf (k : nat) (a : addr) (s : ist) : Prop :=
    match k with
    | 0 | 1 | 2 => (some_dim a "nO" s /\ some_dim a "nI" s) /\ present a "W" s /\ present a "b" s
    | 3 => (some_dim a "nO" s /\ some_dim a "nP" s /\ some_dim a "nI" s) /\ present a "W" s /\ present a "b" s
    | 4 => (some_dim a "nI" s /\ some_dim a "nO" s) /\ present a "G" s /\ present a "b" s
    | _ => True
    end.
  Lemma stable_told X a name : stable (told X a name).
  Proof. intros s s' L D x w EX Ew. exact (later_dim _ _ _ _ _ L (D x w EX Ew)). Qed.
  Ltac stab := repeat first [apply stable_and | apply stable_dim | apply stable_kind | apply stable_present | apply stable_told | apply stable_const].
  Ltac tstep := first [apply tri_width; stab | apply tri_get_dim | apply tri_initializer; stab | apply tri_set_dim; stab].
  Lemma tri_dense k a X Y : (k <= 2)%nat -> tri (kind_at a k) (dense_init draw to_int a X Y)
    (fun _ s => kind_at a k s /\ ready_leaf k a s /\ told X a "nI" s /\ told Y a "nO" s).
  Proof.
    intros Hk. assert (E : shape_names k "W" = Some ["nO"; "nI"] /\ shape_names k "b" = Some ["nO"]).
    { destruct k as [|[|[|k]]]; try (split; reflexivity). lia. }
    destruct E as [EW Eb]. unfold dense_init.
    eapply tri_seq; [tstep|intros []; cbv beta]. eapply tri_seq; [tstep|intros []; cbv beta].
    eapply tri_seq; [tstep|intros nO; cbv beta]. eapply tri_seq; [tstep|intros nI; cbv beta].
    eapply tri_seq; [tstep|intros W; cbv beta].
    eapply tri_seq; [eapply (tri_set_param _ a k "W" _ W [nO; nI]); [stab|exact EW|]|intros []; cbv beta].
    { cbv beta. intros s (((((HK & HX) & HY) & HO) & HI) & HW). split; [exact HK|split; [constructor; [exact HO|constructor; [exact HI|constructor]]|exact HW]]. }
    eapply tri_seq; [tstep|intros nO'; cbv beta]. eapply tri_seq; [tstep|intros b; cbv beta].
    eapply tri_post; [eapply (tri_set_param _ a k "b" _ b [nO']); [stab|exact Eb|]|].
    - cbv beta. intros s ((((((((HK & HX) & HY) & HO) & HI) & HW) & HP) & HO') & HB). split; [exact HK|split; [constructor; [exact HO'|constructor]|exact HB]].
    - cbv beta. intros _ s (((((((((HK & HX) & HY) & HO) & HI) & HW) & HP) & HO') & HB) & HP').
      split; [exact HK|split; [|split; [exact HX|exact HY]]].
      destruct k as [|[|[|k]]]; [..|lia]; (split; [split; [exists nO; exact HO|exists nI; exact HI]|split; [exact HP|exact HP']]).
  Qed.
  Lemma tri_maxout a X Y : tri (kind_at a 3) (maxout_init draw to_int a X Y)
    (fun _ s => kind_at a 3 s /\ ready_leaf 3 a s /\ told X a "nI" s /\ told Y a "nO" s).
  Proof.
    unfold maxout_init.
    eapply tri_seq; [tstep|intros []; cbv beta]. eapply tri_seq; [tstep|intros []; cbv beta].
    eapply tri_seq; [tstep|intros nO; cbv beta]. eapply tri_seq; [tstep|intros nP; cbv beta]. eapply tri_seq; [tstep|intros nI; cbv beta].
    eapply tri_seq; [tstep|intros W; cbv beta].
    eapply tri_seq; [eapply (tri_set_param _ a 3 "W" _ W [nO; nP; nI]); [stab|reflexivity|]|intros []; cbv beta].
    { cbv beta. intros s ((((((HK & HX) & HY) & HO) & HP) & HI) & HW).
      split; [exact HK|split; [constructor; [exact HO|constructor; [exact HP|constructor; [exact HI|constructor]]]|exact HW]]. }
    eapply tri_seq; [tstep|intros nO'; cbv beta]. eapply tri_seq; [tstep|intros nP'; cbv beta]. eapply tri_seq; [tstep|intros b; cbv beta].
    eapply tri_post; [eapply (tri_set_param _ a 3 "b" _ b [nO'; nP']); [stab|reflexivity|]|].
    - cbv beta. intros s ((((((((((HK & HX) & HY) & HO) & HP) & HI) & HW) & HPW) & HO') & HP') & HB).
      split; [exact HK|split; [constructor; [exact HO'|constructor; [exact HP'|constructor]]|exact HB]].
    - cbv beta. intros _ s (((((((((((HK & HX) & HY) & HO) & HP) & HI) & HW) & HPW) & HO') & HP') & HB) & HPB).
      split; [exact HK|split; [|split; [exact HX|exact HY]]]. cbn.
      split; [split; [exists nO; exact HO|split; [exists nP; exact HP|exists nI; exact HI]]|split; [exact HPW|exact HPB]].
  Qed.
  Lemma filled_shape n x r : filled (T := T) n x = Ok r -> has_shape r [n].
  Proof.
    unfold filled. destruct (n <? 0)%Z eqn:E; [discriminate|]. intros [= <-]. apply Z.ltb_ge in E. split; [auto|]. cbn. split; [reflexivity|].
    rewrite repeat_length. lia.
  Qed.
  Lemma tri_layernorm a X Y : tri (kind_at a 4) (layernorm_init to_int a X Y)
    (fun _ s => kind_at a 4 s /\ ready_leaf 4 a s /\ told X a "nI" s /\ told X a "nO" s).
  Proof.
    unfold layernorm_init. eapply (tri_seq _ _ (fun _ s => kind_at a 4 s /\ told X a "nI" s /\ told X a "nO" s)).
    { destruct X as [x|].
      - eapply tri_seq; [apply tri_lift|intros w; cbv beta]. eapply tri_seq; [tstep|intros []; cbv beta].
        eapply tri_post; [tstep|]. cbv beta. intros _ s (((HK & Ew) & HI) & HO).
        split; [exact HK|split; intros x' w' [= <-] Ew'; rewrite Ew in Ew'; injection Ew' as <-; assumption].
      - destruct Y as [y|]; cbn [with_width].
        + eapply tri_seq; [apply tri_lift|intros w; cbv beta]. eapply tri_seq; [tstep|intros []; cbv beta].
          eapply tri_post; [tstep|]. cbv beta. intros _ s (((HK & Ew) & HI) & HO).
          split; [exact HK|split; intros x' w'; discriminate].
        + eapply tri_post; [apply tri_pure|]. cbv beta. intros _ s HK. split; [exact HK|split; intros x' w'; discriminate]. }
    intros []; cbv beta. eapply tri_seq; [tstep|intros nI; cbv beta].
    eapply tri_seq; [apply tri_has_dim|intros h; cbv beta].
    eapply (tri_seq _ _ (fun _ s => (kind_at a 4 s /\ told X a "nI" s /\ told X a "nO" s) /\ dim_at s a "nI" = Some nI)).
    { destruct (truthy h).
      - eapply tri_post; [apply tri_pure|]. cbv beta. tauto.
      - eapply (tri_pre _ (fun s => (kind_at a 4 s /\ told X a "nI" s /\ told X a "nO" s) /\ dim_at s a "nI" = Some nI)); [|tauto].
        eapply tri_post; [tstep|]. cbv beta. tauto. }
    intros []; cbv beta. eapply tri_seq; [apply tri_lift|intros G; cbv beta].
    eapply tri_seq; [eapply (tri_set_param _ a 4 "G" _ G [nI]); [stab|reflexivity|]|intros []; cbv beta].
    { cbv beta. intros s (((HK & _) & HI) & HG). split; [exact HK|split; [constructor; [exact HI|constructor]|exact (filled_shape _ _ _ HG)]]. }
    eapply tri_seq; [apply tri_lift|intros b; cbv beta].
    eapply tri_seq; [eapply (tri_set_param _ a 4 "b" _ b [nI]); [stab|reflexivity|]|intros []; cbv beta].
    { cbv beta. intros s (((((HK & _) & HI) & HG) & HPG) & HB).
      split; [exact HK|split; [constructor; [exact HI|constructor]|exact (filled_shape _ _ _ HB)]]. }
    eapply tri_seq; [tstep|intros nO; cbv beta]. eapply tri_post; [apply tri_pure|]. cbv beta.
    intros _ s (((((((HK & HX & HX') & HI) & HG) & HPG) & HB) & HPB) & HO).
    split; [exact HK|split; [|split; [exact HX|exact HX']]]. cbn. split; [split; [exists nI; exact HI|exists nO; exact HO]|split; [exact HPG|exact HPB]].
  Qed.
  Definition leaf_done (k : nat) (a : addr) (X Y : option (value T)) (s : ist) : Prop :=
    kind_at a k s /\ ready_leaf k a s /\ (k <= 4 -> told X a "nI" s)%nat /\ (k <= 3 -> told Y a "nO" s)%nat /\ (k = 4 -> told X a "nO" s).
  Lemma tri_leaf a X Y : tri (fun _ => True) (leaf_init draw to_int a X Y) (fun _ s => exists k, leaf_done k a X Y s).
  Proof.
    unfold leaf_init. eapply tri_seq; [apply tri_self|intros n; cbv beta].
    assert (D : forall k, k = n_func n -> (k <= 2)%nat -> tri (fun s => True /\ nth_error (i_heap s) a = Some n) (dense_init draw to_int a X Y) (fun _ s => exists k, leaf_done k a X Y s)).
    { intros k Ek Hk. eapply tri_pre; [eapply tri_post; [apply (tri_dense k a X Y Hk)|]|].
      - cbv beta. intros _ s (HK & HR & HX & HY). exists k. repeat split; auto. lia.
      - cbv beta. intros s [_ E]. exists n. auto. }
    destruct (n_func n) as [|[|[|[|[|k]]]]] eqn:E.
    - apply (D 0%nat); lia.
    - apply (D 1%nat); lia.
    - apply (D 2%nat); lia.
    - eapply tri_pre; [eapply tri_post; [apply tri_maxout|]|].
      + cbv beta. intros _ s (HK & HR & HX & HY). exists 3%nat. split; [exact HK|split; [exact HR|split; [auto|split; [auto|lia]]]].
      + cbv beta. intros s [_ En]. exists n. auto.
    - eapply tri_pre; [eapply tri_post; [apply tri_layernorm|]|].
      + cbv beta. intros _ s (HK & HR & HX & HY). exists 4%nat. split; [exact HK|split; [exact HR|split; [auto|split; [lia|auto]]]].
      + cbv beta. intros s [_ En]. exists n. auto.
    - eapply tri_post; [apply tri_pure|]. cbv beta. intros _ s [_ En]. exists (S (S (S (S (S k))))). split; [exists n; auto|split; [exact I|]].
      repeat split; lia.
  Qed.
  Definition safe {A} (m : act A) : Prop := tri (fun _ => True) m (fun _ _ => True).
  Lemma safe_init p : forall X Y, safe (initialize draw to_int numpy p X Y).
  Proof.
    apply (c_init (@safe) (fun _ => True)); auto.
    - intros A B m k Hm Hk. eapply tri_seq; [exact Hm|exact Hk].
    - intros A x. eapply tri_post; [apply tri_lift|auto].
    - intros a. eapply tri_post; [apply tri_self|auto].
    - intros a name v _. eapply tri_post; [apply tri_set_dim, stable_true|auto].
    - intros a X Y _. eapply tri_post; [apply tri_leaf|auto].
    - intros q X s Ss _. cbn. repeat split; auto using later_refl.
    - apply tri_catch.
  Qed.
  Lemma init_sized p X Y s s' r : all_sized s -> initialize draw to_int numpy p X Y s = (s', r) -> all_sized s'.
  Proof. intros Ss E. destruct (safe_init p X Y s Ss I) as (S' & _). now rewrite E in S'. Qed.
End Later.
