(** Initialization: the nodes it leaves alone, and how often it calls the initializers. *)
From Coq Require Import String Lia List.
From Verif Require Import Base BaseFacts DictModel DictFacts NodeModel InitModel InitSpec InitProofs.
Set Default Goal Selector "!".
Local Open Scope string_scope.

Section Frame.
  Context {T : Type} `{Num T} `{Trans T}.
  Notation ist := (ist (T := T)).
  Notation inode := (inode (T := T)).
  Variable draw : nat -> list Z -> result (arr T).
  Variable to_int : T -> Z.
  Variable numpy : bool.

  (** ** Other nodes *)
  Section Keep.
    Variable Sc : addr -> Prop.
    Definition keeps {A} (m : act (T := T) A) : Prop := forall s a, ~ Sc a -> nth_error (i_heap (fst (m s))) a = nth_error (i_heap s) a.
    Lemma keeps_seqa A B (m : act A) (k : A -> act B) : keeps m -> (forall x, keeps (k x)) -> keeps (seqa m k).
    Proof.
      intros Hm Hk s a Ha. unfold seqa. specialize (Hm s a Ha). destruct (m s) as [s' [x|e]]; cbn in *; [|exact Hm].
      rewrite <- Hm. now apply Hk.
    Qed.
    Lemma keeps_lift A (x : result A) : keeps (lift x). Proof. intros s a _. reflexivity. Qed.
    Lemma keeps_self a : keeps (self a). Proof. intros s b _. reflexivity. Qed.
    Lemma keeps_pure A (x : A) : keeps (pure x). Proof. intros s a _. reflexivity. Qed.
    Lemma keeps_store (s : ist) a n b : Sc a -> ~ Sc b -> nth_error (set_nth a n (i_heap s)) b = nth_error (i_heap s) b.
    Proof. intros Ha Hb. apply nth_error_set_nth_neq. congruence. Qed.
    Lemma keeps_set_dim a name v : Sc a -> keeps (node_set_dim a name v).
    Proof. intros Ha s b Hb. rewrite set_dim_run. destruct (nth_error (i_heap s) a); cbn; [now apply keeps_store|reflexivity]. Qed.
    Lemma keeps_set_param a name v : Sc a -> keeps (node_set_param a name v).
    Proof. intros Ha s b Hb. rewrite set_param_run. destruct (nth_error (i_heap s) a); cbn; [now apply keeps_store|reflexivity]. Qed.
    Lemma keeps_has_dim a name : keeps (node_has_dim a name).
    Proof. apply keeps_seqa; [apply keeps_self|intros; apply keeps_pure]. Qed.
    Lemma keeps_get_dim a name : keeps (node_get_dim a name).
    Proof. apply keeps_seqa; [apply keeps_self|intros; apply keeps_lift]. Qed.
    Lemma keeps_initializer shape : keeps (initializer draw shape). Proof. intros s a _. reflexivity. Qed.
    Create HintDb keep.
    Hint Resolve keeps_pure keeps_lift keeps_self keeps_has_dim keeps_get_dim keeps_set_dim keeps_set_param keeps_initializer : keep.
    Lemma keeps_with_width X f : (forall w, keeps (f w)) -> keeps (with_width to_int X f).
    Proof. intros Hf. destruct X; cbn; [apply keeps_seqa; auto with keep|apply keeps_pure]. Qed.
    Hint Resolve keeps_with_width : keep.
    Ltac keep := repeat first [solve [auto with keep] | apply keeps_seqa; [|intros ?] | apply keeps_with_width; intros ?].
    Lemma keeps_leaf a X Y : Sc a -> keeps (leaf_init draw to_int a X Y).
    Proof.
      intros Ha. unfold leaf_init. apply keeps_seqa; [auto with keep|]. intros n.
      assert (D : keeps (dense_init draw to_int a X Y)) by (unfold dense_init; keep).
      destruct (n_func n) as [|[|[|[|[|k]]]]]; try exact D; [..|auto with keep].
      - unfold maxout_init. keep.
      - unfold layernorm_init. apply keeps_seqa; [destruct X; keep|intros _]. apply keeps_seqa; [auto with keep|intros nI].
        apply keeps_seqa; [auto with keep|intros h]. apply keeps_seqa; [destruct (truthy h); auto with keep|intros _]. keep.
    Qed.
    Lemma keeps_predict p X : keeps (predict numpy p X). Proof. intros s a _. reflexivity. Qed.
    Lemma keeps_catch (m k : act unit) : keeps m -> keeps k -> keeps (fun s => match m s with (s', Err ValueError) => k s' | r => r end).
    Proof.
      intros Hm Hk s a Ha. specialize (Hm s a Ha). destruct (m s) as [s' [x|[]]]; cbn in *; try exact Hm. rewrite <- Hm. now apply Hk.
    Qed.
    Lemma keeps_init p : (forall a, In a (addrs p) -> Sc a) -> forall X Y, keeps (initialize draw to_int numpy p X Y).
    Proof.
      apply (c_init draw to_int numpy (@keeps) Sc); [apply keeps_seqa|apply keeps_lift|apply keeps_self|apply keeps_set_dim|apply keeps_leaf|apply keeps_predict|apply keeps_catch].
    Qed.
  End Keep.
  Lemma init_frame p X Y s s' r a : initialize draw to_int numpy p X Y s = (s', r) -> ~ In a (addrs p) -> nth_error (i_heap s') a = nth_error (i_heap s) a.
  Proof. intros E Ha. pose proof (keeps_init (fun b => In b (addrs p)) p (fun b Hb => Hb) X Y s a Ha) as K. now rewrite E in K. Qed.

  (** ** Calls of the initializers *)
  Definition draws {A} (c : list inode -> nat) (m : act (T := T) A) : Prop :=
    forall s s' x, m s = (s', Ok x) -> (i_draws s' = i_draws s + c (i_heap s))%nat /\ later s s'.
  Lemma leaf_calls_later (s s' : ist) a : later s s' -> leaf_calls (i_heap s') a = leaf_calls (i_heap s) a.
  Proof.
    intros L. unfold leaf_calls. destruct (nth_error (i_heap s) a) as [n|] eqn:E.
    - destruct (later_nth _ _ _ _ L E) as (n' & -> & [_ _ _ _ (_ & _ & -> & _)]). reflexivity.
    - destruct (nth_error (i_heap s') a) as [n|] eqn:E'; [|reflexivity]. apply nth_error_None in E.
      assert (HL : length (i_heap s) = length (i_heap s')) by (clear -L; unfold later in L; induction L; cbn; congruence). assert (nth_error (i_heap s') a <> None) as HN by congruence. apply nth_error_Some in HN. lia.
  Qed.
  Lemma calls_later (s s' : ist) p : later s s' -> calls (i_heap s') p = calls (i_heap s) p.
  Proof.
    intros L. assert (M : forall ps, Forall (fun p => calls (i_heap s') p = calls (i_heap s) p) ps -> map (calls (i_heap s')) ps = map (calls (i_heap s)) ps).
    { induction 1 as [|p0 ps E _ IH]; cbn; [reflexivity|]. now rewrite E, IH. }
    induction p as [a|a ps IH|a ps IH|a ps IH|a q IHp|a ps IH] using net_ind'; cbn [calls]; rewrite ?(M _ IH); auto using leaf_calls_later.
  Qed.
  Lemma seqa_inv {A B} (m : act (T := T) A) (k : A -> act B) s s' y : seqa m k s = (s', Ok y) -> exists s1 x, m s = (s1, Ok x) /\ k x s1 = (s', Ok y).
  Proof. unfold seqa. destruct (m s) as [s1 [x|e]]; [eauto|discriminate]. Qed.
  Lemma draws_seqa {A B} c c' (m : act (T := T) A) (k : A -> act B) : draws c m -> (forall x, draws c' (k x)) ->
    (forall s s', later s s' -> c' (i_heap s') = c' (i_heap s)) -> draws (fun h => c h + c' h)%nat (seqa m k).
  Proof.
    intros Hm Hk Hc s s' y E. apply seqa_inv in E as (s1 & x & E1 & E2). destruct (Hm _ _ _ E1) as [D1 L1]. destruct (Hk x _ _ _ E2) as [D2 L2].
    split; [rewrite D2, D1, (Hc _ _ L1); lia|eapply later_trans; eauto].
  Qed.
  Definition none : list inode -> nat := fun _ => 0%nat.
  Lemma draws_ext {A} c c' (m : act (T := T) A) : (forall h, c h = c' h) -> draws c m -> draws c' m.
  Proof. intros E D s s' x Em. destruct (D _ _ _ Em). split; [now rewrite <- E|assumption]. Qed.
  Lemma draws_then {A B} c (m : act (T := T) A) (k : A -> act B) : draws none m -> (forall x, draws c (k x)) -> (forall s s', later s s' -> c (i_heap s') = c (i_heap s)) -> draws c (seqa m k).
  Proof. intros Hm Hk Hc. eapply draws_ext; [|eapply draws_seqa; eauto]. reflexivity. Qed.
  Lemma none_later (s s' : ist) : later s s' -> none (i_heap s') = none (i_heap s). Proof. reflexivity. Qed.
  Lemma draws_quiet {A B} (m : act (T := T) A) (k : A -> act B) : draws none m -> (forall x, draws none (k x)) -> draws none (seqa m k).
  Proof. intros Hm Hk. apply draws_then; auto using none_later. Qed.
  Lemma quiet_lift A (x : result A) : draws none (lift x). Proof. intros s s' y E. injection E as <- _. split; [unfold none; lia|apply later_refl]. Qed.
  Lemma quiet_pure A (x : A) : draws none (pure x). Proof. exact (quiet_lift A (Ok x)). Qed.
  Lemma quiet_self a : draws none (self a). Proof. intros s s' y E. injection E as <- _. split; [unfold none; lia|apply later_refl]. Qed.
  Lemma quiet_has_dim a name : draws none (node_has_dim a name).
  Proof. apply draws_quiet; [apply quiet_self|intros; apply quiet_pure]. Qed.
  Lemma quiet_get_dim a name : draws none (node_get_dim a name).
  Proof. apply draws_quiet; [apply quiet_self|intros; apply quiet_lift]. Qed.
  Lemma quiet_set_dim a name v : draws none (node_set_dim a name v).
  Proof.
    intros s s' x E. pose proof (grows_set_dim a name v s) as L. rewrite E in L. split; [|exact L]. rewrite set_dim_run in E.
    destruct (nth_error (i_heap s) a); [|discriminate]. injection E as <- _. unfold none. cbn. lia.
  Qed.
  Lemma quiet_set_param a name v : draws none (node_set_param a name v).
  Proof.
    intros s s' x E. pose proof (grows_set_param a name v s) as L. rewrite E in L. split; [|exact L]. rewrite set_param_run in E.
    destruct (nth_error (i_heap s) a); [|discriminate]. injection E as <-. unfold none. cbn. lia.
  Qed.
  Create HintDb dr.
  Hint Resolve quiet_lift quiet_pure quiet_self quiet_has_dim quiet_get_dim quiet_set_dim quiet_set_param : dr.
  Lemma draws_initializer shape : draws (fun _ => 1%nat) (initializer draw shape).
  Proof. intros s s' x E. pose proof (grows_initializer draw shape s) as L. rewrite E in L. split; [|exact L]. unfold initializer in E. injection E as <- _. cbn. lia. Qed.
  Lemma quiet_copy a name l : draws none (copy_dim (T := T) a name l).
  Proof. apply draws_quiet; [auto with dr|]. intros h. destruct (truthy h); [|auto with dr]. apply draws_quiet; auto with dr. Qed.
  Hint Resolve quiet_copy : dr.
  Lemma draws_pick {A B} (m : act (T := T) A) (k : A -> act B) c c' : draws none m -> (forall x, draws c (k x)) -> (forall h, c h = c') -> draws (fun _ => c') (seqa m k).
  Proof. intros Hm Hk Hc s s' y E. apply seqa_inv in E as (s1 & x & E1 & E2). destruct (Hm _ _ _ E1) as [D1 L1]. destruct (Hk x _ _ _ E2) as [D2 L2].
    split; [rewrite D2, D1, Hc; unfold none; lia|eapply later_trans; eauto]. Qed.
  Lemma draws_const {A B} c c' (m : act (T := T) A) (k : A -> act B) : draws (fun _ => c) m -> (forall x, draws (fun _ => c') (k x)) -> draws (fun _ => c + c')%nat (seqa m k).
  Proof. intros Hm Hk. exact (draws_seqa (fun _ => c) (fun _ => c') m k Hm Hk (fun _ _ _ => eq_refl)). Qed.
  Lemma draws_leaf a : draws (fun h => leaf_calls h a) (leaf_init draw to_int a None None).
  Proof.
    intros s s' x E. pose proof (grows_leaf draw to_int a None None s) as L. rewrite E in L. split; [|exact L]. unfold leaf_init in E. apply seqa_inv in E as (s1 & n & E1 & E2). unfold self in E1.
    destruct (nth_error (i_heap s) a) as [n0|] eqn:En; [|discriminate]. injection E1 as <- <-. unfold leaf_calls. rewrite En.
    assert (DD : draws (fun _ => 2%nat) (dense_init draw to_int a None None)).
    { unfold dense_init, with_width.
      do 4 (eapply (draws_const 0); [auto with dr|intros ?]). eapply (draws_const 1 1); [apply draws_initializer|intros ?].
      do 2 (eapply (draws_const 0); [auto with dr|intros ?]). eapply (draws_const 1 0); [apply draws_initializer|intros ?]. auto with dr. }
    destruct (n_func n0) as [|[|[|[|[|k]]]]]; try exact (proj1 (DD _ _ _ E2)).
    - clear DD. assert (DD : draws (fun _ => 2%nat) (maxout_init draw to_int a None None)).
      { unfold maxout_init, with_width.
        do 5 (eapply (draws_const 0); [auto with dr|intros ?]). eapply (draws_const 1 1); [apply draws_initializer|intros ?].
        do 3 (eapply (draws_const 0); [auto with dr|intros ?]). eapply (draws_const 1 0); [apply draws_initializer|intros ?]. auto with dr. }
      exact (proj1 (DD _ _ _ E2)).
    - clear DD. assert (DD : draws none (layernorm_init to_int a None None)).
      { unfold layernorm_init, with_width. do 3 (apply draws_quiet; [auto with dr|intros ?]). apply draws_quiet; [destruct (truthy _); auto with dr|intros ?].
        do 5 (apply draws_quiet; [auto with dr|intros ?]). auto with dr. }
      exact (proj1 (DD _ _ _ E2)).
    - injection E2 as <- _. lia.
  Qed.
  Notation as_sub := (fun q => mkSub (addr_of q) (initialize draw to_int numpy q) (predict numpy q)).
  Definition counted (p : net) : Prop := draws (fun h => calls h p) (initialize draw to_int numpy p None None).
  Lemma sum_later (s s' : ist) ps : later s s' -> list_sum (map (calls (i_heap s')) ps) = list_sum (map (calls (i_heap s)) ps).
  Proof. intros L. f_equal. apply map_ext. intros p. now apply calls_later. Qed.
  Lemma draws_each ps : Forall counted ps -> draws (fun h => list_sum (map (calls h) ps)) (each (fun l => s_init l None None) (map as_sub ps)).
  Proof.
    induction 1 as [|p ps Hp _ IH]; cbn; [apply quiet_pure|].
    apply (draws_seqa (fun h => calls h p) (fun h => list_sum (map (calls h) ps))); [exact Hp|intros; exact IH|]. intros; now apply sum_later.
  Qed.
  Lemma draws_walk ps : Forall counted ps -> forall Y, Y = None -> draws (fun h => list_sum (map (calls h) ps)) (chain_walk (map as_sub ps) None Y).
  Proof.
    intros F Y ->. induction F as [|p ps Hp _ IH]; cbn; [apply quiet_pure|].
    apply draws_then; [auto with dr|intros h|intros; f_equal; [now apply calls_later|now apply sum_later]].
    apply (draws_seqa (fun h => calls h p) (fun h => list_sum (map (calls h) ps))); [destruct h; exact Hp|intros _|intros; now apply sum_later].
    intros s s' x E. exact (IH s s' x E).
  Qed.
  Lemma draws_tuplify_walk ps : Forall counted ps -> forall i, draws (fun h => list_sum (map (calls h) ps)) (tuplify_walk (map as_sub ps) i None None).
  Proof.
    induction 1 as [|p ps Hp _ IH]; intros i; cbn; [apply quiet_pure|].
    apply draws_then; [auto with dr|intros h|intros; f_equal; [now apply calls_later|now apply sum_later]].
    apply (draws_seqa (fun h => calls h p) (fun h => list_sum (map (calls h) ps))); [exact Hp|intros _; apply IH|intros; now apply sum_later].
  Qed.
  Lemma quiet_head ls : draws none (head_of (T := T) ls). Proof. apply quiet_lift. Qed.
  Lemma quiet_last ls : draws none (last_of (T := T) ls). Proof. apply quiet_lift. Qed.
  Hint Resolve quiet_head quiet_last : dr.
  Lemma quiet_all_have name ls : draws none (all_have (T := T) name ls).
  Proof. induction ls as [|l ls IH]; cbn; [auto with dr|]. apply draws_quiet; [auto with dr|intros ?]. apply draws_quiet; [exact IH|auto with dr]. Qed.
  Lemma quiet_sum name ls : draws none (sum_dims (T := T) name ls).
  Proof. induction ls as [|l ls IH]; cbn; [auto with dr|]. apply draws_quiet; [auto with dr|intros ?]. apply draws_quiet; [exact IH|auto with dr]. Qed.
  Hint Resolve quiet_all_have quiet_sum : dr.
  Lemma draws_after {A B} c (m : act (T := T) A) (k : A -> act B) : draws c m -> (forall x, draws none (k x)) -> draws c (seqa m k).
  Proof. intros Hm Hk. eapply draws_ext; [|eapply draws_seqa; [exact Hm|exact Hk|apply none_later]]. intros h. unfold none. lia. Qed.
  Ltac quiet := repeat first [solve [auto with dr] | apply draws_quiet; [|intros ?]].
  Lemma draws_init p : counted p.
  Proof.
    induction p as [a|a ps IH|a ps IH|a ps IH|a q IHp|a ps IH] using net_ind'; unfold counted; cbn [calls initialize].
    - apply draws_leaf.
    - unfold chain_init. eapply (draws_ext (fun h => list_sum (map (calls h) ps) + list_sum (map (calls h) ps))%nat); [intros; lia|].
      apply draws_seqa; [|intros _|intros; now apply sum_later].
      { apply draws_after; [now apply draws_each|intros _]. quiet. }
      apply draws_after; [now apply draws_walk|intros out]. quiet. destruct x1; [auto with dr|].
      intros s s' u0 E. destruct (seqa _ _ s) as [s1 [u|e]] eqn:E1.
      + injection E as <- <-. revert E1. apply draws_quiet; auto with dr.
      + assert (S1 : e = ValueError -> s1 = s \/ (i_draws s1 = i_draws s /\ later s s1)).
        { intros ->. right. pose proof (grows_seqa (lift match out with Some y => get_width to_int y | None => Err ValueError end) (fun w => node_set_dim a "nO" w) (grows_lift _) (grows_set_dim a "nO") s) as L.
          rewrite E1 in L. split; [|exact L]. unfold seqa, lift in E1. destruct (match out with Some y => get_width to_int y | None => Err ValueError end) as [w|]; [|now injection E1 as <- _].
          rewrite set_dim_run in E1. destruct (nth_error (i_heap s) a); [|discriminate]. now injection E1 as <- _. }
        destruct e; try discriminate. assert (Q : draws none (seqa (last_of (map as_sub ps)) (fun last => copy_dim a "nO" last))) by quiet.
        destruct (Q _ _ _ E) as [D L]. destruct (S1 eq_refl) as [->|[D1 L1]]; [auto|]. split; [unfold none in *; lia|eapply later_trans; eauto].
    - unfold add_init, with_width. apply draws_then; [auto with dr|intros _|intros; now apply sum_later]. apply draws_then; [auto with dr|intros _|intros; now apply sum_later].
      apply draws_after; [now apply draws_each|intros _]. quiet.
    - unfold concat_init, with_width. apply draws_then; [auto with dr|intros _|intros; now apply sum_later].
      apply draws_after; [now apply draws_each|intros _]. apply draws_quiet; [auto with dr|intros b]. destruct b; quiet.
    - unfold residual_init. apply draws_then; [apply quiet_has_dim|intros h|intros; now apply calls_later].
      apply draws_after; [destruct h; exact IHp|intros _]. quiet.
    - unfold tuplify_init. eapply (draws_ext (fun h => list_sum (map (calls h) ps) + list_sum (map (calls h) ps))%nat); [intros; lia|].
      apply draws_seqa; [|intros _|intros; now apply sum_later].
      { apply draws_after; [now apply draws_each|intros _]. quiet. }
      apply draws_after; [now apply draws_tuplify_walk|intros _]. quiet.
  Qed.
  Lemma init_draws p s s' : initialize draw to_int numpy p None None s = (s', Ok tt) -> i_draws s' = (i_draws s + calls (i_heap s) p)%nat.
  Proof. intros E. exact (proj1 (draws_init p s s' tt E)). Qed.
End Frame.
