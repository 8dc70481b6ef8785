(** Initialization: what the dims of wrappers are afterwards, and what single layers do with the data. *)
From Coq Require Import String Lia.
From Verif Require Import Base BaseFacts DictModel DictFacts NodeModel InitModel InitSpec InitProofs InitFrameProofs WInitModel WInitSpec WInitProofs WInitShapeProofs.
Set Default Goal Selector "!".
Local Open Scope string_scope.

Lemma in_dkeys_dget {V} (name : string) (d : dict string V) : In name (dkeys d) -> exists v, dget name d = Some v.
Proof.
  induction d as [|[k v] d IH]; cbn; [intros []|]. intros [E|Hin]; (destruct (eqd name k) as [->|Hn]; [eauto|]); [congruence|auto].
Qed.

Section Wrap.
  Context {T : Type} `{Num T} `{Trans T}.
  Notation act := (act (T := T)).
  Notation inode := (inode (T := T)).
  Notation ist := (ist (T := T)).
  Notation sub := (sub (T := T)).
  Variable draw : nat -> list Z -> result (arr T).
  Variable to_int : T -> Z.
  Variable conv : conversion -> value T -> result (value T).
  Variable fwd : list inode -> wnet -> value T -> result (value T).
  Notation winit := (winitialize draw to_int conv fwd).

  (** ** Wrappers that copy all dims *)
  Lemma if_some_run (f : value T -> result (value T)) X (s : ist) : if_some f X s = (s, conv_opt f X).
  Proof. destruct X as [x|]; cbn; [|reflexivity]. unfold seqa, lift. now destruct (f x). Qed.

  Definition agree (L : list string) (w n : inode) : Prop := forall name, In name L -> dget name (n_dims w) = dget name (n_dims n).
  Lemma mirrors_set (w n : inode) name v : mirrors w n -> dget name (n_dims n) = Some (Some v) ->
    exists w', set_dim w name v false = (w', Ok tt) /\ mirrors w' n /\ dget name (n_dims w') = Some (Some v) /\ (forall k, k <> name -> dget k (n_dims w') = dget k (n_dims w)).
  Proof.
    intros [K M] D. assert (Hin : In name (dkeys (n_dims w))) by (rewrite K; exact (dget_some_key _ _ _ D)).
    unfold set_dim. destruct (dget name (n_dims w)) as [o|] eqn:E.
    2: { exfalso. apply in_dkeys_dget in Hin as (o & Eo). congruence. }
    assert (Hb : (match o with Some o0 => negb (o0 =? v)%Z | None => false end && (negb false || false && existsb (fun p => snd p) (n_has w)))%bool = false).
    { destruct o as [o|]; [|reflexivity]. specialize (M name o E). assert (o = v) by congruence. subst. now rewrite Z.eqb_refl. }
    rewrite Hb. eexists. split; [reflexivity|]. unfold mirrors. cbn -[dset dget dkeys]. split; [split|split].
    - rewrite dkeys_dset_mem; [exact K|exact Hin].
    - intros k u. rewrite dget_dset. destruct (eqd k name) as [->|]; [intros [= <-]; exact D|apply M].
    - apply dget_dset_same.
    - intros k Hk. now apply dget_dset_other.
  Qed.
  Lemma copy_loop a b (n : inode) L : forall s w, a <> b -> nth_error (i_heap s) a = Some w -> nth_error (i_heap s) b = Some n -> mirrors w n ->
    (forall name, In name L -> In name (dkeys (n_dims n))) ->
    exists s' w', each (fun name => seqa (self b) (fun n => match dget name (n_dims n) with Some (Some v) => node_set_dim a name v | _ => pure tt end)) L s = (s', Ok tt) /\
      nth_error (i_heap s') a = Some w' /\ mirrors w' n /\ agree L w' n /\ (forall k, dget k (n_dims w) = dget k (n_dims n) -> dget k (n_dims w') = dget k (n_dims n)) /\
      (forall c, c <> a -> nth_error (i_heap s') c = nth_error (i_heap s) c) /\ i_draws s' = i_draws s.
  Proof.
    induction L as [|name L IH]; intros s w Hab Ea Eb M HL.
    - exists s, w. cbn. split; [reflexivity|]. split; [exact Ea|]. split; [exact M|]. split; [intros k []|]. auto.
    - cbn [each]. unfold seqa at 1. unfold seqa at 1. unfold self at 1. rewrite Eb.
      assert (Hk : In name (dkeys (n_dims n))) by (apply HL; now left).
      destruct (in_dkeys_dget _ _ Hk) as (o & Eo). rewrite Eo. destruct o as [v|].
      + destruct (mirrors_set w n name v M Eo) as (w1 & Es & M1 & D1 & O1). rewrite set_dim_run, Ea, Es. cbn [fst snd].
        set (s1 := mkIst (set_nth a w1 (i_heap s)) (i_draws s)).
        assert (Ea1 : nth_error (i_heap s1) a = Some w1) by (cbn; rewrite nth_error_set_nth_eq; [reflexivity|apply nth_error_Some; congruence]).
        assert (Eb1 : nth_error (i_heap s1) b = Some n) by (cbn; rewrite nth_error_set_nth_neq by congruence; exact Eb).
        destruct (IH s1 w1 Hab Ea1 Eb1 M1 (fun k Hin => HL k (or_intror Hin))) as (s' & w' & Er & Ew & M' & Ag & Kp & Fr & Dr).
        exists s', w'. split; [exact Er|]. split; [exact Ew|]. split; [exact M'|]. split; [|split; [|split; [|exact Dr]]].
        * intros k [<-|Hin]; [apply Kp; congruence|now apply Ag].
        * intros k Ek. apply Kp. destruct (string_dec k name) as [->|Hn]; [congruence|]. now rewrite O1.
        * intros c Hc. rewrite Fr by exact Hc. cbn. apply nth_error_set_nth_neq. congruence.
      + destruct (IH s w Hab Ea Eb M (fun k Hin => HL k (or_intror Hin))) as (s' & w' & Er & Ew & M' & Ag & Kp & Fr & Dr).
        exists s', w'. split; [exact Er|]. split; [exact Ew|]. split; [exact M'|]. split; [|auto].
        intros k [<-|Hin]; [|now apply Ag]. apply Kp. rewrite Eo. destruct M as [K M]. assert (Hw : In name (dkeys (n_dims w))) by now rewrite K.
        destruct (in_dkeys_dget _ _ Hw) as (o & Eow). destruct o as [v|]; [|exact Eow]. specialize (M _ _ Eow). congruence.
  Qed.
  Lemma mirrors_later (w n n' : inode) : mirrors w n -> later_node n n' -> mirrors w n'.
  Proof. intros [K M] L. split; [rewrite K; symmetry; apply (later_dims _ _ L)|]. intros k v E. apply (later_kept _ _ L). now apply M. Qed.
  Lemma array_run c cv a p X Y X' Y' s s1 w n : (c = KArray /\ cv = CArray \/ c = KArray2d /\ cv = CArray2d) -> ~ In a (waddrs p) ->
    nth_error (i_heap s) a = Some w -> nth_error (i_heap s) (waddr p) = Some n -> mirrors w n ->
    conv_opt (conv cv) X = Ok X' -> conv_opt (conv cv) Y = Ok Y' -> winit p X' Y' s = (s1, Ok tt) ->
    exists s' w' n', winit (WNode c a [p]) X Y s = (s', Ok tt) /\ nth_error (i_heap s') a = Some w' /\ nth_error (i_heap s') (waddr p) = Some n' /\ same_dims w' n' /\
      (forall b, b <> a -> nth_error (i_heap s') b = nth_error (i_heap s1) b).
  Proof.
    intros Hc Ha Ea En M EX EY Ep. assert (Ear : a <> waddr p) by (intros ->; apply Ha, waddr_in).
    destruct (later_nth _ _ _ _ (winit_later draw to_int conv fwd p X' Y' s s1 _ Ep) En) as (n1 & En1 & L1).
    assert (Ea1 : nth_error (i_heap s1) a = Some w) by (rewrite (winit_frame draw to_int conv fwd p X' Y' s s1 _ a Ep Ha); exact Ea).
    pose proof (mirrors_later _ _ _ M L1) as M1.
    destruct (copy_loop a (waddr p) n1 (dkeys (n_dims n1)) s1 w Ear Ea1 En1 M1 (fun k Hk => Hk)) as (s' & w' & Er & Ew & M' & Ag & _ & Fr & _).
    exists s', w', n1.
    assert (Erun : winit (WNode c a [p]) X Y s = (s', Ok tt)).
    { assert (Eg : array_init conv a (map (fun q => mkSub (waddr q) (winit q) (wpredict fwd q)) [p]) cv X Y s = (s', Ok tt)).
      { unfold array_init. unfold pass_init, at_layer. cbn [nth_error map].
        unfold seqa at 1. unfold seqa at 1. rewrite if_some_run, EX. unfold seqa at 1. rewrite if_some_run, EY. cbn [s_init]. rewrite Ep.
        unfold copy_dims. cbn [s_addr]. unfold seqa at 1, self at 1. rewrite En1. exact Er. }
      destruct Hc as [[-> ->]|[-> ->]]; exact Eg. }
    split; [exact Erun|]. split; [exact Ew|]. split; [rewrite Fr by congruence; exact En1|]. split; [|exact Fr].
    intros name. destruct (in_dec string_dec name (dkeys (n_dims n1))) as [Hin|Hout]; [now apply Ag|].
    assert (Ew' : ~ In name (dkeys (n_dims w'))) by (destruct M' as [-> _]; exact Hout).
    destruct (dget name (n_dims w')) as [o|] eqn:E1; [elim Ew'; exact (dget_some_key _ _ _ E1)|].
    destruct (dget name (n_dims n1)) as [o|] eqn:E2; [elim Hout; exact (dget_some_key _ _ _ E2)|]. reflexivity.
  Qed.
  (** If the layer raises, so does the wrapper, and the wrapper's node is as before. *)
  Lemma array_raises c cv a p X Y X' Y' s s1 e : (c = KArray /\ cv = CArray \/ c = KArray2d /\ cv = CArray2d) ->
    conv_opt (conv cv) X = Ok X' -> conv_opt (conv cv) Y = Ok Y' -> winit p X' Y' s = (s1, Err e) -> winit (WNode c a [p]) X Y s = (s1, Err e).
  Proof.
    intros Hc EX EY Ep.
    assert (Eg : array_init conv a (map (fun q => mkSub (waddr q) (winit q) (wpredict fwd q)) [p]) cv X Y s = (s1, Err e)).
    { unfold array_init. unfold pass_init, at_layer. cbn [nth_error map].
      unfold seqa at 1. unfold seqa at 1. rewrite if_some_run, EX. unfold seqa at 1. rewrite if_some_run, EY. cbn [s_init]. now rewrite Ep. }
    destruct Hc as [[-> ->]|[-> ->]]; exact Eg.
  Qed.

  (** ** Wrappers that copy nI and nO *)
  Lemma copy_dim_run a b name l (s s' : ist) v : s_addr l = b -> copy_dim a name l s = (s', Ok tt) -> dim_at s b name = Some v -> dim_at s' a name = Some v.
  Proof.
    intros El E D. unfold copy_dim in E. apply seqa_inv in E as (s1 & h & E1 & E2). unfold node_has_dim, seqa, self, pure in E1. rewrite El in *.
    unfold dim_at, dim_of in D. destruct (nth_error (i_heap s) b) as [n|] eqn:En; [|discriminate]. injection E1 as <- <-.
    unfold has_dim in E2. destruct (dget name (n_dims n)) as [o|] eqn:Eo; [|discriminate]. subst o. cbn [truthy] in E2.
    apply seqa_inv in E2 as (s2 & u & E3 & E4). unfold node_get_dim, seqa, self, lift, get_dim in E3. rewrite En, Eo in E3. injection E3 as <- <-.
    rewrite set_dim_run in E4. destruct (nth_error (i_heap s) a) as [m|] eqn:Em; [|discriminate]. injection E4 as <- E4.
    unfold dim_at. cbn [i_heap]. rewrite nth_error_set_nth_eq by (apply nth_error_Some; congruence). unfold dim_of.
    unfold set_dim in *. destruct (dget name (n_dims m)) as [o|]; [|discriminate]. destruct (_ && _)%bool; [discriminate|]. cbn. now rewrite dget_dset_same.
  Qed.
  Lemma copy_dim_other a b name name' l (s s' : ist) : b <> a -> copy_dim a name l s = (s', Ok tt) -> dim_at s' b name' = dim_at s b name'.
  Proof.
    intros Hb E. pose proof (c_copy (@keeps T (fun c => c = a)) (fun c => c = a) (fun A B m k => keeps_seqa _ A B m k) (keeps_lift _) (keeps_self _) (keeps_set_dim _) a name l eq_refl s b Hb) as K.
    rewrite E in K. cbn in K. unfold dim_at. now rewrite K.
  Qed.
  Lemma two_copies a b l (s s' : ist) first second v : s_addr l = b -> a <> b -> seqa (copy_dim a first l) (fun _ => copy_dim a second l) s = (s', Ok tt) ->
    (forall name, name = first \/ name = second -> dim_at s' b name = Some v -> dim_at s' a name = Some v).
  Proof.
    intros El Hab E name Hn D. apply seqa_inv in E as (s1 & [] & E1 & E2). assert (Hba : b <> a) by congruence.
    rewrite (copy_dim_other a b second name l s1 s' Hba E2) in D. pose proof D as D0. rewrite (copy_dim_other a b first name l s s1 Hba E1) in D0.
    assert (L2 : later s1 s').
    { pose proof (c_copy (@grows T) (fun _ => True) (fun A B m k => grows_seqa m k) (fun A x => grows_lift x) grows_self (fun a name v _ => grows_set_dim a name v) a second l I s1) as L. now rewrite E2 in L. }
    destruct Hn as [-> | ->].
    - eapply later_dim; [exact L2|]. eapply copy_dim_run; eauto.
    - eapply copy_dim_run; [exact El|exact E2|exact D].
  Qed.
  Lemma copied_dims c a p X Y s s' : (c = KUniqued \/ c = KReshape \/ c = KResidual) -> a <> waddr p -> winit (WNode c a [p]) X Y s = (s', Ok tt) ->
    forall name v, name = "nI" \/ name = "nO" -> dim_at s' (waddr p) name = Some v -> dim_at s' a name = Some v.
  Proof.
    intros Hc Hab E name v Hn D. set (l := mkSub (waddr p) (winit p) (wpredict fwd p)).
    assert (Hend : exists s0 first second, (name = first \/ name = second) /\ seqa (copy_dim a first l) (fun _ => copy_dim a second l) s0 = (s', Ok tt)).
    { destruct Hc as [-> | [-> | ->]]; cbn in E.
      - unfold uniqued_init, at_layer in E. cbn in E. apply seqa_inv in E as (s1 & x & E1 & E2). eauto.
      - unfold reshape_init, at_layer in E. cbn in E. apply seqa_inv in E as (s1 & x & E1 & E2). apply seqa_inv in E2 as (s2 & x2 & E2 & E3).
        apply seqa_inv in E3 as (s3 & x3 & E3 & E4). apply seqa_inv in E4 as (s4 & x4 & E4 & E5). eauto.
      - unfold at_layer, residual_init in E. cbn in E. apply seqa_inv in E as (s1 & x & E1 & E2). apply seqa_inv in E2 as (s2 & x2 & E2 & E3).
        exists s2, "nO", "nI". split; [tauto|exact E3]. }
    destruct Hend as (s0 & first & second & Hn' & E'). exact (two_copies a (waddr p) l s0 s' first second v eq_refl Hab E' name Hn' D).
  Qed.

  (** ** Wrappers that never look again *)
  Lemma forgetful_kept c a ps X Y s s' r : forgetful c = true -> ~ In a (flat_map waddrs ps) -> winit (WNode c a ps) X Y s = (s', r) -> nth_error (i_heap s') a = nth_error (i_heap s) a.
  Proof.
    intros Hc Ha E. set (Sc := fun b => In b (flat_map waddrs ps)).
    assert (F : Forall (c_sub (@keeps T Sc) Sc) (map (fun q => mkSub (waddr q) (winit q) (wpredict fwd q)) ps)).
    { apply Forall_forall. intros l Hl. apply in_map_iff in Hl as (q & <- & Hq). cbn.
      assert (Hs : forall b, In b (waddrs q) -> Sc b) by (intros b Hb; unfold Sc; apply in_flat_map; eauto).
      split; [apply Hs, waddr_in|]. split; [apply (w_keeps draw to_int conv fwd Sc q Hs)|]. intros X0 s0 b _. reflexivity. }
    assert (K : keeps Sc (node_init draw to_int conv c a (map (fun q => mkSub (waddr q) (winit q) (wpredict fwd q)) ps) X Y)).
    { destruct c; try discriminate Hc; cbn [node_init].
      - apply (w_pass conv (@keeps T Sc) Sc); auto; [apply keeps_seqa|apply keeps_lift].
      - apply (w_pass conv (@keeps T Sc) Sc); auto; [apply keeps_seqa|apply keeps_lift].
      - apply (w_same (@keeps T Sc) Sc); auto. apply keeps_lift.
      - apply (w_same (@keeps T Sc) Sc); auto. apply keeps_lift. }
    cbn in E. specialize (K s a Ha). now rewrite E in K.
  Qed.
End Wrap.
