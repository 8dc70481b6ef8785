(** Initialization of wrappers and of the other layers with parameters: what it never changes, and shapes. *)
From Coq Require Import String Lia.
From Verif Require Import Base BaseFacts DictModel DictFacts NodeModel InitModel InitSpec InitProofs InitFrameProofs WInitModel WInitSpec.
Set Default Goal Selector "!".
Local Open Scope string_scope.

Section WNet.
  Variable P : wnet -> Prop.
  Hypothesis HL : forall a, P (WLeaf a).
  Hypothesis HN : forall c a ps, Forall P ps -> P (WNode c a ps).
  Lemma wnet_ind' : forall p, P p.
  Proof.
    fix IH 1. intros [a|c a ps]; [apply HL|apply HN]. induction ps as [|q ps IHps]; constructor; [apply IH|exact IHps].
  Qed.
End WNet.
Lemma waddr_in p : In (waddr p) (waddrs p). Proof. destruct p; now left. Qed.

Section Closed.
  Context {T : Type} `{Num T} `{Trans T}.
  Notation act := (act (T := T)).
  Notation sub := (sub (T := T)).
  Variable draw : nat -> list Z -> result (arr T).
  Variable to_int : T -> Z.
  Variable conv : conversion -> value T -> result (value T).
  Variable fwd : list (inode (T := T)) -> wnet -> value T -> result (value T).
  Variable G : forall A, act A -> Prop.
  Variable Sc : addr -> Prop.
  Hypothesis Gseqa : forall A B (m : act A) (k : A -> act B), G A m -> (forall x, G B (k x)) -> G B (seqa m k).
  Hypothesis Glift : forall A (x : result A), G A (lift x).
  Hypothesis Gself : forall a, G _ (self a).
  Hypothesis Gset_dim : forall a name v, Sc a -> G _ (node_set_dim a name v).
  Hypothesis Gcatch : forall (m k : act unit), G _ m -> G _ k -> G _ (fun s => match m s with (s', Err ValueError) => k s' | r => r end).
  Hypothesis Gleaf : forall a X Y, Sc a -> G _ (wleaf_init draw to_int a X Y).
  Hypothesis Gquery : forall a, Sc a -> G _ (query_init draw a).
  Hypothesis Gpredict : forall p X, G _ (wpredict fwd p X).
  Notation csub := (c_sub G Sc).

  Lemma w_pure A (x : A) : G A (pure x). Proof. exact (Glift A (Ok x)). Qed.
  Lemma w_has_dim a name : G _ (node_has_dim a name). Proof. apply c_has_dim; assumption. Qed.
  Lemma w_get_dim a name : G _ (node_get_dim a name). Proof. apply c_get_dim; assumption. Qed.
  Lemma w_copy a name (l : sub) : Sc a -> G _ (copy_dim a name l). Proof. intros Ha. now apply (c_copy G Sc). Qed.
  Lemma w_if_some A B (f : A -> result B) X : G _ (if_some f X).
  Proof. destruct X; cbn; [apply Gseqa; [apply Glift|intros; apply w_pure]|apply w_pure]. Qed.
  Lemma w_at A (ls : list sub) i (k : sub -> act A) : Forall csub ls -> (forall l, csub l -> G _ (k l)) -> G _ (at_layer ls i k).
  Proof.
    intros F Hk. unfold at_layer. destruct (nth_error ls i) as [l|] eqn:E; [|exact (Glift A (Err IndexError))].
    apply Hk. apply (proj1 (Forall_forall _ _) F). eapply nth_error_In; exact E.
  Qed.
  Create HintDb wc.
  Hint Resolve w_pure Glift Gself Gset_dim w_has_dim w_get_dim w_copy w_if_some Gquery : wc.
  Ltac wgo := repeat first [solve [auto with wc] | apply Gseqa; [|intros ?]].
  Lemma w_pass ls cX cY X Y : Forall csub ls -> G _ (pass_init conv ls cX cY X Y).
  Proof. intros F. apply w_at; [exact F|]. intros l (_ & Hi & _). wgo. Qed.
  Lemma w_copy_dims a (l : sub) : Sc a -> G _ (copy_dims a l).
  Proof.
    intros Ha. apply Gseqa; [auto with wc|intros n]. apply (c_each G); [exact Gseqa|exact Glift|]. apply Forall_forall. intros name _.
    apply Gseqa; [auto with wc|intros m]. destruct (dget name (n_dims m)) as [[v|]|]; auto with wc.
  Qed.
  Lemma w_array a ls c X Y : Sc a -> Forall csub ls -> G _ (array_init conv a ls c X Y).
  Proof. intros Ha F. apply Gseqa; [now apply w_pass|intros _]. apply w_at; [exact F|]. intros l _. now apply w_copy_dims. Qed.
  Lemma w_reshape a ls X Y : Sc a -> Forall csub ls -> G _ (reshape_init conv a ls X Y).
  Proof.
    intros Ha F. apply w_at; [exact F|]. intros l (_ & Hi & _). apply Gseqa; [destruct X, Y; auto with wc|intros _]. wgo.
  Qed.
  Lemma w_getitem ls i X Y : Forall csub ls -> G _ (getitem_init ls i X Y).
  Proof. intros F. unfold getitem_init. wgo. apply w_at; [exact F|]. intros l (_ & Hi & _). auto. Qed.
  Lemma w_map_list ls X Y : Forall csub ls -> G _ (map_list_init ls X Y).
  Proof. intros F. apply w_at; [exact F|]. intros l (_ & Hi & _). wgo. Qed.
  Lemma w_uniqued a ls X Y : Sc a -> Forall csub ls -> G _ (uniqued_init a ls X Y).
  Proof. intros Ha F. apply w_at; [exact F|]. intros l (_ & Hi & _). wgo. Qed.
  Lemma w_same ls X Y : Forall csub ls -> G _ (same_init ls X Y).
  Proof. intros F. apply w_at; [exact F|]. intros l (_ & Hi & _). auto. Qed.
  Lemma w_siamese a ls X Y : Sc a -> Forall csub ls -> G _ (siamese_init to_int a ls X Y).
  Proof.
    intros Ha F. apply Gseqa.
    - destruct X as [X|]; [|auto with wc]. apply w_at; [exact F|]. intros l (Hl & Hi & Hp). wgo.
    - intros X'. apply w_at; [exact F|]. intros l (Hl & Hi & Hp). wgo. apply w_at; [exact F|]. intros l' (Hl' & Hi' & Hp'). wgo.
  Qed.
  Lemma w_bidirectional ls X Y : Forall csub ls -> G _ (bidirectional_init ls X Y).
  Proof.
    intros F. unfold bidirectional_init. wgo. apply w_at; [exact F|]. intros l (_ & Hi & _). wgo. apply w_at; [exact F|]. intros l' (_ & Hi' & _). auto.
  Qed.
  Lemma w_attention2 a ls X Y : Sc a -> Forall csub ls -> G _ (attention2_init draw to_int a ls X Y).
  Proof.
    intros Ha F. apply w_at; [exact F|]. intros l (Hl & Hi & _). apply Gseqa; [auto with wc|intros w].
    apply Gseqa; [|intros _; wgo]. destruct w as [w|]; [|auto with wc]. destruct (w =? 0)%Z; [auto with wc|].
    wgo. match goal with |- context [if ?b then _ else _] => destruct b end; auto with wc.
  Qed.
  Lemma w_node c a ls X Y : Sc a -> Forall csub ls -> G _ (node_init draw to_int conv c a ls X Y).
  Proof.
    intros Ha F. destruct c; cbn [node_init];
    try solve [now apply w_pass | now apply w_array | now apply w_reshape | now apply w_getitem | now apply w_map_list | now apply w_uniqued
              | now apply w_same | now apply w_siamese | now apply w_bidirectional | now apply w_attention2].
    - now apply (c_chain to_int G Sc).
    - now apply (c_add to_int G Sc).
    - now apply (c_concat to_int G Sc).
    - apply w_at; [exact F|]. intros l Hl. now apply (c_residual G Sc).
    - now apply (c_tuplify G Sc).
  Qed.
  Notation as_sub := (fun q => mkSub (waddr q) (winitialize draw to_int conv fwd q) (wpredict fwd q)).
  Lemma w_subs ps : Forall (fun q => (forall a, In a (waddrs q) -> Sc a) -> forall X Y, G _ (winitialize draw to_int conv fwd q X Y)) ps ->
    (forall b, In b (flat_map waddrs ps) -> Sc b) -> Forall csub (map as_sub ps).
  Proof.
    intros F HS. induction F as [|q qs Hq _ IH]; constructor.
    - cbn. split; [apply HS; cbn; apply in_or_app; left; apply waddr_in|]. split; [|apply Gpredict].
      apply Hq. intros b Hb. apply HS. cbn. apply in_or_app. now left.
    - apply IH. intros b Hb. apply HS. cbn. apply in_or_app. now right.
  Qed.
  Lemma w_init p : (forall a, In a (waddrs p) -> Sc a) -> forall X Y, G _ (winitialize draw to_int conv fwd p X Y).
  Proof.
    induction p as [a|c a ps IH] using wnet_ind'; intros HS X Y; cbn [winitialize waddrs] in *.
    - apply Gleaf, HS. now left.
    - apply w_node; [apply HS; now left|]. apply w_subs; [exact IH|]. intros b Hb. apply HS. now right.
  Qed.
End Closed.

Section Leaves.
  Context {T : Type} `{Num T} `{Trans T}.
  Notation act := (act (T := T)).
  Notation inode := (inode (T := T)).
  Notation ist := (ist (T := T)).
  Variable draw : nat -> list Z -> result (arr T).
  Variable to_int : T -> Z.
  (** Leaves, for predicates that do not look at the values of parameters. *)
  Section Any.
    Variable G : forall A, act A -> Prop.
    Variable Sc : addr -> Prop.
    Hypothesis Gseqa : forall A B (m : act A) (k : A -> act B), G A m -> (forall x, G B (k x)) -> G B (seqa m k).
    Hypothesis Glift : forall A (x : result A), G A (lift x).
    Hypothesis Gself : forall a, G _ (self a).
    Hypothesis Gset_dim : forall a name v, Sc a -> G _ (node_set_dim a name v).
    Hypothesis Gset_param : forall a name v, Sc a -> G _ (node_set_param a name v).
    Hypothesis Ginitializer : forall sh, G _ (initializer draw sh).
    Hypothesis Gold : forall a X Y, Sc a -> G _ (leaf_init draw to_int a X Y).
    Lemma a_pure A (x : A) : G A (pure x). Proof. exact (Glift A (Ok x)). Qed.
    Lemma a_has_dim a name : G _ (node_has_dim a name). Proof. apply c_has_dim; assumption. Qed.
    Lemma a_get_dim a name : G _ (node_get_dim a name). Proof. apply c_get_dim; assumption. Qed.
    Lemma a_width X f : (forall w, G _ (f w)) -> G _ (with_width to_int X f).
    Proof. intros Hf. destruct X; cbn; [apply Gseqa; auto|apply a_pure]. Qed.
    Create HintDb wa.
    Hint Resolve a_pure Glift Gself Gset_dim Gset_param Ginitializer a_has_dim a_get_dim a_width : wa.
    Ltac ago := repeat first [solve [auto with wa] | apply Gseqa; [|intros ?]].
    Lemma a_fill a name X : Sc a -> G _ (fill_dim to_int a name X).
    Proof. intros Ha. destruct X; cbn; [|auto with wa]. ago. match goal with |- context [match ?b with _ => _ end] => destruct b end; ago. Qed.
    Hint Resolve a_fill : wa.
    Lemma a_draw_all shs : G _ (draw_all draw shs).
    Proof. induction shs as [|sh r IH]; cbn; ago. Qed.
    Hint Resolve a_draw_all : wa.
    Lemma a_query a : Sc a -> G _ (query_init draw a).
    Proof. intros Ha. unfold query_init. ago. Qed.
    Lemma a_leaf a X Y : Sc a -> G _ (wleaf_init draw to_int a X Y).
    Proof.
      intros Ha. unfold wleaf_init. apply Gseqa; [auto with wa|intros n]. pose proof (Gold a X Y Ha) as GO.
      generalize (n_func n) as k. intros k. do 10 (destruct k as [|k]; [exact GO|]).
      destruct k as [|k]; [unfold sigmoid_init; ago|]. destruct k as [|k]; [unfold multisoftmax_init; ago|].
      destruct k as [|k]; [unfold embed_init; ago|]. destruct k as [|k]; [unfold hashembed_init; ago|].
      destruct k as [|k]; [unfold cauchy_init; apply Gseqa; [destruct X; ago|intros _; ago]|].
      destruct k as [|k]; [unfold attention_init; apply Gseqa; [auto with wa|intros _; now apply a_query]|].
      destruct k as [|k]; [unfold sparselinear_init; ago|]. destruct k as [|k]; [unfold lstm_init; ago|]. exact GO.
    Qed.
  End Any.

  Variable conv : conversion -> value T -> result (value T).
  Variable fwd : list inode -> wnet -> value T -> result (value T).
  Lemma w_grows p X Y : grows (winitialize draw to_int conv fwd p X Y).
  Proof.
    apply (w_init draw to_int conv fwd (@grows T) (fun _ => True)); auto.
    - intros; now apply grows_seqa.
    - intros; apply grows_lift.
    - apply grows_self.
    - intros; apply grows_set_dim.
    - apply grows_catch.
    - intros a X0 Y0 _. apply (a_leaf (@grows T) (fun _ => True)); auto; intros; first [now apply grows_seqa|apply grows_lift|apply grows_self|apply grows_set_dim|apply grows_set_param|apply grows_initializer|apply grows_leaf].
    - intros a _. apply (a_query (@grows T) (fun _ => True)); auto; intros; first [now apply grows_seqa|apply grows_lift|apply grows_self|apply grows_set_dim|apply grows_set_param|apply grows_initializer].
    - intros q X0 s. apply later_refl.
  Qed.
  Lemma winit_later p X Y s s' r : winitialize draw to_int conv fwd p X Y s = (s', r) -> later s s'.
  Proof. intros E. pose proof (w_grows p X Y s) as L. now rewrite E in L. Qed.
  Lemma w_keeps (Sc : addr -> Prop) p : (forall a, In a (waddrs p) -> Sc a) -> forall X Y, keeps Sc (winitialize draw to_int conv fwd p X Y).
  Proof.
    apply (w_init draw to_int conv fwd (@keeps T Sc) Sc).
    - intros; now apply keeps_seqa.
    - intros; apply keeps_lift.
    - apply keeps_self.
    - intros; now apply keeps_set_dim.
    - apply keeps_catch.
    - intros a X0 Y0 Ha. apply (a_leaf (@keeps T Sc) Sc); auto; intros; first [now apply keeps_seqa|apply keeps_lift|apply keeps_self|now apply keeps_set_dim|now apply keeps_set_param|apply keeps_initializer|now apply keeps_leaf].
    - intros a Ha. apply (a_query (@keeps T Sc) Sc); auto; intros; first [now apply keeps_seqa|apply keeps_lift|apply keeps_self|now apply keeps_set_dim|now apply keeps_set_param|apply keeps_initializer].
    - intros q X0 s a Ha. reflexivity.
  Qed.
  Lemma winit_frame p X Y s s' r a : winitialize draw to_int conv fwd p X Y s = (s', r) -> ~ In a (waddrs p) -> nth_error (i_heap s') a = nth_error (i_heap s) a.
  Proof. intros E Ha. pose proof (w_keeps (fun b => In b (waddrs p)) p (fun b Hb => Hb) X Y s a Ha) as K. now rewrite E in K. Qed.
End Leaves.
