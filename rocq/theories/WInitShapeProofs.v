(** Initialization: the shapes of the parameters of the remaining layers. *)
From Coq Require Import String Lia.
From Verif Require Import Base BaseFacts DictModel DictFacts NodeModel InitModel InitSpec InitProofs InitFrameProofs WInitModel WInitSpec WInitProofs.
Set Default Goal Selector "!".
Local Open Scope string_scope.

Section Shapes.
  Context {T : Type} `{Num T} `{Trans T}.
  Notation act := (act (T := T)).
  Notation inode := (inode (T := T)).
  Notation ist := (ist (T := T)).
  Variable draw : nat -> list Z -> result (arr T).
  Variable to_int : T -> Z.
  Variable conv : conversion -> value T -> result (value T).
  Variable fwd : list inode -> wnet -> value T -> result (value T).

  (** ** One node changes, and it is not subject to the rules *)
  Lemma only_at {A} (Q : inode -> Prop) (m : act A) a s n : grows m -> keeps (fun b => b = a) m -> Forall Q (i_heap s) ->
    nth_error (i_heap s) a = Some n -> (forall n', later_node n n' -> Q n') -> Forall Q (i_heap (fst (m s))).
  Proof.
    intros Gm Km F En Hn. apply Forall_forall. intros n' Hin. apply In_nth_error in Hin as [b Eb].
    destruct (Nat.eq_dec b a) as [->|Hb].
    - destruct (later_nth _ _ _ _ (Gm s) En) as (n'' & E' & L). rewrite E' in Eb. injection Eb as <-. now apply Hn.
    - rewrite (Km s b Hb) in Eb. apply (proj1 (Forall_forall _ _) F). eapply nth_error_In; exact Eb.
  Qed.
  Lemma grows_wleaf a X Y : grows (wleaf_init draw to_int a X Y).
  Proof. apply (a_leaf draw to_int (@grows T) (fun _ => True)); auto; intros; first [now apply grows_seqa|apply grows_lift|apply grows_self|apply grows_set_dim|apply grows_set_param|apply grows_initializer|apply grows_leaf]. Qed.
  Lemma keeps_wleaf a X Y : keeps (fun b => b = a) (wleaf_init draw to_int a X Y).
  Proof. apply (a_leaf draw to_int (@keeps T (fun b => b = a)) (fun b => b = a)); auto; intros; first [now apply keeps_seqa|apply keeps_lift|apply keeps_self|now apply keeps_set_dim|now apply keeps_set_param|apply keeps_initializer|now apply keeps_leaf]. Qed.

  (** ** Triples for the rules *)
  Lemma ruled_dims (n : inode) name v : ruled_node n -> ruled_node (fst (set_dim n name v false)).
  Proof.
    intros S param x names f. pose proof (set_dim_later n name v) as L.
    assert (Ep : n_params (fst (set_dim n name v false)) = n_params n).
    { unfold set_dim. destruct (dget name (n_dims n)) as [o|]; [|reflexivity]. now match goal with |- context [if ?b then _ else _] => destruct b end. }
    rewrite Ep. assert (Ef : n_func (fst (set_dim n name v false)) = n_func n) by apply (later_rest _ _ L). rewrite Ef.
    intros D E. destruct (S param x names f D E) as (zs & F & Hs). exists zs. split; [|exact Hs].
    eapply Forall2_weak; [|exact F]. cbv beta. intros k z. apply (later_kept _ _ L).
  Qed.
  Lemma ruled_param (n : inode) name x : ruled_node n ->
    (forall names f, shape_rule (n_func n) name = Some (names, f) -> exists zs, Forall2 (fun k z => dget k (n_dims n) = Some (Some z)) names zs /\ has_shape x (f zs)) ->
    ruled_node (set_param n name (Some x)).
  Proof.
    intros S Hx param y names f. cbn. rewrite dget_dset. destruct (eqd param name) as [->|].
    - intros [= <-] E. exact (Hx names f E).
    - apply S.
  Qed.
  Definition tri2 {A} (P : ist -> Prop) (m : act A) (Q : A -> ist -> Prop) : Prop :=
    forall s, all_ruled s -> P s -> all_ruled (fst (m s)) /\ later s (fst (m s)) /\ forall x, snd (m s) = Ok x -> Q x (fst (m s)).
  Lemma r_seq {A B} P (m : act A) Q (k : A -> act B) R : tri2 P m Q -> (forall x, tri2 (Q x) (k x) R) -> tri2 P (seqa m k) R.
  Proof.
    intros Hm Hk s Ss Ps. unfold seqa. destruct (Hm s Ss Ps) as (S1 & L1 & Q1). destruct (m s) as [s1 [x|e]]; cbn in *.
    - destruct (Hk x s1 S1 (Q1 x eq_refl)) as (S2 & L2 & Q2). repeat split; auto. eapply later_trans; eauto.
    - repeat split; auto. discriminate.
  Qed.
  Lemma r_weaken {A} (P P' : ist -> Prop) (m : act A) (Q Q' : A -> ist -> Prop) : tri2 P' m Q' -> (forall s, P s -> P' s) -> (forall x s, Q' x s -> Q x s) -> tri2 P m Q.
  Proof. intros Hm HP HQ s Ss Ps. destruct (Hm s Ss (HP s Ps)) as (?&?&?). repeat split; auto. Qed.
  Lemma r_lift {A} P (r : result A) : tri2 P (lift r) (fun x s => P s /\ r = Ok x).
  Proof. intros s Ss Ps. cbn. repeat split; auto using later_refl. Qed.
  Lemma r_pure {A} P (x : A) : tri2 P (pure x) (fun _ s => P s).
  Proof. intros s Ss Ps. cbn. repeat split; auto using later_refl. Qed.
  Lemma r_self P a : tri2 P (self a) (fun n s => P s /\ nth_error (i_heap s) a = Some n).
  Proof. intros s Ss Ps. cbn. repeat split; auto using later_refl. destruct (nth_error (i_heap s) a); congruence. Qed.
  Lemma r_get_dim P a name : tri2 P (node_get_dim a name) (fun v s => P s /\ dim_at s a name = Some v).
  Proof.
    intros s Ss Ps. unfold node_get_dim, seqa, self, lift, dim_at, dim_of, get_dim.
    destruct (nth_error (i_heap s) a) as [n|] eqn:E; cbn; (split; [exact Ss|split; [apply later_refl|]]); intros v; [|discriminate].
    rewrite E. destruct (dget name (n_dims n)) as [[w|]|]; intros Hx; (split; [exact Ps|congruence]).
  Qed.
  Lemma r_has_dim P a name : tri2 P (node_has_dim a name) (fun _ s => P s).
  Proof.
    intros s Ss Ps. unfold node_has_dim, seqa, self, pure. destruct (nth_error (i_heap s) a) as [n|] eqn:E; cbn; (split; [exact Ss|split; [apply later_refl|]]); auto.
  Qed.
  Lemma r_set_dim P a name v : stable P -> tri2 P (node_set_dim a name v) (fun _ s => P s).
  Proof.
    intros St s Ss Ps. pose proof (grows_set_dim a name v s) as L. rewrite set_dim_run in *.
    destruct (nth_error (i_heap s) a) as [n|] eqn:E; cbn [fst snd] in *.
    - split; [|split; [exact L|]].
      + unfold all_ruled. cbn. apply Forall_set_nth; [exact Ss|]. apply ruled_dims.
        apply (proj1 (Forall_forall _ _) Ss). eapply nth_error_In; exact E.
      + intros [] Hok. exact (St _ _ L Ps).
    - repeat split; auto; discriminate.
  Qed.
  Lemma r_set_param P a name x : stable P ->
    (forall s, P s -> exists k, kind_at a k s /\ forall names f, shape_rule k name = Some (names, f) ->
       exists zs, Forall2 (fun d z => dim_at s a d = Some z) names zs /\ has_shape x (f zs)) ->
    tri2 P (node_set_param a name x) (fun _ s => P s).
  Proof.
    intros St HP s Ss Ps. pose proof (grows_set_param a name x s) as L. rewrite set_param_run in *.
    destruct (HP s Ps) as (k & (n & E & K) & Hx). rewrite E in *. cbn [fst snd] in *. split; [|split; [exact L|]].
    - unfold all_ruled. cbn. apply Forall_set_nth; [exact Ss|]. apply ruled_param.
      { apply (proj1 (Forall_forall _ _) Ss). eapply nth_error_In; exact E. }
      intros ns f Ens. rewrite K in Ens. destruct (Hx ns f Ens) as (zs & F & Hs). exists zs. split; [|exact Hs].
      eapply Forall2_weak; [|exact F]. cbv beta. intros d z D. unfold dim_at, dim_of in D. rewrite E in D.
      destruct (dget d (n_dims n)); congruence.
    - intros [] _. exact (St _ _ L Ps).
  Qed.
  Lemma r_set_last (P : ist -> Prop) a name x :
    (forall s, P s -> exists k, kind_at a k s /\ forall names f, shape_rule k name = Some (names, f) ->
       exists zs, Forall2 (fun d z => dim_at s a d = Some z) names zs /\ has_shape x (f zs)) ->
    tri2 P (node_set_param a name x) (fun _ _ => True).
  Proof.
    intros HP s Ss Ps. set (P' := fun t => later s t). assert (St : stable P') by (intros t t' L Lt; eapply later_trans; eauto).
    assert (HP' : forall t, P' t -> exists k, kind_at a k t /\ forall names f, shape_rule k name = Some (names, f) ->
       exists zs, Forall2 (fun d z => dim_at t a d = Some z) names zs /\ has_shape x (f zs)).
    { intros t Lt. destruct (HP s Ps) as (k & HK & Hx). exists k. split; [exact (stable_kind a k _ _ Lt HK)|]. intros ns f E.
      destruct (Hx ns f E) as (zs & F & Hs). exists zs. split; [|exact Hs]. eapply Forall2_weak; [|exact F]. cbv beta. intros d z. now apply later_dim. }
    destruct (r_set_param P' a name x St HP' s Ss (later_refl s)) as (A1 & A2 & _). auto.
  Qed.
  Hypothesis HD : shape_ok draw.
  Lemma r_initializer P shape : stable P -> tri2 P (initializer draw shape) (fun x s => P s /\ has_shape x shape).
  Proof.
    intros St s Ss Ps. pose proof (grows_initializer draw shape s) as L. cbn in *. split; [exact Ss|split; [exact L|]].
    intros x E. split; [exact (St _ _ L Ps)|exact (HD _ _ _ E)].
  Qed.
  Lemma r_width P X a name : stable P -> tri2 P (with_width to_int X (node_set_dim a name)) (fun _ s => P s).
  Proof.
    intros St. destruct X as [x|]; cbn [with_width]; [|apply r_pure].
    eapply r_seq; [apply r_lift|]. intros w. eapply r_weaken; [apply (r_set_dim P); exact St| |]; cbv beta; tauto.
  Qed.
  Lemma r_fill P X a name : stable P -> tri2 P (fill_dim to_int a name X) (fun _ s => P s).
  Proof.
    intros St. destruct X as [x|]; cbn [fill_dim]; [|apply r_pure]. eapply r_seq; [apply r_has_dim|]. cbv beta. intros h.
    destruct h as [b|]; [apply r_pure|]. eapply r_seq; [apply r_lift|]. intros w. eapply r_weaken; [apply (r_set_dim P); exact St| |]; cbv beta; tauto.
  Qed.
  Lemma alloc_shape zs x : alloc_zeros (T := T) zs = Ok x -> has_shape x zs.
  Proof.
    unfold alloc_zeros. destruct (forallb (fun z => 0 <=? z)%Z zs) eqn:E; [|discriminate]. intros [= <-]. split.
    - apply Forall_forall. intros z Hz. apply Z.leb_le. exact (proj1 (forallb_forall _ _) E z Hz).
    - split; [reflexivity|]. cbn. apply repeat_length.
  Qed.
  Ltac stab := repeat first [apply stable_and | apply stable_dim | apply stable_kind | apply stable_const].
  Ltac step := first [apply r_width; stab | apply r_fill; stab | apply r_get_dim | apply r_initializer; stab | apply r_lift].
  Lemma r_sigmoid a X Y : tri2 (kind_at a 10) (sigmoid_init draw to_int a X Y) (fun _ s => True).
  Proof.
    unfold sigmoid_init. do 2 (eapply r_seq; [step|intros ?; cbv beta]). do 3 (eapply r_seq; [step|intros ?; cbv beta]).
    eapply r_seq; [apply r_set_param; [stab|]|intros ?; cbv beta].
    { cbv beta. intros s (((HK & HO) & HI) & HW). exists 10%nat. split; [exact HK|]. cbn. intros ? ? [= <- <-].
      eexists. split; [constructor; [exact HO|constructor; [exact HI|constructor]]|exact HW]. }
    do 2 (eapply r_seq; [step|intros ?; cbv beta]).
    apply r_set_last. cbv beta.
    intros s (((((HK & HO) & HI) & HW) & HO') & HB). exists 10%nat. split; [exact HK|]. cbn. intros ? ? [= <- <-].
    eexists. split; [constructor; [exact HO'|constructor]|exact HB].
  Qed.

  Lemma r_multisoftmax a X Y : tri2 (kind_at a 11) (multisoftmax_init to_int a X Y) (fun _ s => True).
  Proof.
    unfold multisoftmax_init. do 4 (eapply r_seq; [step|intros ?; cbv beta]).
    eapply r_seq; [apply r_set_param; [stab|]|intros ?; cbv beta].
    { cbv beta. intros s (((HK & HO) & HI) & HW). exists 11%nat. split; [exact HK|]. cbn. intros ? ? [= <- <-].
      eexists. split; [constructor; [exact HO|constructor; [exact HI|constructor]]|exact (alloc_shape _ _ HW)]. }
    eapply r_seq; [step|intros ?; cbv beta].
    apply r_set_last. cbv beta.
    intros s ((((HK & HO) & HI) & HW) & HB). exists 11%nat. split; [exact HK|]. cbn. intros ? ? [= <- <-].
    eexists. split; [constructor; [exact HO|constructor]|exact (alloc_shape _ _ HB)].
  Qed.
  Lemma r_table a k : (k = 12 \/ k = 13)%nat -> tri2 (kind_at a k)
    (seqa (node_get_dim a "nV") (fun nV => seqa (node_get_dim a "nO") (fun nO => seqa (initializer draw [nV; nO]) (fun E => node_set_param a "E" E)))) (fun _ s => True).
  Proof.
    intros Hk. do 3 (eapply r_seq; [step|intros ?; cbv beta]).
    apply r_set_last. cbv beta.
    intros s (((HK & HV) & HO) & HE). exists k. split; [exact HK|]. destruct Hk as [-> | ->]; cbn; intros ? ? [= <- <-];
    (eexists; split; [constructor; [exact HV|constructor; [exact HO|constructor]]|exact HE]).
  Qed.
  Lemma r_embed a X Y : tri2 (kind_at a 12) (embed_init draw to_int a X Y) (fun _ s => True).
  Proof. unfold embed_init. eapply r_seq; [step|intros ?; cbv beta]. apply r_table. now left. Qed.
  Lemma r_hashembed a X Y : tri2 (kind_at a 13) (hashembed_init draw a X Y) (fun _ s => True).
  Proof. apply r_table. now right. Qed.
  Lemma r_cauchy a X Y : tri2 (kind_at a 14) (cauchy_init to_int a X Y) (fun _ s => True).
  Proof.
    unfold cauchy_init. eapply (r_seq _ _ (fun _ => kind_at a 14)).
    { destruct X as [x|]; [|apply r_pure]. do 2 (eapply r_seq; [step|intros ?; cbv beta]).
      eapply (r_weaken _ (kind_at a 14) _ _ (fun _ => kind_at a 14)); [apply r_set_dim; apply stable_kind|cbv beta; tauto|auto]. }
    intros _. cbv beta. do 2 (eapply r_seq; [step|intros ?; cbv beta]).
    apply r_set_last. cbv beta.
    intros s ((HK & HI) & HW). exists 14%nat. split; [exact HK|]. cbn. intros ? ? [= <- <-].
    exists [x]. split; [apply Forall2_cons; [exact HI|apply Forall2_nil]|exact (filled_shape to_int _ _ _ HW)].
  Qed.
  (** "Q" only has the rule [nO], whatever the kind. *)
  Lemma Q_rule k names f : shape_rule k "Q" = Some (names, f) -> names = ["nO"] /\ f = (fun zs => zs).
  Proof. do 19 (destruct k as [|k]; [cbn; intros E; try discriminate E; injection E as <- <-; auto|]). discriminate. Qed.
  Lemma r_query a : tri2 (fun s => exists n, nth_error (i_heap s) a = Some n) (query_init draw a) (fun _ s => True).
  Proof.
    assert (St : stable (fun s : ist => exists n, nth_error (i_heap s) a = Some n)).
    { intros s s' L (n & E). destruct (later_nth _ _ _ _ L E) as (n' & E' & _). now exists n'. }
    unfold query_init. eapply r_seq; [step|intros ?; cbv beta]. eapply r_seq; [apply r_initializer; apply stable_and; [exact St|stab]|intros ?; cbv beta].
    apply r_set_last. cbv beta.
    intros s (((n & En) & HO) & HQ). exists (n_func n). split; [exists n; auto|]. intros names f E. apply Q_rule in E as [-> ->].
    eexists. split; [constructor; [exact HO|constructor]|exact HQ].
  Qed.
  Lemma r_attention a X Y : tri2 (kind_at a 15) (attention_init draw to_int a X Y) (fun _ s => True).
  Proof.
    unfold attention_init. eapply r_seq; [step|intros ?; cbv beta]. eapply r_weaken; [apply r_query| |auto]. intros s (n & E & _). now exists n.
  Qed.
  Lemma r_sparse a X Y : tri2 (kind_at a 16) (sparselinear_init to_int a X Y) (fun _ s => True).
  Proof.
    unfold sparselinear_init. do 4 (eapply r_seq; [step|intros ?; cbv beta]).
    eapply r_seq; [apply r_set_param; [stab|]|intros ?; cbv beta].
    { cbv beta. intros s (((HK & HO) & HI) & HW). exists 16%nat. split; [exact HK|]. cbn. intros ? ? [= <- <-].
      eexists. split; [constructor; [exact HO|constructor; [exact HI|constructor]]|exact (alloc_shape _ _ HW)]. }
    eapply r_seq; [step|intros ?; cbv beta].
    apply r_set_last. cbv beta.
    intros s ((((HK & HO) & HI) & HW) & HB). exists 16%nat. split; [exact HK|]. cbn. intros ? ? [= <- <-].
    eexists. split; [constructor; [exact HO|constructor]|exact (alloc_shape _ _ HB)].
  Qed.

  (** ** The LSTM *)
  Lemma r_draw_all P shs : stable P -> tri2 P (draw_all draw shs) (fun xs s => P s /\ Forall2 (fun x sh => has_shape x sh) xs shs).
  Proof.
    intros St. induction shs as [|sh r IH]; cbn [draw_all].
    - intros s Ss Ps. cbn. split; [exact Ss|split; [apply later_refl|]]. intros x [= <-]. split; [exact Ps|constructor].
    - eapply r_seq; [apply r_initializer; exact St|intros x; cbv beta].
      eapply (r_seq _ _ (fun xs s => P s /\ Forall2 (fun x sh => has_shape x sh) (x :: xs) (sh :: r))).
      + intros s Ss [Ps Hx]. destruct (IH s Ss Ps) as (A1 & A2 & A3). split; [exact A1|split; [exact A2|]]. intros xs E. destruct (A3 xs E). split; [assumption|]. now constructor.
      + intros xs s Ss Hs. cbn. split; [exact Ss|split; [apply later_refl|]]. intros ys [= <-]. exact Hs.
  Qed.
  Definition vol (sh : list Z) : Z := fold_right Z.mul 1%Z sh.
  Definition vols (shs : list (list Z)) : Z := fold_right Z.add 0%Z (map vol shs).
  Lemma vols_app a b : vols (a ++ b)%list = (vols a + vols b)%Z.
  Proof. unfold vols. rewrite map_app. induction (map vol a) as [|x l IH]; cbn; [reflexivity|]. lia. Qed.
  Lemma vol_volume sh : Forall (fun z => 0 <= z)%Z sh -> Z.of_nat (volume (map Z.to_nat sh)) = vol sh.
  Proof. unfold volume, vol. induction 1 as [|z l Hz _ IH]; cbn -[Z.of_nat]; [reflexivity|]. rewrite Nat2Z.inj_mul, IH. lia. Qed.
  Lemma drawn_size (xs : list (arr T)) shs : Forall2 (fun x sh => has_shape x sh) xs shs -> Z.of_nat (length (concat (map a_data xs))) = vols shs.
  Proof.
    induction 1 as [|x sh xs shs (Hp & _ & Hl) F IH]; [reflexivity|]. cbn. rewrite app_length, Nat2Z.inj_add, IH, Hl, vol_volume by exact Hp. reflexivity.
  Qed.
  Lemma vols_repeat l n : vols (concat (repeat l n)) = (Z.of_nat n * vols l)%Z.
  Proof. induction n as [|n IH]; [reflexivity|]. cbn [repeat concat]. rewrite vols_app, IH. lia. Qed.
  Lemma lstm_dir_vols nH nI : vols (lstm_dir nH nI) = (4 * (nH * nI + nH * nH + 2 * nH))%Z.
  Proof. unfold lstm_dir, vols. cbn -[Z.mul Z.add]. ring. Qed.
  Lemma lstm_vols_rest d dirs nH : (0 <= dirs)%Z -> vols (lstm_shapes d dirs nH (nH * dirs)) = (Z.of_nat d * (dirs * (4 * (nH * (nH * dirs) + nH * nH + 2 * nH))))%Z.
  Proof.
    intros Hd. induction d as [|d IH]; [reflexivity|]. cbn [lstm_shapes]. rewrite vols_app, vols_repeat, IH, lstm_dir_vols, Z2Nat.id by exact Hd. rewrite Nat2Z.inj_succ. unfold Z.succ. ring.
  Qed.
  Lemma lstm_vols d dirs nH nI : (0 <= dirs)%Z ->
    vols (lstm_shapes (S d) dirs nH nI) = (dirs * (4 * (nH * nI + nH * nH + 2 * nH)) + Z.of_nat d * (dirs * (4 * (nH * (nH * dirs) + nH * nH + 2 * nH))))%Z.
  Proof. intros Hd. cbn [lstm_shapes]. rewrite vols_app, vols_repeat, lstm_vols_rest, lstm_dir_vols, Z2Nat.id by exact Hd. ring. Qed.
  Lemma fold_add c n e : fold_left (fun e (_ : unit) => (e + c)%Z) (repeat tt n) e = (e + Z.of_nat n * c)%Z.
  Proof. revert e. induction n as [|n IH]; intros e; cbn [repeat fold_left]; [cbn; lia|]. rewrite IH, Nat2Z.inj_succ. unfold Z.succ. ring. Qed.
  Lemma lstm_expected_closed depth dirs nH nI : (1 <= depth)%Z -> lstm_expected depth dirs nH nI =
    (dirs * (4 * (nH * nI + nH * nH + 2 * nH)) + (depth - 1) * (dirs * (4 * (nH * (nH * dirs) + nH * nH + 2 * nH))))%Z.
  Proof. intros Hd. unfold lstm_expected. rewrite fold_add. rewrite Z2Nat.id by lia. ring. Qed.
  Lemma lstm_shapes_nil depth dirs nH nI : lstm_shapes (Z.to_nat depth) dirs nH nI <> [] -> (1 <= depth /\ 1 <= dirs)%Z.
  Proof.
    intros Hn. destruct (Z.to_nat depth) as [|d] eqn:Ed; [now destruct Hn|]. split; [lia|].
    destruct (Z.to_nat dirs) as [|e] eqn:Ee; [|lia]. exfalso. apply Hn. clear Hn Ed. revert nI. induction d as [|d IH]; intros nI; cbn; rewrite Ee; cbn; [reflexivity|].
    specialize (IH (nH * dirs)%Z). cbn in IH. rewrite Ee in IH. exact IH.
  Qed.
  (** The pieces together have the size that is asserted. *)
  Lemma lstm_pieces (xs : list (arr T)) depth dirs nH nI : xs <> [] -> Forall2 (fun x sh => has_shape x sh) xs (lstm_shapes (Z.to_nat depth) dirs nH nI) ->
    Z.of_nat (length (concat (map a_data xs))) = lstm_expected depth dirs nH nI /\ (1 <= depth /\ 1 <= dirs)%Z.
  Proof.
    intros Hx F. assert (Hn : (1 <= depth /\ 1 <= dirs)%Z).
    { apply (lstm_shapes_nil depth dirs nH nI). intros E. rewrite E in F. inversion F. congruence. }
    split; [|exact Hn]. rewrite (drawn_size _ _ F), lstm_expected_closed by lia.
    replace (Z.to_nat depth) with (S (Z.to_nat (depth - 1))) by lia. rewrite lstm_vols by lia. rewrite Z2Nat.id by lia. reflexivity.
  Qed.
  Lemma r_lstm a X Y : tri2 (kind_at a 17) (lstm_init draw to_int a X Y) (fun _ s => True).
  Proof.
    unfold lstm_init. do 2 (eapply r_seq; [step|intros ?; cbv beta]).
    eapply r_seq; [step|intros nO; cbv beta]. eapply r_seq; [step|intros dirs0; cbv beta]. eapply r_seq; [step|intros nH; cbv beta].
    eapply r_seq; [step|intros nI; cbv beta]. eapply r_seq; [step|intros depth; cbv beta]. eapply r_seq; [step|intros dirs; cbv beta].
    eapply r_seq; [apply r_draw_all; stab|intros params; cbv beta]. eapply r_seq; [step|intros all; cbv beta].
    set (P := fun s : ist => kind_at a 17 s /\ dim_at s a "nO" = Some nO /\ dim_at s a "dirs" = Some dirs /\ dim_at s a "nI" = Some nI /\ dim_at s a "depth" = Some depth /\
      nH = Z.quot nO dirs /\ Z.of_nat (length all) = lstm_expected depth dirs nH nI /\ (1 <= depth)%Z).
    assert (StP : stable P) by (unfold P; stab).
    eapply (r_weaken _ P _ _ (fun _ _ => True)); [| |auto].
    - eapply r_seq; [apply r_set_param; [exact StP|]|intros ?; cbv beta].
      { intros s (HK & HO & Hd & HI & Hn & -> & Hl & Hge). exists 17%nat. split; [exact HK|]. cbn. intros ? ? [= <- <-].
        eexists. split; [constructor; [exact HO|constructor; [exact Hd|constructor; [exact HI|constructor; [exact Hn|constructor]]]]|].
        unfold lstm_size. rewrite lstm_expected_closed in Hl by exact Hge. rewrite <- Hl. unfold has_shape. cbn. rewrite Nat2Z.id.
        split; [constructor; [lia|constructor]|split; [reflexivity|lia]]. }
      eapply r_seq; [step|intros HC0; cbv beta].
      eapply r_seq; [apply r_set_param; [apply stable_and; [exact StP|stab]|]|intros ?; cbv beta].
      { intros s ((HK & HO & Hd & HI & Hn & EH & _) & HA). exists 17%nat. split; [exact HK|]. cbn. intros ? ? [= <- <-].
        eexists. split; [constructor; [exact HO|constructor; [exact Hd|constructor; [exact Hn|constructor]]]|]. cbv beta iota. rewrite <- EH. exact (alloc_shape _ _ HA). }
      eapply r_seq; [apply r_self|intros n; cbv beta]. eapply r_seq; [apply r_lift|intros p; cbv beta]. eapply r_weaken; [apply r_lift|intros s Hs; exact Hs|auto].
    - intros s ((((((((HK & HO) & Hd0) & HH) & HI) & Hn) & Hd) & F) & Ha). rewrite Hd0 in Hd. injection Hd as <-.
      destruct (dirs0 =? 0)%Z; [discriminate|]. injection HH as <-. destruct params as [|q qs]; [discriminate|].
      destruct (lstm_pieces (q :: qs) depth dirs0 (Z.quot nO dirs0) nI ltac:(discriminate) F) as [Hl Hge]. assert (Eall : all = concat (map a_data (q :: qs))) by congruence.
      unfold P. rewrite Eall, Hl. split; [exact HK|]. repeat split; auto. apply Hge.
  Qed.

  (** ** All together *)
  Lemma r_leaf a X Y : tri2 (fun _ => True) (wleaf_init draw to_int a X Y) (fun _ _ => True).
  Proof.
    intros s Ss _. unfold wleaf_init, seqa, self. destruct (nth_error (i_heap s) a) as [n|] eqn:En; cbn [fst snd].
    2: { split; [exact Ss|split; [apply later_refl|auto]]. }
    assert (OLD : shape_rule (n_func n) = (fun _ => None) -> all_ruled (fst (leaf_init draw to_int a X Y s)) /\ later s (fst (leaf_init draw to_int a X Y s)) /\
      (forall x, snd (leaf_init draw to_int a X Y s) = Ok x -> True)).
    { intros Er. split; [|split; [apply grows_leaf|auto]]. eapply only_at; [apply grows_leaf|now apply keeps_leaf|exact Ss|exact En|].
      intros n' L param x names f _ E. assert (Ef : n_func n' = n_func n) by apply (later_rest _ _ L). rewrite Ef, Er in E. discriminate. }
    assert (NEW : forall k m, n_func n = k -> tri2 (kind_at a k) m (fun _ _ => True) -> all_ruled (fst (m s)) /\ later s (fst (m s)) /\ (forall x : unit, snd (m s) = Ok x -> True)).
    { intros k m Ek Hm. apply Hm; [exact Ss|]. exists n. auto. }
    assert (NONE : n_func n = 18%nat -> leaf_init draw to_int a X Y s = (s, Ok tt)).
    { intros Ek. unfold leaf_init, seqa, self. rewrite En, Ek. reflexivity. }
    revert OLD NEW NONE. generalize (n_func n) as k. intros k OLD NEW NONE. do 10 (destruct k as [|k]; [now apply OLD|]).
    destruct k as [|k]; [apply (NEW 10%nat); [reflexivity|apply r_sigmoid]|]. destruct k as [|k]; [apply (NEW 11%nat); [reflexivity|apply r_multisoftmax]|].
    destruct k as [|k]; [apply (NEW 12%nat); [reflexivity|apply r_embed]|]. destruct k as [|k]; [apply (NEW 13%nat); [reflexivity|apply r_hashembed]|].
    destruct k as [|k]; [apply (NEW 14%nat); [reflexivity|apply r_cauchy]|]. destruct k as [|k]; [apply (NEW 15%nat); [reflexivity|apply r_attention]|].
    destruct k as [|k]; [apply (NEW 16%nat); [reflexivity|apply r_sparse]|]. destruct k as [|k]; [apply (NEW 17%nat); [reflexivity|apply r_lstm]|].
    destruct k as [|k]; [|now apply OLD]. rewrite (NONE eq_refl). cbn. split; [exact Ss|split; [apply later_refl|auto]].
  Qed.
  Definition rules {A} (m : act A) : Prop := tri2 (fun _ => True) m (fun _ _ => True).
  Lemma rules_query a : rules (query_init draw a).
  Proof.
    intros s Ss _. destruct (nth_error (i_heap s) a) as [n|] eqn:En; [apply r_query; eauto|]. unfold query_init, node_get_dim, seqa, self.
    rewrite En. cbn. split; [exact Ss|split; [apply later_refl|auto]].
  Qed.
  Lemma rules_init p X Y : rules (winitialize draw to_int conv fwd p X Y).
  Proof.
    apply (w_init draw to_int conv fwd (@rules) (fun _ => True)); auto.
    - intros A B m k Hm Hk. eapply r_seq; [exact Hm|exact Hk].
    - intros A x. eapply r_weaken; [apply r_lift|intros s Hs; exact Hs|auto].
    - intros a. eapply r_weaken; [apply r_self|intros s Hs; exact Hs|auto].
    - intros a name v _. eapply r_weaken; [apply r_set_dim, stable_true|intros s Hs; exact Hs|auto].
    - intros m k Hm Hk s Ss _. destruct (Hm s Ss I) as (S1 & L1 & _). destruct (m s) as [s' [x|[]]]; cbn in *; try (repeat split; auto; fail).
      destruct (Hk s' S1 I) as (S2 & L2 & _). repeat split; auto. eapply later_trans; eauto.
    - intros a X0 Y0 _. apply r_leaf.
    - intros a _. apply rules_query.
    - intros q X0 s Ss _. cbn. repeat split; auto using later_refl.
  Qed.
  Lemma winit_ruled p X Y s s' r : all_ruled s -> winitialize draw to_int conv fwd p X Y s = (s', r) -> all_ruled s'.
  Proof. intros Ss E. destruct (rules_init p X Y s Ss I) as (S' & _). now rewrite E in S'. Qed.

  (** ** The shapes of C58 *)
  Lemma safe_new a X Y : safe (wleaf_init draw to_int a X Y).
  Proof.
    intros s Ss _. split; [|split; [apply grows_wleaf|auto]].
    destruct (nth_error (i_heap s) a) as [n|] eqn:En.
    2: { unfold wleaf_init, seqa, self. rewrite En. exact Ss. }
    assert (OLD : all_sized (fst (leaf_init draw to_int a X Y s))) by (destruct (tri_leaf draw to_int HD a X Y s Ss I) as (A & _); exact A).
    assert (NEW : shape_names (n_func n) = (fun _ => None) -> all_sized (fst (wleaf_init draw to_int a X Y s))).
    { intros Er. eapply only_at; [apply grows_wleaf|apply keeps_wleaf|exact Ss|exact En|]. intros n' L param x names _ E.
      assert (Ef : n_func n' = n_func n) by apply (later_rest _ _ L). rewrite Ef, Er in E. discriminate. }
    assert (RUN : (n_func n <= 4)%nat -> wleaf_init draw to_int a X Y s = leaf_init draw to_int a X Y s).
    { intros Hk. unfold wleaf_init, seqa, self. rewrite En. revert Hk. generalize (n_func n) as k. intros k Hk. do 5 (destruct k as [|k]; [reflexivity|]). lia. }
    destruct (le_dec (n_func n) 4) as [Hk|Hk]; [now rewrite RUN|]. apply NEW. revert Hk. generalize (n_func n) as k. intros k Hk. do 5 (destruct k as [|k]; [lia|]). reflexivity.
  Qed.
  Lemma safe_query a : safe (query_init draw a).
  Proof.
    assert (NQ : forall k, shape_names k "Q" = None) by (intros k; do 5 (destruct k as [|k]; [reflexivity|]); reflexivity).
    intros s Ss _. pose proof (a_query draw (@grows T) (fun _ => True) (fun A B m k Hm Hk => grows_seqa m k Hm Hk) (fun A x => grows_lift x) grows_self (fun a name v _ => grows_set_param a name v) (grows_initializer draw) a I) as L.
    split; [|split; [apply L|auto]]. clear L. unfold query_init, node_get_dim, seqa, self, initializer, lift. destruct (nth_error (i_heap s) a) as [n|] eqn:En; [|exact Ss].
    destruct (get_dim n "nO") as [nO|]; [|exact Ss]. destruct (draw (i_draws s) [nO]) as [Q|]; [|exact Ss]. rewrite set_param_run. cbn [i_heap]. rewrite En. cbn [fst].
    unfold all_sized. cbn [i_heap]. apply Forall_set_nth; [exact Ss|]. apply sized_param; [apply (proj1 (Forall_forall _ _) Ss); eapply nth_error_In; exact En|].
    intros names. now rewrite NQ.
  Qed.
  Lemma wsafe_init p X Y : safe (winitialize draw to_int conv fwd p X Y).
  Proof.
    apply (w_init draw to_int conv fwd (@safe T) (fun _ => True)); auto.
    - intros A B m k Hm Hk. eapply tri_seq; [exact Hm|exact Hk].
    - intros A x. eapply tri_post; [apply tri_lift|auto].
    - intros a. eapply tri_post; [apply tri_self|auto].
    - intros a name v _. eapply tri_post; [apply tri_set_dim, stable_true|auto].
    - apply tri_catch.
    - intros a X0 Y0 _. apply safe_new.
    - intros a _. apply safe_query.
    - intros q X0 s Ss _. cbn. repeat split; auto using later_refl.
  Qed.
  Lemma winit_sized p X Y s s' r : all_sized s -> all_ruled s -> winitialize draw to_int conv fwd p X Y s = (s', r) -> all_sized s' /\ all_ruled s'.
  Proof.
    intros S1 S2 E. split; [|exact (winit_ruled p X Y s s' r S2 E)]. destruct (wsafe_init p X Y s S1 I) as (S' & _). now rewrite E in S'.
  Qed.

  (** ** The assertion at the end of the initialization of LSTMs *)
  Lemma draw_all_run shs s s' xs : draw_all draw shs s = (s', Ok xs) -> Forall2 (fun x sh => has_shape x sh) xs shs /\ i_heap s' = i_heap s.
  Proof.
    revert s s' xs. induction shs as [|sh r IH]; intros s s' xs E; cbn [draw_all] in E.
    - injection E as <- <-. split; [constructor|reflexivity].
    - unfold seqa, initializer in E. destruct (draw (i_draws s) sh) as [x|] eqn:Ex; [|discriminate].
      destruct (draw_all draw r _) as [s1 [ys|]] eqn:Er; [|discriminate]. injection E as <- <-. apply IH in Er as [F Eh]. split; [constructor; [exact (HD _ _ _ Ex)|exact F]|exact Eh].
  Qed.
  Lemma draw_all_err shs s s' e : draw_all draw shs s = (s', Err e) -> exists n sh, draw n sh = Err e.
  Proof.
    revert s s'. induction shs as [|sh r IH]; intros s s' E; cbn [draw_all] in E; [discriminate|].
    unfold seqa, initializer in E. destruct (draw (i_draws s) sh) as [x|e'] eqn:Ex; [|injection E as _ <-; eauto].
    destruct (draw_all draw r _) as [s1 [ys|e']] eqn:Er; [discriminate|]. injection E as _ <-. eauto.
  Qed.
End Shapes.
