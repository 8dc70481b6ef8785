(** Proofs about data validation. *)
From Coq Require Import String Lia.
From Verif Require Import Base ValidModel ValidSpec.
Set Default Goal Selector "!".
Local Open Scope string_scope.

Lemma array_exact o nd dt o' : validate_array o nd dt = Ok o' <->
  o' = o /\ exists n d, o = OArr n d /\ (forall m, nd = Some m -> n = m) /\ (forall k, dt = Some k -> In d (expected_types k)).
Proof.
  assert (M : forall d k, existsb (fun x => if string_dec d x then true else false) (expected_types k) = true <-> In d (expected_types k)).
  { intros d k. rewrite existsb_exists. split; [intros (x & Hx & E)|intros Hd; exists d]; [destruct (string_dec d x); [now subst|discriminate]|]. split; [assumption|]. now destruct (string_dec d d). }
  destruct o as [|n d|l|l| |k]; cbn; try (split; [discriminate|intros (_ & n & d & E & _); discriminate]). split.
  - intros E. assert (C : complaints (OArr n d) nd dt = [] /\ o' = OArr n d).
    { cbn [complaints]. destruct (_ ++ _)%list; [|discriminate]. split; congruence. }
    destruct C as [C ->]. split; [reflexivity|]. exists n, d. split; [reflexivity|]. cbn in C. apply app_eq_nil in C as [C1 C2]. split.
    + intros m ->. destruct (Nat.eqb_spec n m); [assumption|discriminate].
    + intros k ->. apply M. destruct (existsb _ _); [reflexivity|discriminate].
  - intros (-> & n' & d' & [= <- <-] & Hn & Hd). destruct nd as [m|]; [rewrite (Hn m eq_refl), Nat.eqb_refl|]; cbn.
    + destruct dt as [k|]; [|reflexivity]. specialize (Hd k eq_refl). apply M in Hd. now rewrite Hd.
    + destruct dt as [k|]; [|reflexivity]. specialize (Hd k eq_refl). apply M in Hd. now rewrite Hd.
Qed.
Lemma never_type_error o nd dt e : validate_array o nd dt = Err e -> e = ValueError.
Proof. destruct o; cbn; try congruence. destruct (_ ++ _)%list; congruence. Qed.

Lemma in_firstn {A} (x : A) n l : In x (firstn n l) -> In x l.
Proof. intros Hx. rewrite <- (firstn_skipn n l). apply in_or_app. now left. Qed.

Section Valid.
  Variable other : nat -> obj -> bool.
  Notation accepts := (accepts other).
  Notation has_type := (has_type other).
  Fixpoint ann_size (t : ann) : nat :=
    match t with TList t => S (ann_size t) | TTuple ts | TUnion ts => S (list_sum (map ann_size ts)) | _ => 0 end.
  Lemma size_in t ts : In t ts -> ann_size t <= list_sum (map ann_size ts).
  Proof. unfold list_sum. induction ts as [|u ts IH]; cbn; [tauto|]. intros [->|Hi]; [lia|]. apply IH in Hi. lia. Qed.
  Definition zip := (fix zip (ts : list ann) (l : list obj) : bool :=
           match ts, l with [], [] => true | t :: ts, o :: l => accepts t o && zip ts l | _, _ => false end).
  Lemma accepts_exact t : forall o, accepts t o = true <-> has_type t o.
  Proof.
    assert (N : forall n t, ann_size t < n -> forall o, accepts t o = true <-> has_type t o).
    { induction n as [|n IH]; intros u Hn o; [lia|]. destruct u as [|nd dt|u|ts|ts| |k]; cbn [ValidModel.accepts].
      - split; [constructor|reflexivity].
      - destruct (validate_array o nd dt) as [o'|e] eqn:E.
        + split; [intros _|reflexivity]. apply array_exact in E as (_ & m & d & -> & H1 & H2). now apply (ht_array _ nd dt _ m d).
        + split; [discriminate|]. intros Ht. inversion Ht; subst. match goal with E : validate_array ?o _ _ = Err _ |- _ => enough (F : validate_array o nd dt = Ok o) by congruence end.
          apply array_exact. split; [reflexivity|]. eauto 6.
      - cbn in Hn. assert (L : forall l, forallb (accepts u) l = true <-> Forall (has_type u) l).
        { intros l. rewrite forallb_forall, Forall_forall. split; intros Hl x Hx; (apply (IH u); [lia|now apply Hl]). }
        destruct o as [| |l|l| |]; try (split; [discriminate|intros Ht; inversion Ht; subst; match goal with E : _ \/ _ |- _ => destruct E; discriminate end]).
        + rewrite L. split; [intros Hl; now apply (ht_list _ u _ l); [left|]|]. intros Ht. inversion Ht; subst. match goal with E : _ \/ _ |- _ => destruct E as [E|E]; injection E as -> || discriminate E end. assumption.
        + rewrite L. split; [intros Hl; now apply (ht_list _ u _ l); [right|]|]. intros Ht. inversion Ht; subst. match goal with E : _ \/ _ |- _ => destruct E as [E|E]; [discriminate E|injection E as ->] end. assumption.
      - assert (L : forall l, zip ts l = true <-> Forall2 has_type ts l).
        { cbn in Hn. unfold list_sum in Hn. revert Hn. induction ts as [|u ts IHts]; intros Hn [|o1 l]; cbn; try (split; [discriminate|intros F; inversion F]).
          - split; constructor.
          - cbn in Hn. rewrite Bool.andb_true_iff, (IH u) by lia. change ((fix zip _ _ {struct ts} := _) ts l) with (zip ts l) || fold zip. rewrite IHts by lia. split; [intros []; now constructor|intros F; inversion F; now split]. }
        fold zip. destruct o as [| |l|l| |]; try (split; [discriminate|intros Ht; inversion Ht; subst; match goal with E : _ \/ _ |- _ => destruct E; discriminate end]).
        + rewrite L. split; [intros Hl; now apply (ht_tuple _ ts _ l); [left|]|]. intros Ht. inversion Ht; subst. match goal with E : _ \/ _ |- _ => destruct E as [E|E]; injection E as -> || discriminate E end. assumption.
        + rewrite L. split; [intros Hl; now apply (ht_tuple _ ts _ l); [right|]|]. intros Ht. inversion Ht; subst. match goal with E : _ \/ _ |- _ => destruct E as [E|E]; [discriminate E|injection E as ->] end. assumption.
      - cbn in Hn. rewrite existsb_exists. split.
        + intros (u & Hu & E). apply (ht_union _ ts _ u Hu). apply (IH u); [|assumption]. apply size_in in Hu. lia.
        + intros Ht. inversion Ht; subst. eexists. split; [eassumption|]. apply IH; [|assumption]. match goal with H : In _ _ |- _ => apply size_in in H end. lia.
      - destruct o; (split; [try discriminate; intros _; constructor|intros Ht; inversion Ht; reflexivity]).
      - split; [apply ht_other|intros Ht; now inversion Ht]. }
    intros o. apply (N (S (ann_size t))). lia.
  Qed.

  Notation validate := (validate_fwd_input_output other).
  Lemma validate_ok p0 ax p2 ret X Y : validate (mkSig [p0; ax; p2] ret) X Y = Ok tt <->
    (forall x t, X = Some x -> ax = Some t -> has_type t (first_five x)) /\ (forall y t, Y = Some y -> ret = Some t -> has_type t (OTup [first_five y; OFunc])).
  Proof.
    unfold validate_fwd_input_output. cbn [sig_params sig_return].
    set (gx := match X, ax with Some X, Some t => accepts t (first_five X) | _, _ => true end).
    set (gy := match Y, ret with Some Y, Some t => accepts t (OTup [first_five Y; OFunc]) | _, _ => true end).
    assert (Ex : gx = true <-> forall x t, X = Some x -> ax = Some t -> has_type t (first_five x)).
    { unfold gx. destruct X as [x|], ax as [t|]; [rewrite accepts_exact|..]; split; intros; try congruence. now apply H. }
    assert (Ey : gy = true <-> forall y t, Y = Some y -> ret = Some t -> has_type t (OTup [first_five y; OFunc])).
    { unfold gy. destruct Y as [y|], ret as [t|]; [rewrite accepts_exact|..]; split; intros; try congruence. now apply H. }
    rewrite <- Ex, <- Ey, <- Bool.andb_true_iff. destruct (gx && gy); split; congruence.
  Qed.
  Lemma validate_error s X Y e : validate s X Y = Err e -> e = ValueError.
  Proof.
    unfold validate_fwd_input_output. destruct (sig_params s) as [|a [|b [|c [|d l]]]]; try congruence. destruct (_ && _); congruence.
  Qed.
  Lemma validate_count s X Y : length (sig_params s) <> 3 -> validate s X Y = Err ValueError.
  Proof. unfold validate_fwd_input_output. destruct (sig_params s) as [|a [|b [|c [|d l]]]]; cbn; congruence. Qed.
  Lemma five_five l : first_five (OList l) = OList (firstn 5 l).
  Proof. cbn [first_five]. destruct (Nat.ltb_spec 5 (length l)); [reflexivity|]. now rewrite firstn_all2. Qed.
  Lemma five_only s l l' Y : firstn 5 l = firstn 5 l' -> validate s (Some (OList l)) Y = validate s (Some (OList l')) Y /\
    forall X, validate s X (Some (OList l)) = validate s X (Some (OList l')).
  Proof. intros E. unfold validate_fwd_input_output. rewrite !five_five, E. now split. Qed.
  Lemma cut_keeps t : cuttable t = true -> forall l n, 5 <= n -> has_type t (OList l) -> has_type t (OList (firstn n l)).
  Proof.
    assert (N : forall m t, ann_size t < m -> cuttable t = true -> forall l n, 5 <= n -> has_type t (OList l) -> has_type t (OList (firstn n l))).
    { induction m as [|m IH]; intros u Hm Hc l n Hn Ht; [lia|]. inversion Ht; subst; cbn in Hm, Hc; try discriminate.
      - constructor.
      - apply (ht_list _ t0 _ (firstn n l)); [now left|]. match goal with E : _ \/ _ |- _ => destruct E as [E|E]; [injection E as ->|discriminate E] end.
        match goal with F : Forall _ _ |- _ => rewrite Forall_forall in F; apply Forall_forall; intros x Hx; apply F end. revert Hx. apply in_firstn.
      - match goal with E : _ \/ _ |- _ => destruct E as [E|E]; [injection E as ->|discriminate E] end. apply (ht_tuple _ ts _ (firstn n l0)); [now left|].
        match goal with F : Forall2 _ _ _ |- _ => assert (EL : length ts = length l0) by (clear -F; induction F; cbn; congruence) end. rewrite firstn_all2; [assumption|]. apply Nat.leb_le in Hc. lia.
      - apply (ht_union _ ts _ t0); [assumption|]. apply IH; try assumption.
        + match goal with H : In _ _ |- _ => apply size_in in H end. lia.
        + rewrite forallb_forall in Hc. now apply Hc. }
    intros Hc l n. apply (N (S (ann_size t)) t); [lia|assumption].
  Qed.
  Lemma good_accepted p0 t p2 x : cuttable t = true -> has_type t x -> validate (mkSig [p0; Some t; p2] None) (Some x) None = Ok tt.
  Proof.
    intros Hc Ht. apply validate_ok. split; [|congruence]. intros x' t' [= <-] [= <-].
    destruct x as [| |l| | |]; try exact Ht. rewrite five_five. apply cut_keeps; [assumption|lia|assumption].
  Qed.
  Lemma pair_return p0 p2 t y : validate (mkSig [p0; None; p2] (Some (TTuple [t; TCallable]))) None (Some y) = Ok tt <-> has_type t (first_five y).
  Proof.
    rewrite validate_ok. split.
    - intros [_ Hy]. specialize (Hy y _ eq_refl eq_refl). inversion Hy; subst. match goal with E : _ \/ _ |- _ => destruct E as [E|E]; [discriminate E|injection E as <-] end.
      match goal with F : Forall2 _ _ _ |- _ => now inversion F end.
    - intros Ht. split; [congruence|]. intros y' t' [= <-] [= <-]. apply (ht_tuple _ _ _ [first_five y; OFunc]); [now right|]. repeat constructor. assumption.
  Qed.

  Lemma init_unchanged {S} s init X Y (st : S) : validate s X Y = Ok tt -> initialize other true s init X Y st = initialize other false s init X Y st.
  Proof. intros E. unfold initialize. now rewrite E. Qed.
  Lemma init_refused {S} s init X Y (st : S) e : validate s X Y = Err e -> initialize other true s init X Y st = (st, Err ValueError).
  Proof. intros E. unfold initialize. rewrite E. now rewrite (validate_error _ _ _ _ E). Qed.
End Valid.

Local Open Scope string_scope.
Lemma sixth_refuted : exists x, validate_fwd_input_output (fun _ _ => false) (mkSig [None; Some (TList (Floats 2)); None] None) (Some x) None = Ok tt /\
  ~ has_type (fun _ _ => false) (TList (Floats 2)) x.
Proof.
  exists (OList [OArr 2 "float32"; OArr 2 "float32"; OArr 2 "float32"; OArr 2 "float32"; OArr 2 "float32"; OArr 1 "int64"]).
  split; [reflexivity|]. rewrite <- accepts_exact. discriminate.
Qed.

Lemma tuple_refuted : exists t x, has_type (fun _ _ => false) t x /\
  validate_fwd_input_output (fun _ _ => false) (mkSig [None; Some t; None] None) (Some x) None = Err ValueError.
Proof.
  exists (TTuple [TAny; TAny; TAny; TAny; TAny; TAny]), (OList [ONone; ONone; ONone; ONone; ONone; ONone]). split; [|reflexivity]. now apply accepts_exact.
Qed.

(** ** The dtypes behind the letters *)
Lemma dtypes k d : In d (expected_types k) <-> (k = "f" /\ d = "float32") \/ (k = "i" /\ (d = "int32" \/ d = "int64" \/ d = "uint32" \/ d = "uint64")).
Proof.
  unfold expected_types. destruct (string_dec k "f") as [->|H].
  - cbn. split; [intros [<-|[]]; left; split; reflexivity | intros [[_ ->]|[H _]]; [left; reflexivity | discriminate]].
  - destruct (string_dec k "i") as [->|H2].
    + cbn. split.
      * intros C. right. split; [reflexivity|]. destruct C as [C|[C|[C|[C|[]]]]]; subst; tauto.
      * intros [[C _]|[_ C]]; [discriminate|]. destruct C as [->|[->|[->| ->]]]; tauto.
    + split; [intros [] | intros [[C _]|[C _]]; contradiction].
Qed.
