(** Proofs about single-node operations, references and bulk attribute setters. *)
From Coq Require Import String.
From Verif Require Import BaseFacts DictFacts GraphModel GraphSpec GraphProofs NodeModel NodeSpec.

Set Default Goal Selector "!".

Section NodeProofs.
  Context {V A : Type}.
  Notation node := (node V A).
  Notation heap := (heap V A).
  Implicit Types n : node.
  Variable add : V -> V -> V.

  (** * Dimensions *)

  Lemma set_dim_failed n name v f e : snd (set_dim n name v f) = Err e -> fst (set_dim n name v f) = n.
  Proof.
    unfold set_dim. destruct (dget name (n_dims n)); [|reflexivity].
    destruct (_ && _); cbn; [reflexivity|discriminate].
  Qed.

  Lemma set_dim_only_dims n name v f :
    exists d, fst (set_dim n name v f) = with_dims n d /\
      (d = n_dims n \/ d = dset name (Some v) (n_dims n)).
  Proof.
    unfold set_dim. destruct (dget name (n_dims n)).
    - destruct (_ && _); cbn [fst]; eexists.
      + split; [|left; reflexivity]. destruct n; reflexivity.
      + split; [reflexivity|now right].
    - cbn [fst]. eexists. split; [|left; reflexivity]. destruct n; reflexivity.
  Qed.

  Definition dim_state n name := dget name (n_dims n).

  Lemma step_dim_other n o name :
    (forall v f, o <> OSetDim name v f) -> dget name (n_dims (fst (node_step add n o))) = dget name (n_dims n).
  Proof.
    intros Ho. destruct o as [nm v f|nm v|nm v|nm v]; cbn [node_step].
    - assert (Hne : name <> nm) by (intros ->; apply (Ho v f); reflexivity).
      destruct (set_dim_only_dims n nm v f) as (d & -> & [->| ->]); cbn [n_dims with_dims]; [reflexivity|].
      now apply dget_dset_other.
    - destruct v; reflexivity.
    - reflexivity.
    - cbn [fst]. unfold inc_grad. destruct (dget nm (n_grads n)); reflexivity.
  Qed.

  Lemma set_dim_cases n name v f :
    (dget name (n_dims n) = None /\ set_dim n name v f = (n, Err KeyError)) \/
    (exists o, dget name (n_dims n) = Some (Some o) /\ o <> v /\
       (f = false \/ exists p, In (p, true) (n_has n)) /\ set_dim n name v f = (n, Err ValueError)) \/
    ((dget name (n_dims n) = Some None \/ dget name (n_dims n) = Some (Some v) \/
      (exists o, dget name (n_dims n) = Some (Some o) /\ f = true /\ forall p, ~ In (p, true) (n_has n))) /\
     set_dim n name v f = (with_dims n (dset name (Some v) (n_dims n)), Ok tt)).
  Proof.
    unfold set_dim. destruct (dget name (n_dims n)) as [[o|]|] eqn:Eg.
    - destruct (Z.eqb_spec o v) as [->|Hne].
      + right; right. cbn [negb andb]. split; [right; now left|reflexivity].
      + cbn [negb andb]. destruct f; cbn [negb orb andb].
        * destruct (existsb (fun p => snd p) (n_has n)) eqn:Ex.
          -- right; left. exists o. split; [reflexivity|]. split; [exact Hne|].
             split; [|reflexivity]. right. apply existsb_exists in Ex.
             destruct Ex as ([p b] & Hin & Hb). cbn in Hb. subst b. now exists p.
          -- right; right. split; [|reflexivity]. right; right. exists o.
             split; [reflexivity|]. split; [reflexivity|]. intros p Hin.
             assert (Ht : existsb (fun p => snd p) (n_has n) = true).
             { apply existsb_exists. exists (p, true). split; [exact Hin|reflexivity]. }
             congruence.
        * right; left. exists o. split; [reflexivity|]. split; [exact Hne|].
          split; [now left|reflexivity].
    - right; right. cbn [andb]. split; [now left|reflexivity].
    - left. split; reflexivity.
  Qed.


  Lemma dim_history n ops name n' tr :
    node_run add n ops = (n', tr) ->
    get_dim n' name = match last_dim name tr with Some v => Ok v | None => get_dim n name end.
  Proof.
    revert n n' tr. induction ops as [|o ops IH]; intros n n' tr Hr; cbn [node_run] in Hr.
    - injection Hr as <- <-. reflexivity.
    - destruct (node_step add n o) as [n1 r] eqn:Es.
      destruct (node_run add n1 ops) as [n2 tr2] eqn:Er. injection Hr as <- <-.
      specialize (IH _ _ _ Er).
      destruct o as [nm v f|nm v|nm v|nm v].
      + cbn [node_step] in Es. cbn [last_dim].
        destruct (eqd nm name) as [->|Hne].
        * destruct (set_dim_cases n name v f) as [(Hg & E)|[(o & Hg & Hov & _ & E)|(Hg & E)]];
            rewrite E in Es; injection Es as <- <-; cbn [last_dim]; rewrite ?eqd_refl.
          -- exact IH.
          -- exact IH.
          -- rewrite IH. destruct (last_dim name tr2); [reflexivity|].
             unfold get_dim. cbn [n_dims with_dims]. now rewrite dget_dset_same.
        * assert (Hsame : dget name (n_dims n1) = dget name (n_dims n)).
          { pose proof (step_dim_other n (OSetDim nm v f) name) as Hs. cbn [node_step] in Hs.
            rewrite Es in Hs. apply Hs. intros v' f' He. congruence. }
          unfold get_dim in *. rewrite Hsame in IH.
          destruct r as [[]|e]; rewrite ?eqd_neq by exact Hne;
            destruct (last_dim name tr2); exact IH.
      + pose proof (step_dim_other n (OSetParam nm v) name ltac:(discriminate)) as Hs.
        rewrite Es in Hs. cbn [fst] in Hs. unfold get_dim in *. rewrite Hs in IH.
        destruct r as [[]|e]; exact IH.
      + pose proof (step_dim_other n (OSetGrad nm v) name ltac:(discriminate)) as Hs.
        rewrite Es in Hs. cbn [fst] in Hs. unfold get_dim in *. rewrite Hs in IH.
        destruct r as [[]|e]; exact IH.
      + pose proof (step_dim_other n (OIncGrad nm v) name ltac:(discriminate)) as Hs.
        rewrite Es in Hs. cbn [fst] in Hs. unfold get_dim in *. rewrite Hs in IH.
        destruct r as [[]|e]; exact IH.
  Qed.

  Lemma dim_write_once n ops name v n' tr :
    node_run add n ops = (n', tr) -> get_dim n name = Ok v ->
    (forall w, ~ In (OSetDim name w true) ops) ->
    get_dim n' name = Ok v /\
    forall w r, In (OSetDim name w false, r) tr -> r = if (w =? v)%Z then Ok tt else Err ValueError.
  Proof.
    revert n n' tr. induction ops as [|o ops IH]; intros n n' tr Hr Hg Hf; cbn [node_run] in Hr.
    - injection Hr as <- <-. split; [exact Hg|]. intros w r [].
    - destruct (node_step add n o) as [n1 r] eqn:Es.
      destruct (node_run add n1 ops) as [n2 tr2] eqn:Er. injection Hr as <- <-.
      assert (Hdn : dget name (n_dims n) = Some (Some v)).
      { unfold get_dim in Hg. destruct (dget name (n_dims n)) as [[x|]|]; congruence. }
      assert (Hstep : get_dim n1 name = Ok v /\
        (forall w, o = OSetDim name w false -> r = if (w =? v)%Z then Ok tt else Err ValueError)).
      { assert (Hdec : (exists w f, o = OSetDim name w f) \/ (forall w f, o <> OSetDim name w f)).
        { destruct o as [nm w f|? ?|? ?|? ?]; try (right; discriminate).
          destruct (eqd nm name) as [->|Hne]; [left; eauto|right; congruence]. }
        destruct Hdec as [(w & f & ->)|Hno].
        - assert (f = false) as ->.
          { destruct f; [|reflexivity]. exfalso. apply (Hf w). now left. }
          cbn [node_step] in Es.
          destruct (set_dim_cases n name w false) as [(Hg' & E)|[(x & Hg' & Hov & _ & E)|(Hg' & E)]];
            rewrite E in Es; injection Es as <- <-.
          + congruence.
          + rewrite Hdn in Hg'. injection Hg' as <-. split; [exact Hg|].
            intros w' He. injection He as <-. destruct (Z.eqb_spec w v); [congruence|reflexivity].
          + assert (w = v) as ->.
            { destruct Hg' as [Hg'|[Hg'|(x & _ & Hff & _)]]; [congruence| congruence|discriminate]. }
            split.
            * unfold get_dim. cbn [n_dims with_dims]. now rewrite dget_dset_same.
            * intros w' He. injection He as <-. now rewrite Z.eqb_refl.
        - split.
          + pose proof (step_dim_other n o name Hno) as Hs. rewrite Es in Hs. cbn [fst] in Hs.
            unfold get_dim. now rewrite Hs, Hdn.
          + intros w He. exfalso. exact (Hno _ _ He). }
      destruct Hstep as [Hg1 Hr1].
      destruct (IH n1 n2 tr2 Er Hg1) as [IH1 IH2].
      { intros w Hin. apply (Hf w). now right. }
      split; [exact IH1|]. intros w r' [He|Hin]; [|exact (IH2 w r' Hin)].
      injection He as -> ->. exact (Hr1 w eq_refl).
  Qed.

  Lemma dim_undeclared n ops name n' tr :
    node_run add n ops = (n', tr) -> ~ In name (dkeys (n_dims n)) ->
    ~ In name (dkeys (n_dims n')) /\ get_dim n' name = Err KeyError /\
    forall w f r, In (OSetDim name w f, r) tr -> r = Err KeyError.
  Proof.
    revert n n' tr. induction ops as [|o ops IH]; intros n n' tr Hr Hg; cbn [node_run] in Hr.
    - injection Hr as <- <-. split; [exact Hg|]. split.
      + unfold get_dim. apply dget_none in Hg. now rewrite Hg.
      + intros w f r [].
    - destruct (node_step add n o) as [n1 r] eqn:Es.
      destruct (node_run add n1 ops) as [n2 tr2] eqn:Er. injection Hr as <- <-.
      apply dget_none in Hg.
      assert (Hdec : (exists w f, o = OSetDim name w f) \/ (forall w f, o <> OSetDim name w f)).
      { destruct o as [nm w f|? ?|? ?|? ?]; try (right; discriminate).
        destruct (eqd nm name) as [->|Hne]; [left; eauto|right; congruence]. }
      assert (Hstep : dget name (n_dims n1) = None /\
        (forall w f, o = OSetDim name w f -> r = Err KeyError)).
      { destruct Hdec as [(w & f & ->)|Hno].
        - cbn [node_step] in Es. unfold set_dim in Es. rewrite Hg in Es. injection Es as <- <-.
          split; [exact Hg|reflexivity].
        - split.
          + pose proof (step_dim_other n o name Hno) as Hs. rewrite Es in Hs. cbn [fst] in Hs. congruence.
          + intros w f He. exfalso. exact (Hno _ _ He). }
      destruct Hstep as [Hg1 Hr1]. apply dget_none in Hg1.
      destruct (IH n1 n2 tr2 Er Hg1) as (IH1 & IH2 & IH3).
      split; [exact IH1|]. split; [exact IH2|].
      intros w f r' [He|Hin]; [|exact (IH3 w f r' Hin)].
      injection He as -> ->. exact (Hr1 w f eq_refl).
  Qed.

  Lemma set_dim_forced n name v o :
    get_dim n name = Ok o -> o <> v ->
    ((exists p, has_param n p = Some true) -> NoDup (dkeys (n_has n)) ->
       set_dim n name v true = (n, Err ValueError)) /\
    ((forall p, has_param n p <> Some true) -> NoDup (dkeys (n_has n)) ->
       snd (set_dim n name v true) = Ok tt /\ get_dim (fst (set_dim n name v true)) name = Ok v).
  Proof.
    intros Hg Hne.
    assert (Hdn : dget name (n_dims n) = Some (Some o)).
    { unfold get_dim in Hg. destruct (dget name (n_dims n)) as [[x|]|]; congruence. }
    split.
    - intros [p Hp] Hnd. unfold has_param in Hp.
      destruct (dget p (n_has n)) as [[]|] eqn:Ep; try discriminate. apply dget_in in Ep.
      destruct (set_dim_cases n name v true) as [(Hg' & E)|[(x & Hg' & Hov & _ & E)|(Hg' & E)]].
      + congruence.
      + exact E.
      + exfalso. destruct Hg' as [Hg'|[Hg'|(x & _ & _ & Hno)]]; [congruence|congruence|].
        exact (Hno p Ep).
    - intros Hp Hnd.
      destruct (set_dim_cases n name v true) as [(Hg' & E)|[(x & Hg' & Hov & Hx & E)|(Hg' & E)]].
      + congruence.
      + exfalso. destruct Hx as [Hx|[p Hin]]; [discriminate|].
        apply (Hp p). unfold has_param. now rewrite (dget_nodup_in p true _ Hnd Hin).
      + rewrite E. split; [reflexivity|]. cbn [fst]. unfold get_dim. cbn [n_dims with_dims].
        now rewrite dget_dset_same.
  Qed.

  (** * Parameters *)



  Lemma step_params n o :
    (forall nm v, o <> OSetParam nm v) ->
    n_params (fst (node_step add n o)) = n_params n /\ n_has (fst (node_step add n o)) = n_has n.
  Proof.
    intros Ho. destruct o as [nm v f|nm v|nm v|nm v]; cbn [node_step].
    - destruct (set_dim_only_dims n nm v f) as (d & -> & _). split; reflexivity.
    - exfalso. exact (Ho _ _ eq_refl).
    - split; reflexivity.
    - cbn [fst]. unfold inc_grad. destruct (dget nm (n_grads n)); split; reflexivity.
  Qed.

  Lemma param_dict_history n ops name n' tr :
    node_run add n ops = (n', tr) ->
    dget name (n_params n') =
      match last_param name ops with Some v => Some v | None => dget name (n_params n) end /\
    dget name (n_has n') =
      match last_param_write name ops with
      | Some (Some _) => Some true | Some None => Some false | None => dget name (n_has n) end.
  Proof.
    revert n n' tr. induction ops as [|o ops IH]; intros n n' tr Hr; cbn [node_run] in Hr.
    - injection Hr as <- <-. split; reflexivity.
    - destruct (node_step add n o) as [n1 r] eqn:Es.
      destruct (node_run add n1 ops) as [n2 tr2] eqn:Er. injection Hr as <- <-.
      destruct (IH _ _ _ Er) as [IH1 IH2].
      assert (Hn1 : n1 = fst (node_step add n o)) by now rewrite Es.
      assert (Hother : (forall nm v, o <> OSetParam nm v) ->
        last_param name (o :: ops) = last_param name ops ->
        last_param_write name (o :: ops) = last_param_write name ops ->
        dget name (n_params n2) =
          match last_param name (o :: ops) with Some v => Some v | None => dget name (n_params n) end /\
        dget name (n_has n2) =
          match last_param_write name (o :: ops) with
          | Some (Some _) => Some true | Some None => Some false | None => dget name (n_has n) end).
      { intros Hno E1 E2. destruct (step_params n _ Hno) as [Hp Hh]. rewrite <- Hn1 in Hp, Hh.
        rewrite E1, E2, <- Hp, <- Hh. split; assumption. }
      destruct o as [nm v f|nm v|nm v|nm v]; [apply Hother; [discriminate|reflexivity|reflexivity]| |
        apply Hother; [discriminate|reflexivity|reflexivity]|
        apply Hother; [discriminate|reflexivity|reflexivity]].
      clear Hother.
      cbn [node_step fst] in Hn1. destruct v as [v|]; subst n1; cbn [set_param with_params n_params n_has] in *.
      + cbn [last_param last_param_write]. split.
        * rewrite IH1. destruct (last_param name ops); [reflexivity|].
          rewrite dget_dset. destruct (eqd name nm) as [->|Hne].
          -- now rewrite eqd_refl.
          -- rewrite eqd_neq by congruence. reflexivity.
        * rewrite IH2. destruct (last_param_write name ops) as [[|]|]; try reflexivity.
          rewrite dget_dset. destruct (eqd name nm) as [->|Hne].
          -- now rewrite eqd_refl.
          -- rewrite eqd_neq by congruence. reflexivity.
      + cbn [last_param last_param_write]. split; [exact IH1|].
        rewrite IH2. destruct (last_param_write name ops) as [[|]|]; try reflexivity.
        rewrite dget_dset. destruct (eqd name nm) as [->|Hne].
        * now rewrite eqd_refl.
        * rewrite eqd_neq by congruence. reflexivity.
  Qed.

  Lemma last_param_some_write name (ops : list (@node_op V)) v :
    last_param name ops = Some v -> exists w, last_param_write name ops = Some w.
  Proof.
    induction ops as [|o ops IH]; cbn [last_param last_param_write]; [discriminate|].
    destruct o as [nm x f|nm x|nm x|nm x]; try exact IH.
    destruct x as [x|].
    - destruct (last_param name ops) as [w|] eqn:E.
      + intros He. destruct (IH He) as [w' ->]. now exists w'.
      + destruct (eqd nm name); [|discriminate]. intros _.
        destruct (last_param_write name ops) as [w|]; [now exists w|now exists (Some x)].
    - intros He. destruct (IH He) as [w ->]. now exists w.
  Qed.

  Lemma param_last_write n ops name v n' tr :
    node_run add n ops = (n', tr) -> last_param name ops = Some v -> get_param n' name = Ok v.
  Proof.
    intros Hr Hl. destruct (param_dict_history _ _ name _ _ Hr) as [H1 H2].
    destruct (last_param_some_write _ _ _ Hl) as [w Hw]. rewrite Hl in H1. rewrite Hw in H2.
    unfold get_param. rewrite H2, H1. destruct w; reflexivity.
  Qed.

  Lemma param_untouched n ops name n' tr :
    node_run add n ops = (n', tr) -> (forall v, ~ In (OSetParam name v) ops) ->
    get_param n' name = get_param n name /\ has_param n' name = has_param n name.
  Proof.
    intros Hr Hno. destruct (param_dict_history _ _ name _ _ Hr) as [H1 H2].
    assert (E : last_param name ops = None /\ last_param_write name ops = None).
    { clear H1 H2 Hr. induction ops as [|o ops IH]; [split; reflexivity|].
      destruct IH as [E1 E2]; [intros v Hin; apply (Hno v); now right|].
      cbn [last_param last_param_write].
      destruct o as [nm x f|nm x|nm x|nm x]; try (split; assumption).
      assert (Hne : nm <> name) by (intros ->; apply (Hno x); now left).
      rewrite E1, E2. destruct x; rewrite ?(eqd_neq nm name) by exact Hne; split; reflexivity. }
    destruct E as [E1 E2]. rewrite E1 in H1. rewrite E2 in H2.
    unfold get_param, has_param. rewrite H1, H2. split; reflexivity.
  Qed.

  Lemma has_param_last n ops name n' tr :
    node_run add n ops = (n', tr) ->
    has_param n' name =
      match last_param_write name ops with
      | Some (Some _) => Some true | Some None => None | None => has_param n name end.
  Proof.
    intros Hr. destruct (param_dict_history _ _ name _ _ Hr) as [_ H2].
    unfold has_param. rewrite H2. destruct (last_param_write name ops) as [[|]|]; reflexivity.
  Qed.

  (** * Heap updates *)

  Lemma set_nth_length {X} i (x : X) l : length (set_nth i x l) = length l.
  Proof. revert i. induction l as [|a l IH]; intros [|i]; cbn; auto. Qed.

  Lemma set_nth_same {X} i (x y : X) l : nth_error l i = Some y -> nth_error (set_nth i x l) i = Some x.
  Proof. revert i. induction l as [|a l IH]; intros [|i]; cbn; try discriminate; auto. Qed.

  Lemma set_nth_other {X} i j (x : X) l : i <> j -> nth_error (set_nth i x l) j = nth_error l j.
  Proof.
    revert i j. induction l as [|a l IH]; intros [|i] [|j] Hne; cbn; try reflexivity; try congruence.
    apply IH. congruence.
  Qed.

  Lemma upd_length (h : heap) a f : length (upd h a f) = length h.
  Proof. unfold upd. destruct (nth_error h a); [apply set_nth_length|reflexivity]. Qed.

  Lemma upd_nth (h : heap) a f b :
    nth_error (upd h a f) b = if Nat.eq_dec b a then option_map f (nth_error h b) else nth_error h b.
  Proof.
    unfold upd. destruct (Nat.eq_dec b a) as [->|Hne].
    - destruct (nth_error h a) as [n|] eqn:E; cbn [option_map].
      + exact (set_nth_same _ _ _ _ E).
      + exact E.
    - destruct (nth_error h a); [|reflexivity]. apply set_nth_other. congruence.
  Qed.

  Lemma nth_layers (h : heap) a :
    layers (graph_of h) a = match nth_error h a with Some n => n_layers n | None => [] end.
  Proof.
    unfold layers, graph_of. destruct (nth_error h a) as [n|] eqn:E.
    - apply nth_error_nth. apply map_nth_error, E.
    - apply nth_overflow. rewrite map_length. now apply nth_error_None.
  Qed.

  Lemma graph_of_upd (h : heap) a f :
    (forall n, nth_error h a = Some n -> n_layers (f n) = n_layers n) -> graph_of (upd h a f) = graph_of h.
  Proof.
    intros Hf. unfold graph_of. apply nth_error_ext. intros i.
    rewrite !nth_error_map, upd_nth. destruct (Nat.eq_dec i a) as [->|]; [|reflexivity].
    destruct (nth_error h a) as [n|] eqn:E; [|reflexivity]. cbn [option_map]. now rewrite Hf.
  Qed.

  Lemma fold_upd_nth (f : node -> node) l (h : heap) b : NoDup l ->
    nth_error (fold_left (fun h a => upd h a f) l h) b =
      if in_dec Nat.eq_dec b l then option_map f (nth_error h b) else nth_error h b.
  Proof.
    revert h. induction l as [|a l IH]; intros h Hnd; cbn [fold_left].
    - destruct (in_dec Nat.eq_dec b []) as [[]|]; reflexivity.
    - inversion Hnd as [|? ? Hna Hnd']; subst. rewrite (IH _ Hnd'), upd_nth.
      destruct (Nat.eq_dec b a) as [->|Hne].
      + destruct (in_dec Nat.eq_dec a l) as [Hin|_]; [contradiction|].
        destruct (in_dec Nat.eq_dec a (a :: l)) as [_|Hn]; [reflexivity|]. exfalso; apply Hn; now left.
      + destruct (in_dec Nat.eq_dec b l) as [Hin|Hn]; destruct (in_dec Nat.eq_dec b (a :: l)) as [Hin'|Hn'];
          try reflexivity.
        * exfalso. apply Hn'. now right.
        * exfalso. destruct Hin' as [->|Hin']; contradiction.
  Qed.

  Lemma fold_upd_length (f : node -> node) l (h : heap) :
    length (fold_left (fun h a => upd h a f) l h) = length h.
  Proof.
    revert h. induction l as [|a l IH]; intros h; cbn [fold_left]; [reflexivity|].
    rewrite IH. apply upd_length.
  Qed.

  Lemma param_unregistered n name :
    ~ In name (dkeys (n_has n)) -> has_param n name = Some false /\ get_param n name = Err KeyError.
  Proof.
    intros H. apply dget_none in H. unfold has_param, get_param. rewrite H. split; reflexivity.
  Qed.

  (** * References *)

  Lemma set_ref_iff (h : heap) a name v :
    snd (set_ref h a name v) = Ok tt <-> (v = None \/ exists b, v = Some b /\ reach (graph_of h) a b).
  Proof.
    unfold set_ref. destruct v as [b|]; cbn [snd].
    - destruct (memb b _) eqn:Em; cbn [snd].
      + apply memb_true in Em. apply walk_exact in Em. split; [|reflexivity].
        intros _. right. now exists b.
      + apply memb_false in Em. split; [discriminate|]. intros [He|(b' & He & Hr)]; [discriminate|].
        injection He as <-. exfalso. apply Em, walk_exact, Hr.
    - split; [now left|reflexivity].
  Qed.

  Lemma set_ref_fail (h : heap) a name v e :
    snd (set_ref h a name v) = Err e -> set_ref h a name v = (h, Err ValueError).
  Proof.
    unfold set_ref. destruct v as [b|]; cbn [snd]; [|discriminate].
    destruct (memb b _); cbn [snd]; [discriminate|reflexivity].
  Qed.

  Lemma set_ref_ok (h : heap) a name v : snd (set_ref h a name v) = Ok tt ->
    fst (set_ref h a name v) = upd h a (fun n => with_refs n (dset name v (n_refs n))).
  Proof.
    unfold set_ref. destruct v as [b|]; [|reflexivity].
    destruct (memb b _); cbn [snd fst]; [reflexivity|discriminate].
  Qed.

  Lemma set_ref_effect (h : heap) a name v b :
    snd (set_ref h a name v) = Ok tt ->
    nth_error (fst (set_ref h a name v)) b =
      if Nat.eq_dec b a then option_map (fun n => with_refs n (dset name v (n_refs n))) (nth_error h b)
      else nth_error h b.
  Proof. intros Hok. rewrite (set_ref_ok _ _ _ _ Hok). apply upd_nth. Qed.

  Lemma set_ref_get (h : heap) a n name v n' nm :
    snd (set_ref h a name v) = Ok tt -> nth_error h a = Some n ->
    nth_error (fst (set_ref h a name v)) a = Some n' ->
    get_ref n' nm = if eqd nm name then match v with Some b => Ok b | None => Err ValueError end
                    else get_ref n nm.
  Proof.
    intros Hok Hn. rewrite (set_ref_effect _ _ _ _ _ Hok).
    destruct (Nat.eq_dec a a); [|contradiction]. rewrite Hn. cbn [option_map]. intros He.
    injection He as <-. unfold get_ref. cbn [n_refs with_refs]. rewrite dget_dset.
    destruct (eqd nm name); [destruct v; reflexivity|reflexivity].
  Qed.

  Lemma graph_of_set_ref (h : heap) a name v : graph_of (fst (set_ref h a name v)) = graph_of h.
  Proof.
    destruct (snd (set_ref h a name v)) as [[]|e] eqn:E.
    - rewrite (set_ref_ok _ _ _ _ E). apply graph_of_upd. reflexivity.
    - rewrite (set_ref_fail _ _ _ _ _ E). reflexivity.
  Qed.

  Lemma set_ref_inv (h : heap) a name v : refs_in_tree h -> refs_in_tree (fst (set_ref h a name v)).
  Proof.
    intros Hinv b n' nm c Hn Hg. rewrite graph_of_set_ref.
    destruct (snd (set_ref h a name v)) as [[]|e] eqn:E.
    - pose proof Hn as Hn0. rewrite (set_ref_effect _ _ _ _ _ E) in Hn.
      destruct (Nat.eq_dec b a) as [->|Hne].
      + destruct (nth_error h a) as [n|] eqn:En; [|discriminate].
        rewrite (set_ref_get h a n name v n' nm E En Hn0) in Hg.
        destruct (eqd nm name) as [->|_]; [|exact (Hinv _ _ _ _ En Hg)].
        destruct v as [d|]; [|discriminate]. injection Hg as ->.
        apply set_ref_iff in E. destruct E as [E|(d & E & Hr)]; [discriminate|].
        injection E as <-. exact Hr.
      + exact (Hinv _ _ _ _ Hn Hg).
    - rewrite (set_ref_fail _ _ _ _ _ E) in Hn. exact (Hinv _ _ _ _ Hn Hg).
  Qed.

  Lemma path_mono g g' k a b :
    (forall x, incl (layers g x) (layers g' x)) -> path g k a b -> path g' k a b.
  Proof.
    intros Hi Hp. induction Hp as [a|k a b c Hp IH Hc]; [constructor|].
    apply path_step with b; [exact IH|]. apply Hi, Hc.
  Qed.

  Lemma add_layer_inv (h : heap) a ls :
    refs_in_tree h -> refs_in_tree (upd h a (fun n => with_layers n (n_layers n ++ ls))).
  Proof.
    intros Hinv b n' nm c Hn Hg. rewrite upd_nth in Hn.
    assert (Hr : reach (graph_of h) b c).
    { destruct (Nat.eq_dec b a) as [->|Hne]; [|exact (Hinv _ _ _ _ Hn Hg)].
      destruct (nth_error h a) as [n|] eqn:En; [|discriminate]. cbn in Hn. injection Hn as <-.
      exact (Hinv _ _ _ _ En Hg). }
    destruct Hr as [k Hk]. exists k. revert Hk. apply path_mono. intros x.
    rewrite !nth_layers, upd_nth. destruct (Nat.eq_dec x a) as [->|_]; [|apply incl_refl].
    destruct (nth_error h a); cbn; [apply incl_appl|]; apply incl_refl.
  Qed.

  (** * Bulk attribute setters *)

  Lemma tree_step_inv (h : heap) o : refs_in_tree h -> refs_in_tree (fst (tree_step h o)).
  Proof. destruct o as [a nm v|a ls]; cbn [tree_step fst]; [apply set_ref_inv|apply add_layer_inv]. Qed.

  Lemma tree_run_inv (h h' : heap) ops tr :
    refs_in_tree h -> tree_run h ops = (h', tr) -> refs_in_tree h'.
  Proof.
    revert h tr. induction ops as [|o ops IH]; intros h tr Hi Hr; cbn [tree_run] in Hr.
    - injection Hr as <- <-. exact Hi.
    - pose proof (tree_step_inv h o Hi) as H1. destruct (tree_step h o) as [h1 r].
      destruct (tree_run h1 ops) as [h2 tr2] eqn:E. injection Hr as <- <-. exact (IH h1 tr2 H1 E).
  Qed.

  Definition ref_at (h : heap) a name : option (option addr) :=
    match nth_error h a with Some n => dget name (n_refs n) | None => None end.

  Lemma tree_step_length (h : heap) o : length (fst (tree_step h o)) = length h.
  Proof.
    destruct o as [a nm v|a ls]; cbn [tree_step fst]; [|apply upd_length].
    unfold set_ref. destruct v; [destruct (memb _ _)|]; cbn [fst]; try apply upd_length. reflexivity.
  Qed.

  Lemma ref_at_step (h : heap) o a name : a < length h ->
    ref_at (fst (tree_step h o)) a name =
      match o, snd (tree_step h o) with
      | TSetRef b nm v, Ok tt => if Nat.eqb b a then if eqd nm name then Some v else ref_at h a name
                                 else ref_at h a name
      | _, _ => ref_at h a name
      end.
  Proof.
    intros Ha. destruct (nth_error h a) as [n|] eqn:En; [|apply nth_error_None in En; lia].
    unfold ref_at. destruct o as [b nm v|b ls]; cbn [tree_step].
    - destruct (snd (set_ref h b nm v)) as [[]|e] eqn:E.
      + rewrite (set_ref_effect _ _ _ _ _ E). rewrite En. destruct (Nat.eqb_spec b a) as [->|Hne].
        * destruct (Nat.eq_dec a a); [|contradiction]. cbn [option_map n_refs with_refs].
          rewrite dget_dset. destruct (eqd name nm) as [->|Hn]; [now rewrite eqd_refl|].
          rewrite eqd_neq by congruence. reflexivity.
        * destruct (Nat.eq_dec a b); [congruence|reflexivity].
      + rewrite (set_ref_fail _ _ _ _ _ E). reflexivity.
    - cbn [fst snd]. rewrite upd_nth, En. destruct (Nat.eq_dec a b); reflexivity.
  Qed.

  Lemma ref_history (h h' : heap) ops tr a n n' name :
    tree_run h ops = (h', tr) -> nth_error h a = Some n -> nth_error h' a = Some n' ->
    get_ref n' name =
      match last_ref a name tr with
      | Some (Some b) => Ok b | Some None => Err ValueError | None => get_ref n name
      end.
  Proof.
    intros Hr Hn Hn'.
    assert (H : ref_at h' a name = match last_ref a name tr with Some w => Some w | None => ref_at h a name end).
    { assert (Ha : a < length h) by (apply nth_error_Some; congruence).
      clear Hn Hn' n n'. revert h tr Ha Hr.
      induction ops as [|o ops IH]; intros h tr Ha Hr; cbn [tree_run] in Hr.
      - injection Hr as <- <-. reflexivity.
      - pose proof (ref_at_step h o a name Ha) as H1. pose proof (tree_step_length h o) as Hl.
        destruct (tree_step h o) as [h1 r] eqn:Es. cbn [fst snd] in *.
        destruct (tree_run h1 ops) as [h2 tr2] eqn:E. injection Hr as <- <-.
        rewrite (IH h1 tr2); [|lia|exact E].
        destruct o as [b nm v|b ls]; rewrite ?Es in H1; cbn [snd] in H1;
          [destruct r as [[]|e]|]; cbn [last_ref]; rewrite ?H1.
        + destruct (last_ref a name tr2); [reflexivity|].
          destruct (Nat.eqb b a); [destruct (eqd nm name)|]; reflexivity.
        + reflexivity.
        + reflexivity. }
    unfold ref_at in H. rewrite Hn, Hn' in H. unfold get_ref. rewrite H.
    destruct (last_ref a name tr) as [[b|]|]; reflexivity.
  Qed.

  Lemma with_attrs_id n : with_attrs n (n_attrs n) = n.
  Proof. destruct n; reflexivity. Qed.

  Lemma with_attrs_twice n d d' : with_attrs (with_attrs n d) d' = with_attrs n d'.
  Proof. reflexivity. Qed.

  Definition amap (f : string -> A -> A) (d : dict string A) : dict string A :=
    map (fun kv => (fst kv, f (fst kv) (snd kv))) d.

  Lemma amap_keys f d : dkeys (amap f d) = dkeys d.
  Proof. unfold amap, dkeys. rewrite map_map. reflexivity. Qed.

  Lemma dset_amap k v (d : dict string A) : NoDup (dkeys d) -> In k (dkeys d) ->
    dset k v d = amap (fun k' v' => if eqd k k' then v else v') d.
  Proof.
    induction d as [|[k0 v0] d IH]; cbn [dkeys map fst In dset amap]; intros Hnd Hin; [tauto|].
    inversion Hnd as [|? ? Hn Hnd']; subst. cbn [fst snd].
    destruct (eqd k k0) as [->|Hne].
    - f_equal. unfold amap. rewrite <- (map_id d) at 1. apply map_ext_in. intros [k1 v1] Hi. cbn [fst snd].
      rewrite eqd_neq; [reflexivity|]. intros ->. apply Hn. change k1 with (fst (k1, v1)). now apply in_map.
    - f_equal. apply IH; [exact Hnd'|]. destruct Hin as [He|Hin]; [congruence|exact Hin].
  Qed.

  Lemma amap_amap f f' d : amap f (amap f' d) = amap (fun k v => f k (f' k v)) d.
  Proof. unfold amap. rewrite map_map. reflexivity. Qed.

  Lemma amap_ext f f' d : (forall k v, In (k, v) d -> f k v = f' k v) -> amap f d = amap f' d.
  Proof. intros He. apply map_ext_in. intros [k v] Hin. cbn. now rewrite He. Qed.

  Lemma amap_id d : amap (fun _ v => v) d = d.
  Proof. unfold amap. rewrite <- (map_id d) at 2. apply map_ext. intros [k v]. reflexivity. Qed.

  Lemma set_attr_amap v n attr : NoDup (dkeys (n_attrs n)) ->
    set_attr_if_present v n attr = with_attrs n (amap (fun k w => if eqd attr k then v else w) (n_attrs n)).
  Proof.
    intros Hnd. unfold set_attr_if_present. destruct (dmem attr (n_attrs n)) eqn:Em.
    - apply dmem_true in Em. now rewrite dset_amap.
    - apply dmem_false in Em. rewrite <- (with_attrs_id n) at 1. f_equal.
      rewrite <- (amap_id (n_attrs n)) at 1. apply amap_ext. intros k w Hin.
      rewrite eqd_neq; [reflexivity|]. intros ->. apply Em. change k with (fst (k, w)). now apply in_map.
  Qed.

  Lemma fold_set_attr drop attrs n : NoDup (dkeys (n_attrs n)) ->
    fold_left (set_attr_if_present drop) attrs n =
    with_attrs n (amap (fun k w => if in_dec eqd k attrs then drop else w) (n_attrs n)).
  Proof.
    revert n. induction attrs as [|x attrs IH]; intros n Hnd; cbn [fold_left].
    - rewrite <- (with_attrs_id n) at 1. f_equal. rewrite <- (amap_id (n_attrs n)) at 1.
      apply amap_ext. intros k v _. reflexivity.
    - rewrite set_attr_amap by exact Hnd. rewrite IH; cbn [n_attrs with_attrs].
      + rewrite with_attrs_twice. f_equal. rewrite amap_amap. apply amap_ext. intros k w _.
        destruct (in_dec eqd k attrs) as [Hi|Hi]; destruct (in_dec eqd k (x :: attrs)) as [Hi'|Hi'].
        * reflexivity.
        * exfalso; apply Hi'; now right.
        * destruct Hi' as [->|Hi']; [now rewrite eqd_refl|contradiction].
        * rewrite eqd_neq; [reflexivity|]. intros ->. apply Hi'. now left.
      + now rewrite amap_keys.
  Qed.

  Lemma fold_change_attr (attrs : dict string A) n : NoDup (dkeys (n_attrs n)) -> NoDup (dkeys attrs) ->
    fold_left (fun n (p : string * A) => set_attr_if_present (snd p) n (fst p)) attrs n =
    with_attrs n (amap (fun k w => match dget k attrs with Some v => v | None => w end) (n_attrs n)).
  Proof.
    revert n. induction attrs as [|[x v] attrs IH]; intros n Hnd Hna; cbn [fold_left fst snd].
    - rewrite <- (with_attrs_id n) at 1. f_equal. symmetry. apply amap_id.
    - cbn [dkeys map fst] in Hna. inversion Hna as [|? ? Hx Hna']; subst.
      rewrite set_attr_amap by exact Hnd. rewrite IH; cbn [n_attrs with_attrs].
      + rewrite with_attrs_twice. f_equal. rewrite amap_amap. apply amap_ext. intros k w _.
        cbn [dget]. destruct (eqd k x) as [->|Hne].
        * rewrite eqd_refl. destruct (dget x attrs) as [u|] eqn:Eg; [|reflexivity].
          exfalso. apply Hx. eapply dget_some_key, Eg.
        * rewrite (eqd_neq x k) by congruence. reflexivity.
      + now rewrite amap_keys.
      + exact Hna'.
  Qed.

  Lemma set_dropout_rate_exact (h : heap) root drop attrs a n :
    nth_error h a = Some n -> NoDup (dkeys (n_attrs n)) ->
    (reach (graph_of h) root a ->
       nth_error (set_dropout_rate h root drop attrs) a =
         Some (with_attrs n (map (fun kv => (fst kv, if in_dec eqd (fst kv) attrs then drop else snd kv))
                               (n_attrs n)))) /\
    (~ reach (graph_of h) root a -> nth_error (set_dropout_rate h root drop attrs) a = Some n) /\
    length (set_dropout_rate h root drop attrs) = length h.
  Proof.
    intros Hn Hnd. unfold set_dropout_rate.
    destruct (walk_exact (graph_of h) Bfs root) as [Hw Hiff].
    split; [|split].
    - intros Hr. rewrite fold_upd_nth by exact Hw.
      destruct (in_dec Nat.eq_dec a (walk (graph_of h) Bfs root)) as [Hi|Hi].
      + rewrite Hn. cbn [option_map]. now rewrite fold_set_attr by exact Hnd.
      + exfalso. apply Hi, Hiff, Hr.
    - intros Hr. rewrite fold_upd_nth by exact Hw.
      destruct (in_dec Nat.eq_dec a (walk (graph_of h) Bfs root)) as [Hi|Hi]; [|exact Hn].
      exfalso. apply Hr, Hiff, Hi.
    - apply fold_upd_length.
  Qed.

  Lemma change_attr_values_exact (h : heap) root (mapping : dict string (dict string A)) a n :
    nth_error h a = Some n -> NoDup (dkeys (n_attrs n)) ->
    (forall nm d, In (nm, d) mapping -> NoDup (dkeys d)) ->
    (forall d, reach (graph_of h) root a -> dget (n_name n) mapping = Some d ->
       nth_error (change_attr_values h root mapping) a =
         Some (with_attrs n (map (fun kv => (fst kv, match dget (fst kv) d with Some v => v | None => snd kv end))
                               (n_attrs n)))) /\
    (~ reach (graph_of h) root a \/ dget (n_name n) mapping = None ->
       nth_error (change_attr_values h root mapping) a = Some n) /\
    length (change_attr_values h root mapping) = length h.
  Proof.
    intros Hn Hnd Hm. unfold change_attr_values.
    destruct (walk_exact (graph_of h) Bfs root) as [Hw Hiff].
    split; [|split].
    - intros d Hr Hd. rewrite fold_upd_nth by exact Hw.
      destruct (in_dec Nat.eq_dec a (walk (graph_of h) Bfs root)) as [Hi|Hi].
      + rewrite Hn. cbn [option_map]. unfold change_node_attrs. rewrite Hd.
        rewrite fold_change_attr; [reflexivity|exact Hnd|]. apply (Hm (n_name n)). now apply dget_in.
      + exfalso. apply Hi, Hiff, Hr.
    - intros Hr. rewrite fold_upd_nth by exact Hw.
      destruct (in_dec Nat.eq_dec a (walk (graph_of h) Bfs root)) as [Hi|Hi]; [|exact Hn].
      destruct Hr as [Hr|Hr]; [exfalso; apply Hr, Hiff, Hi|].
      rewrite Hn. cbn [option_map]. unfold change_node_attrs. now rewrite Hr.
    - apply fold_upd_length.
  Qed.
End NodeProofs.

Lemma walk_by_name_spec (g : graph) (order : string) (root : addr) :
    (order <> "bfs" -> order <> "dfs_pre" -> order <> "dfs_post" -> walk_by_name g order root = Err ValueError)%string /\
    walk_by_name g "bfs" root = Ok (walk g Bfs root) /\
    walk_by_name g "dfs_pre" root = Ok (walk g DfsPre root) /\
    walk_by_name g "dfs_post" root = Ok (walk g DfsPost root).
Proof.
  split; [|repeat split; reflexivity]. intros H1 H2 H3. unfold walk_by_name.
  destruct (string_dec order "bfs"); [contradiction|].
  destruct (string_dec order "dfs_pre"); [contradiction|].
  destruct (string_dec order "dfs_post"); [contradiction|]. reflexivity.
Qed.
Lemma maybe_get {V A} (n : node V A) name :
  maybe_get_param n name = match dget name (n_has n) with Some true => match dget name (n_params n) with Some v => Ok (Some v) | None => Err KeyError end | _ => Ok None end /\
  maybe_get_dim n name = Ok match dget name (n_dims n) with Some d => d | None => None end.
Proof.
  split.
  - unfold maybe_get_param, has_param, get_param. destruct (dget name (n_has n)) as [[|]|]; [|reflexivity|reflexivity]. now destruct (dget name (n_params n)).
  - unfold maybe_get_dim, has_dim, get_dim. now destruct (dget name (n_dims n)) as [[d|]|].
Qed.
