From Coq Require Import String.
From Verif Require Import BaseFacts DictFacts GraphModel GraphSpec GraphProofs NodeModel NodeSpec NodeProofs
  EditSpec EditProofs UpdateModel UpdateSpec UpdateProofs.

Set Default Goal Selector "!".

Section UseProofs.
  Context {V A R : Type}.
  Notation node := (node V A).
  Notation heap := (heap V A).
  Variable params : dict (Z * string) V.
  Implicit Types (n : node) (h hin hout : heap).

  Definition nslot n nm := (dget nm (n_params n), dget nm (n_has n)).

  Lemma set_param_slot n nm v nm' :
    nslot (set_param n nm (Some v)) nm' = if eqd nm' nm then (Some v, Some true) else nslot n nm'.
  Proof.
    unfold nslot. cbn [set_param n_params n_has with_params]. rewrite !dget_dset.
    destruct (eqd nm' nm); reflexivity.
  Qed.

  Lemma set_param_rest n nm v : same_rest n (set_param n nm (Some v)) /\ n_grads (set_param n nm (Some v)) = n_grads n.
  Proof. repeat split. Qed.

  Lemma sub_names_spec names : forall n bk,
    NoDup names -> incl names (dkeys (n_has n)) -> NoDup (dkeys bk) ->
    (forall nm, In nm names -> dget (n_id n, nm) params <> None -> exists v, nslot n nm = (Some v, Some true)) ->
    exists n1 bk1, sub_names params n names bk = (n1, bk1, Ok tt) /\
      same_rest n n1 /\ n_grads n1 = n_grads n /\ dkeys (n_has n1) = dkeys (n_has n) /\ NoDup (dkeys bk1) /\
      forall nm, 
        match (if in_dec eqd nm names then dget (n_id n, nm) params else None) with
        | Some v => nslot n1 nm = (Some v, Some true) /\ dget nm bk1 = fst (nslot n nm)
        | None => nslot n1 nm = nslot n nm /\ dget nm bk1 = dget nm bk
        end.
  Proof.
    induction names as [|nm names IH]; intros n bk Hnd Hincl Hbk Hall; cbn [sub_names].
    - exists n, bk. split; [reflexivity|]. split; [apply same_rest_refl|]. split; [reflexivity|].
      split; [reflexivity|]. split; [exact Hbk|]. intros nm. cbn. split; reflexivity.
    - inversion Hnd as [|? ? Hnm Hnd']; subst.
      assert (Hincl' : incl names (dkeys (n_has n))) by (intros x Hx; apply Hincl; now right).
      destruct (dget (n_id n, nm) params) as [v|] eqn:Ev.
      + destruct (Hall nm (or_introl eq_refl)) as [old Hold]; [congruence|].
        pose proof Hold as Hold2. unfold nslot in Hold2. injection Hold2 as Ho1 Ho2.
        assert (Eg : get_param n nm = Ok old) by (unfold get_param; rewrite Ho2, Ho1; reflexivity).
        rewrite Eg.
        assert (Hk : dkeys (n_has (set_param n nm (Some v))) = dkeys (n_has n)).
        { cbn. apply dkeys_dset_mem. apply Hincl. now left. }
        destruct (IH (set_param n nm (Some v)) (dset nm old bk) Hnd') as (n1 & bk1 & I1 & I2 & I3 & I4 & I5 & I6).
        { now rewrite Hk. }
        { now apply NoDup_dset. }
        { intros x Hx Hp. rewrite set_param_slot. destruct (eqd x nm); [now exists v|].
          apply Hall; [now right|exact Hp]. }
        exists n1, bk1. split; [exact I1|].
        split; [exact (same_rest_trans _ _ _ (proj1 (set_param_rest n nm v)) I2)|].
        split; [exact I3|]. split; [now rewrite I4|]. split; [exact I5|].
        intros x. specialize (I6 x). rewrite set_param_slot, dget_dset in I6.
        change (n_id (set_param n nm (Some v))) with (n_id n) in I6.
        destruct (eqd x nm) as [->|Hne].
        * destruct (in_dec eqd nm names) as [Hi|_]; [contradiction|].
          destruct (in_dec eqd nm (nm :: names)) as [_|Hi]; [|exfalso; apply Hi; now left].
          rewrite Ev. rewrite Hold. exact I6.
        * din Hi' Hi'.
          -- destruct (in_dec eqd x names) as [_|Hi]; [|exfalso; destruct Hi' as [He|Hi']; [congruence|contradiction]].
             exact I6.
          -- destruct (in_dec eqd x names) as [Hi|_]; [exfalso; apply Hi'; now right|]. exact I6.
      + destruct (IH n bk Hnd' Hincl' Hbk) as (n1 & bk1 & I1 & I2 & I3 & I4 & I5 & I6).
        { intros x Hx. apply Hall. now right. }
        exists n1, bk1. split; [exact I1|]. split; [exact I2|]. split; [exact I3|]. split; [exact I4|].
        split; [exact I5|]. intros x. specialize (I6 x).
        din Hi' Hi'.
        * destruct Hi' as [<-|Hi'].
          -- rewrite Ev. destruct (in_dec eqd nm names) as [Hi|_]; [contradiction|]. exact I6.
          -- destruct (in_dec eqd x names) as [_|Hi]; [|contradiction]. exact I6.
        * destruct (in_dec eqd x names) as [Hi|_]; [exfalso; apply Hi'; now right|]. exact I6.
  Qed.

  Lemma restore_slot bk : forall n, NoDup (dkeys bk) ->
    forall nm, nslot (fold_left (fun n p => set_param n (fst p) (Some (snd p))) bk n) nm =
      match dget nm bk with Some v => (Some v, Some true) | None => nslot n nm end.
  Proof.
    induction bk as [|[k v] bk IH]; intros n Hnd nm; cbn [fold_left]; [reflexivity|].
    cbn [dkeys map fst] in Hnd. inversion Hnd as [|? ? Hk Hnd']; subst.
    rewrite (IH _ Hnd'). cbn [fst snd]. rewrite set_param_slot. cbn [dget].
    destruct (eqd nm k) as [->|Hne].
    - apply dget_none in Hk. now rewrite Hk.
    - reflexivity.
  Qed.

  Lemma slot_nth h a n nm : nth_error h a = Some n -> slot h a nm = nslot n nm.
  Proof. unfold slot. now intros ->. Qed.

  Lemma shape_refl h : shape h h.
  Proof. split; [reflexivity|]. intros a n Hn. exists n. split; [exact Hn|]. split; [apply same_rest_refl|]. split; reflexivity. Qed.

  Lemma shape_trans h1 h2 h3 : shape h1 h2 -> shape h2 h3 -> shape h1 h3.
  Proof.
    intros [L1 S1] [L2 S2]. split; [congruence|]. intros a n Hn.
    destruct (S1 a n Hn) as (n2 & N2 & R2 & G2 & K2). destruct (S2 a n2 N2) as (n3 & N3 & R3 & G3 & K3).
    exists n3. split; [exact N3|]. split; [exact (same_rest_trans _ _ _ R2 R3)|]. split; congruence.
  Qed.

  Lemma shape_graph h h' : shape h h' -> graph_of h' = graph_of h.
  Proof.
    intros [L S]. unfold graph_of. apply nth_error_ext. intros i. rewrite !nth_error_map.
    destruct (nth_error h i) as [n|] eqn:En.
    - destruct (S i n En) as (n' & -> & Rr & _). cbn. f_equal. apply Rr.
    - assert (En' : nth_error h' i = None) by (apply nth_error_None; apply nth_error_None in En; lia).
      now rewrite En'.
  Qed.

  Lemma shape_targeted h h' b nm : shape h h' -> targeted params h' b nm = targeted params h b nm.
  Proof.
    intros [L S]. unfold targeted. destruct (nth_error h b) as [n|] eqn:En.
    - destruct (S b n En) as (n' & -> & Rr & _ & K). unfold param_names. rewrite K.
      destruct Rr as (-> & _). reflexivity.
    - assert (En' : nth_error h' b = None) by (apply nth_error_None; apply nth_error_None in En; lia).
      now rewrite En'.
  Qed.

  Lemma shape_hdicts h h' : shape h h' -> hdicts_ok h -> hdicts_ok h'.
  Proof.
    intros [L S] Hd a n' Hn'. destruct (nth_error h a) as [n|] eqn:En.
    - destruct (S a n En) as (n2 & N2 & _ & _ & K). rewrite Hn' in N2. injection N2 as <-. rewrite K. exact (Hd _ _ En).
    - apply nth_error_None in En. assert (nth_error h' a = None) by (apply nth_error_None; lia). congruence.
  Qed.

  (** Every addressed parameter in a set of nodes is allocated. *)
  Definition allocated (P : addr -> Prop) h :=
    forall b nm, P b -> targeted params h b nm <> None -> exists v, slot h b nm = (Some v, Some true).

  Definition sub_on (P : addr -> Prop) h hin :=
    shape h hin /\
    forall b nm,
      (P b -> forall v, targeted params h b nm = Some v -> slot hin b nm = (Some v, Some true)) /\
      (~ P b \/ targeted params h b nm = None -> slot hin b nm = slot h b nm).

  Definition res_on (P : addr -> Prop) h hout (h' : heap) :=
    length h' = length hout /\
    forall b nm,
      (P b -> targeted params h b nm <> None -> slot h' b nm = slot h b nm) /\
      (~ P b \/ targeted params h b nm = None -> slot h' b nm = slot hout b nm).

  Definition finish_with (exit : heap -> heap) (o : heap * result R) : heap * result R :=
    match o with (hout, Ok r) => (exit hout, Ok r) | (hout, Err e) => (hout, Err e) end.

  Lemma alloc_after P Q h hin : sub_on P h hin -> (forall b, P b \/ ~ P b) -> allocated Q h -> allocated Q hin.
  Proof.
    intros [Hsh Hs] HP Ha b nm Hb Ht. rewrite (shape_targeted _ _ _ _ Hsh) in Ht.
    destruct (Hs b nm) as [H1 H2]. destruct (HP b) as [Hp|Hp].
    - destruct (targeted params h b nm) as [v|] eqn:E; [|congruence]. exists v. exact (H1 Hp v eq_refl).
    - rewrite H2 by (now left). exact (Ha b nm Hb Ht).
  Qed.

  Lemma reach_head g a b : reach g a b -> b = a \/ exists l, In l (layers g a) /\ reach g l b.
  Proof.
    intros [k Hk]. induction Hk as [a|k a b c Hk IH Hc]; [now left|].
    right. destruct IH as [->|(l & Hl & Hr)].
    - exists c. split; [exact Hc|]. exists 0. constructor.
    - exists l. split; [exact Hl|]. exact (reach_step _ _ _ _ Hr Hc).
  Qed.

  Lemma anyreach_dec g ls b : {exists l, In l ls /\ reach g l b} + {~ exists l, In l ls /\ reach g l b}.
  Proof.
    induction ls as [|l ls IH].
    - right. intros (l & [] & _).
    - destruct (reach_dec g l b) as [H|H]; [left; exists l; split; [now left|exact H]|].
      destruct IH as [H'|H'].
      + left. destruct H' as (x & Hx & Hr). exists x. split; [now right|exact Hr].
      + right. intros (x & [<-|Hx] & Hr); [contradiction|]. apply H'. now exists x.
  Qed.

  (** The main induction. Paths below [a] are shorter than the fuel. *)
  Lemma use_params_gen f : forall h a,
    hdicts_ok h -> closed h -> a < length h ->
    (forall k b, path (graph_of h) k a b -> k < f) ->
    allocated (reach (graph_of h) a) h ->
    exists hin exit,
      (forall body, use_params (R := R) params f h a body = finish_with exit (body hin)) /\
      sub_on (reach (graph_of h) a) h hin /\
      (forall hout, length hout = length h -> res_on (reach (graph_of h) a) h hout (exit hout)).
  Proof.
    induction f as [|f IH]; intros h a Hd Hc Ha Hdepth Hal.
    { exfalso. assert (H : 0 < 0); [|lia]. apply (Hdepth 0 a). constructor. }
    cbn [use_params]. destruct (nth_error h a) as [n|] eqn:En; [|apply nth_error_None in En; lia].
    destruct (sub_names_spec (param_names n) n [] (Hd _ _ En) (incl_refl _) (NoDup_nil _))
      as (n1 & bk & E1 & R1 & G1 & K1 & Nbk & S1).
    { intros nm Hnm Hp. destruct (Hal a nm) as [v Hv].
      - exists 0. constructor.
      - unfold targeted. rewrite En. destruct (in_dec eqd nm (param_names n)); [exact Hp|contradiction].
      - exists v. rewrite <- Hv. symmetry. now apply slot_nth. }
    rewrite E1.
    set (h1 := set_nth a n1 h).
    assert (Hnth : forall b, nth_error h1 b = if Nat.eq_dec b a then Some n1 else nth_error h b).
    { intros b. exact (nth_set_nth h a n1 b n En). }
    assert (Hsh1 : shape h h1).
    { split; [apply set_nth_length|]. intros b m Hm. rewrite Hnth. destruct (Nat.eq_dec b a) as [->|Hne].
      - rewrite En in Hm. injection Hm as <-. exists n1. split; [reflexivity|]. split; [exact R1|]. split; assumption.
      - exists m. split; [exact Hm|]. split; [apply same_rest_refl|]. split; reflexivity. }
    assert (Htg : forall nm, targeted params h a nm =
               if in_dec eqd nm (param_names n) then dget (n_id n, nm) params else None).
    { intros nm. unfold targeted. now rewrite En. }
    assert (Hsub1 : sub_on (eq a) h h1).
    { split; [exact Hsh1|]. intros b nm. split.
      - intros <- v Hv. rewrite (slot_nth h1 a n1) by (rewrite Hnth; destruct (Nat.eq_dec a a); [reflexivity|contradiction]).
        specialize (S1 nm). rewrite <- Htg, Hv in S1. apply S1.
      - intros Hb. unfold slot. rewrite Hnth. destruct (Nat.eq_dec b a) as [->|Hne]; [|reflexivity].
        destruct Hb as [Hb|Hb]; [congruence|]. rewrite En. fold (nslot n1 nm). fold (nslot n nm).
        specialize (S1 nm). rewrite <- Htg, Hb in S1. apply S1. }
    (* entering the layers *)
    assert (Hlayers : forall ls hc, shape h hc ->
      (forall l, In l ls -> In l (layers (graph_of h) a)) ->
      allocated (reach (graph_of h) a) hc ->
      exists hin exit,
        (forall body,
          (fix enter (ls : list addr) (h : heap) : heap * result R :=
               match ls with
               | [] => body h
               | l :: ls' => use_params params f h l (enter ls')
               end) ls hc = finish_with exit (body hin)) /\
        sub_on (fun b => exists l, In l ls /\ reach (graph_of h) l b) hc hin /\
        (forall hout, length hout = length h ->
           res_on (fun b => exists l, In l ls /\ reach (graph_of h) l b) hc hout (exit hout))).
    { induction ls as [|l ls IHls]; intros hc Hshc Hin Halc.
      - exists hc, (fun x => x). split; [|split].
        + intros body. destruct (body hc) as [ho [r|e]]; reflexivity.
        + split; [apply shape_refl|]. intros b nm. split; [intros (l & [] & _)|reflexivity].
        + intros hout Hlen. split; [reflexivity|]. intros b nm. split; [intros (l & [] & _)|reflexivity].
      - assert (Hla : In l (layers (graph_of h) a)) by (apply Hin; now left).
        assert (Hgc : graph_of hc = graph_of h) by exact (shape_graph _ _ Hshc).
        assert (Hral : forall b, reach (graph_of h) l b -> reach (graph_of h) a b).
        { intros b Hb. apply reach_trans with l; [|exact Hb]. exists 1. apply path_step with a; [constructor|exact Hla]. }
        destruct (IH hc l) as (hin1 & exit1 & U1 & Sub1 & Res1).
        + exact (shape_hdicts _ _ Hshc Hd).
        + intros b m x Hm Hx. destruct Hshc as [Lc Sc]. rewrite Lc.
          destruct (nth_error h b) as [m0|] eqn:Em0.
          * destruct (Sc b m0 Em0) as (m' & N' & (_ & _ & _ & El & _) & _). rewrite Hm in N'. injection N' as <-.
            rewrite El in Hx. exact (Hc _ _ _ Em0 Hx).
          * apply nth_error_None in Em0. assert (nth_error hc b = None) by (apply nth_error_None; lia). congruence.
        + destruct Hshc as [Lc _]. rewrite Lc. rewrite nth_layers, En in Hla. exact (Hc _ _ _ En Hla).
        + rewrite Hgc. intros k b Hk. pose proof (path_snoc _ _ _ _ _ Hla Hk) as Hk'. apply Hdepth in Hk'. lia.
        + rewrite Hgc. intros b nm Hb. apply (Halc b nm (Hral b Hb)).
        + rewrite Hgc in Sub1, Res1.
          assert (Hsh2 : shape h hin1) by exact (shape_trans _ _ _ Hshc (proj1 Sub1)).
          destruct (IHls hin1 Hsh2) as (hin2 & exit2 & U2 & Sub2 & Res2).
          { intros x Hx. apply Hin. now right. }
          { apply (alloc_after _ _ _ _ Sub1); [|exact Halc].
            intros b. destruct (reach_dec (graph_of h) l b); [now left|now right]. }
          exists hin2, (fun ho => exit1 (exit2 ho)). split; [|split].
          * intros body. rewrite U1, U2. destruct (body hin2) as [ho [r|e]]; reflexivity.
          * split; [exact (shape_trans _ _ _ (proj1 Sub1) (proj1 Sub2))|].
            intros b nm. destruct (proj2 Sub1 b nm) as [A1 A2]. destruct (proj2 Sub2 b nm) as [B1 B2].
            rewrite (shape_targeted _ _ _ _ (proj1 Sub1)) in B1, B2. split.
            -- intros (x & [<-|Hx] & Hr) v Hv.
               ++ destruct (anyreach_dec (graph_of h) ls b) as [Hy|Hy]; [exact (B1 Hy v Hv)|].
                  rewrite B2 by (now left). exact (A1 Hr v Hv).
               ++ apply B1; [now exists x|exact Hv].
            -- intros [Hn|Hn].
               ++ rewrite B2; [apply A2|]; left.
                  ** intros Hr. apply Hn. exists l. split; [now left|exact Hr].
                  ** intros (x & Hx & Hr). apply Hn. exists x. split; [now right|exact Hr].
               ++ rewrite B2 by (now right). apply A2. now right.
          * intros hout Hlen.
            assert (Hlen1 : length (exit2 hout) = length h) by (rewrite (proj1 (Res2 hout Hlen)); exact Hlen).
            destruct Hshc as [Lc Sc].
            assert (Hlen2 : length (exit2 hout) = length hc) by lia.
            split; [rewrite (proj1 (Res1 _ Hlen2)); exact (proj1 (Res2 hout Hlen))|].
            intros b nm. destruct (proj2 (Res1 _ Hlen2) b nm) as [A1 A2].
            destruct (proj2 (Res2 hout Hlen) b nm) as [B1 B2].
            destruct (proj2 Sub1 b nm) as [C1 C2].
            rewrite (shape_targeted _ _ _ _ (proj1 Sub1)) in B1, B2. split.
            -- intros (x & [<-|Hx] & Hr) Ht; [exact (A1 Hr Ht)|].
               destruct (reach_dec (graph_of h) l b) as [Hy|Hy]; [exact (A1 Hy Ht)|].
               rewrite A2 by (now left). rewrite B1; [|now exists x|exact Ht]. apply C2. now left.
            -- intros [Hn|Hn].
               ++ rewrite A2; [apply B2|]; left.
                  ** intros (x & Hx & Hr). apply Hn. exists x. split; [now right|exact Hr].
                  ** intros Hr. apply Hn. exists l. split; [now left|exact Hr].
               ++ rewrite A2 by (now right). apply B2. now right. }
    destruct (Hlayers (n_layers n) h1 Hsh1) as (hin & exit & U & Sub & Res).
    { intros l Hl. rewrite nth_layers, En. exact Hl. }
    { apply (alloc_after _ _ _ _ Hsub1); [|exact Hal]. intros b. destruct (Nat.eq_dec a b); [now left|now right]. }
    exists hin, (fun ho => restore (exit ho) a bk). split; [|split].
    - intros body. rewrite U. destruct (body hin) as [ho [r|e]]; reflexivity.
    - split; [exact (shape_trans _ _ _ Hsh1 (proj1 Sub))|].
      intros b nm. destruct (proj2 Sub b nm) as [A1 A2]. destruct (proj2 Hsub1 b nm) as [B1 B2].
      rewrite (shape_targeted _ _ _ _ Hsh1) in A1, A2. split.
      + intros Hr v Hv.
        destruct (anyreach_dec (graph_of h) (n_layers n) b) as [Hy|Hy]; [exact (A1 Hy v Hv)|].
        rewrite A2 by (now left). apply B1; [|exact Hv].
        apply reach_head in Hr. destruct Hr as [->|(l & Hl & Hr)]; [reflexivity|].
        exfalso. apply Hy. exists l. split; [|exact Hr]. now rewrite nth_layers, En in Hl.
      + intros [Hn|Hn].
        * rewrite A2; [apply B2|]; left.
          -- intros <-. apply Hn. exists 0. constructor.
          -- intros (l & Hl & Hr). apply Hn. apply reach_trans with l; [|exact Hr]. exists 1.
             apply path_step with a; [constructor|]. now rewrite nth_layers, En.
        * rewrite A2 by (now right). apply B2. now right.
    - intros hout Hlen. specialize (Res hout Hlen). destruct Res as [L2 Res].
      split; [unfold restore; rewrite upd_length; exact L2|].
      intros b nm. destruct (Res b nm) as [A1 A2]. destruct (proj2 Hsub1 b nm) as [B1 B2].
      rewrite (shape_targeted _ _ _ _ Hsh1) in A1, A2.
      assert (Hslot : slot (restore (exit hout) a bk) b nm =
        if Nat.eq_dec b a then match dget nm bk with Some v => (Some v, Some true) | None => slot (exit hout) b nm end
        else slot (exit hout) b nm).
      { unfold slot at 1. unfold restore. rewrite upd_nth. destruct (Nat.eq_dec b a) as [->|Hne]; [|reflexivity].
        destruct (nth_error (exit hout) a) as [m|] eqn:Em.
        - cbn [option_map]. pose proof (restore_slot bk m Nbk nm) as Hrs. unfold nslot at 1 in Hrs. rewrite Hrs.
          rewrite (slot_nth _ _ _ nm Em). reflexivity.
        - apply nth_error_None in Em. lia. }
      rewrite Hslot. specialize (S1 nm). rewrite <- Htg in S1. split.
      + intros Hr Ht. destruct (Nat.eq_dec b a) as [->|Hne].
        * destruct (targeted params h a nm) as [v|] eqn:E; [|congruence]. destruct S1 as [_ S1]. rewrite S1.
          destruct (Hal a nm) as [w Hw].
          { exists 0. constructor. }
          { congruence. }
          rewrite Hw. rewrite (slot_nth h a n nm En) in Hw. rewrite Hw. reflexivity.
        * apply reach_head in Hr. destruct Hr as [Hr|(l & Hl & Hr)]; [congruence|].
          rewrite A1; [|exists l; split; [now rewrite nth_layers, En in Hl|exact Hr]|exact Ht].
          apply B2. left. congruence.
      + intros Hn.
        assert (E2 : slot (exit hout) b nm = slot hout b nm).
        { destruct Hn as [Hn|Hn].
          - apply A2. left. intros (l & Hl & Hr). apply Hn. apply reach_trans with l; [|exact Hr]. exists 1.
            apply path_step with a; [constructor|]. now rewrite nth_layers, En.
          - apply A2. now right. }
        destruct (Nat.eq_dec b a) as [->|Hne]; [|exact E2].
        destruct Hn as [Hn|Hn]; [exfalso; apply Hn; exists 0; constructor|].
        rewrite Hn in S1. destruct S1 as [_ S1]. rewrite S1. cbn [dget]. exact E2.
  Qed.

  (** Depth of an acyclic graph. *)
  Lemma path_nodes g k a b : path g k a b ->
    exists l, length l = k /\ (forall x, In x l -> exists y, In y (layers g x)) /\
      (forall x, In x l -> exists j, path g (S j) x b) /\
      (acyclic g -> NoDup l).
  Proof.
    induction 1 as [a|k a b c Hp IH Hc].
    - exists []. repeat split; try (intros x []). intros _. constructor.
    - destruct IH as (l & Hl & H1 & H2 & H3). exists (b :: l). split; [cbn; lia|]. split; [|split].
      + intros x [<-|Hx]; [now exists c|exact (H1 x Hx)].
      + intros x [<-|Hx].
        * exists 0. apply path_step with b; [constructor|exact Hc].
        * destruct (H2 x Hx) as [j Hj]. exists (S j). now apply path_step with b.
      + intros Hac. constructor; [|exact (H3 Hac)]. intros Hi. destruct (H2 b Hi) as [j Hj]. exact (Hac _ _ Hj).
  Qed.

  Lemma acyclic_depth g k a b : acyclic g -> path g k a b -> k <= length g.
  Proof.
    intros Hac Hp. destruct (path_nodes _ _ _ _ Hp) as (l & Hl & H1 & _ & H3). rewrite <- Hl.
    rewrite <- (seq_length (length g) 0). apply NoDup_incl_length; [exact (H3 Hac)|].
    intros x Hx. apply in_seq. destruct (H1 x Hx) as [y Hy]. unfold layers in Hy.
    destruct (Nat.lt_ge_cases x (length g)) as [Hlt|Hge]; [lia|]. rewrite nth_overflow in Hy by exact Hge. destruct Hy.
  Qed.

  Lemma sub_on_spec h a hin : sub_on (reach (graph_of h) a) h hin -> substituted params h a hin.
  Proof.
    intros [Hsh Hs]. split; [exact Hsh|]. intros b nm. destruct (Hs b nm) as [H1 H2].
    destruct (targeted params h b nm) as [v|] eqn:E; [|apply H2; now right].
    destruct (in_dec Nat.eq_dec b (walk (graph_of h) Bfs a)) as [Hi|Hi].
    - apply H1; [now apply walk_exact in Hi|reflexivity].
    - apply H2. left. intros Hr. apply Hi, walk_exact, Hr.
  Qed.

  Lemma res_on_spec h a hout h' : res_on (reach (graph_of h) a) h hout h' -> restored params h a hout h'.
  Proof.
    intros [Hsh Hs]. split; [exact Hsh|]. intros b nm. destruct (Hs b nm) as [H1 H2].
    destruct (targeted params h b nm) as [v|] eqn:E; [|apply H2; now right].
    destruct (in_dec Nat.eq_dec b (walk (graph_of h) Bfs a)) as [Hi|Hi].
    - apply H1; [now apply walk_exact in Hi|discriminate].
    - apply H2. left. intros Hr. apply Hi, walk_exact, Hr.
  Qed.

  Lemma use_params_spec fuel h a :
    hdicts_ok h -> closed h -> a < length h -> acyclic (graph_of h) -> length h < fuel ->
    (forall b nm, reach (graph_of h) a b -> targeted params h b nm <> None ->
       exists v, slot h b nm = (Some v, Some true)) ->
    exists hin, substituted params h a hin /\
      forall body hout r, body hin = (hout, r) ->
        match r with
        | Ok x => length hout = length h ->
                  exists h', use_params (R := R) params fuel h a body = (h', Ok x) /\ restored params h a hout h'
        | Err e => use_params (R := R) params fuel h a body = (hout, Err e)
        end.
  Proof.
    intros Hd Hc Ha Hac Hf Hal.
    destruct (use_params_gen fuel h a Hd Hc Ha) as (hin & exit & U & Sub & Res).
    - intros k b Hk. pose proof (acyclic_depth _ _ _ _ Hac Hk) as Hb. unfold graph_of in Hb. rewrite map_length in Hb. lia.
    - exact Hal.
    - exists hin. split; [now apply sub_on_spec|]. intros body hout r Hb.
      destruct r as [x|e].
      + intros Hlen. exists (exit hout). rewrite U, Hb. split; [reflexivity|]. apply res_on_spec, Res, Hlen.
      + rewrite U, Hb. reflexivity.
  Qed.

  (** A body that leaves parameters alone: everything is back. *)
  Lemma use_params_transparent fuel h a :
    hdicts_ok h -> closed h -> a < length h -> acyclic (graph_of h) -> length h < fuel ->
    (forall b nm, reach (graph_of h) a b -> targeted params h b nm <> None ->
       exists v, slot h b nm = (Some v, Some true)) ->
    forall body,
      (forall hi ho r, body hi = (ho, r) -> length ho = length hi /\ (forall b nm, slot ho b nm = slot hi b nm) /\ exists x, r = Ok x) ->
      exists h' x, use_params (R := R) params fuel h a body = (h', Ok x) /\ length h' = length h /\
        forall b nm, slot h' b nm = slot h b nm.
  Proof.
    intros Hd Hc Ha Hac Hf Hal body Hbody.
    destruct (use_params_spec fuel h a Hd Hc Ha Hac Hf Hal) as (hin & Sub & H).
    destruct (body hin) as [hout r] eqn:Eb. destruct (Hbody _ _ _ Eb) as (L & Sl & x & ->).
    specialize (H body hout (Ok x) Eb). cbn in H. destruct Sub as [[Lin _] Sub].
    destruct H as (h' & E & [L' R']); [congruence|]. exists h', x. split; [exact E|]. split; [congruence|].
    intros b nm. rewrite R'. specialize (Sub b nm).
    destruct (targeted params h b nm) as [v|].
    - destruct (in_dec Nat.eq_dec b (walk (graph_of h) Bfs a)); [reflexivity|]. now rewrite Sl, Sub.
    - now rewrite Sl, Sub.
  Qed.
End UseProofs.

Open Scope string_scope.
Lemma use_params_exception_witness :
  exists (h : heap Z Z) params (body : heap Z Z -> heap Z Z * result unit) h',
    (forall hi, body hi = (hi, Err ValueError)) /\
    use_params params 9 h 0 body = (h', Err ValueError) /\ map n_params h' <> map n_params h.
Proof.
  exists [mkNode 1%Z "linear" 0 [] [] [] [("W", true)] [("W", 5%Z)] [] [] []], [((1%Z, "W"), 6%Z)],
    (fun hi => (hi, Err ValueError)).
  eexists. split; [reflexivity|]. split; [vm_compute; reflexivity|]. vm_compute. discriminate.
Qed.
