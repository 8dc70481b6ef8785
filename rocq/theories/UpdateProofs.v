From Coq Require Import String.
From Verif Require Import BaseFacts DictFacts GraphModel GraphSpec GraphProofs NodeModel NodeSpec NodeProofs
  EditSpec EditProofs UpdateModel UpdateSpec.

Set Default Goal Selector "!".

Section FinishProofs.
  Context {V A S : Type}.
  Notation node := (node V A).
  Notation heap := (heap V A).
  Variable opt : S -> Z * string -> V -> V -> S * (V * V).
  Implicit Types (n : node) (h : heap).

  Lemma threaded_app s1 l1 s2 l2 s3 :
    threaded opt s1 l1 s2 -> threaded opt s2 l2 s3 -> threaded opt s1 (l1 ++ l2) s3.
  Proof. induction 1 as [s|s a k p g out log s' _ IH Ho]; intros H; [exact H|]. cbn. constructor; auto. Qed.

  Lemma same_rest_refl n : same_rest n n.
  Proof. repeat split. Qed.
  Lemma same_rest_trans n1 n2 n3 : same_rest n1 n2 -> same_rest n2 n3 -> same_rest n1 n3.
  Proof. unfold same_rest. intuition congruence. Qed.

  (** One optimizer call on a node. *)
  Definition one (n : node) nm (pg : V * V) : node :=
    set_param (with_grads n (dset nm (snd pg) (n_grads n))) nm (Some (fst pg)).

  Lemma one_same nm pg n : same_rest n (one n nm pg).
  Proof. repeat split. Qed.

  Definition at_ n nm := (dget nm (n_params n), dget nm (n_has n), dget nm (n_grads n)).

  Lemma one_other n nm pg nm' : nm' <> nm -> at_ (one n nm pg) nm' = at_ n nm'.
  Proof.
    intros H. unfold at_, one. cbn [set_param n_params n_has n_grads with_params with_grads].
    rewrite !dget_dset_other by exact H. reflexivity.
  Qed.

  Lemma at_inv n n' nm : at_ n nm = at_ n' nm ->
    dget nm (n_params n) = dget nm (n_params n') /\ dget nm (n_has n) = dget nm (n_has n') /\
    dget nm (n_grads n) = dget nm (n_grads n').
  Proof. unfold at_. intros H. injection H as H1 H2 H3. auto. Qed.

  Lemma at_calls a n n1 names : n_id n1 = n_id n -> (forall nm, In nm names -> at_ n1 nm = at_ n nm) ->
    node_calls a n1 names = node_calls a n names.
  Proof.
    intros Hid H. unfold node_calls. rewrite !flat_map_concat_map. f_equal. apply map_ext_in.
    intros nm Hin. specialize (H nm Hin). apply at_inv in H. destruct H as (H1 & H2 & H3).
    unfold get_param, get_grad. now rewrite H1, H2, H3, Hid.
  Qed.

  Lemma finish_names_ok names : forall s a n s' n' log,
    NoDup names -> incl names (dkeys (n_has n)) ->
    finish_names opt s a n names = (s', n', log, Ok tt) ->
    threaded opt s log s' /\ map fst log = node_calls a n names /\ same_rest n n' /\
    dkeys (n_has n') = dkeys (n_has n) /\
    (forall nm, ~ In nm names \/ has_grad n nm = false -> at_ n' nm = at_ n nm) /\
    (forall b k p g p' g', In ((b, k, p, g), (p', g')) log ->
       b = a /\ fst k = n_id n /\ In (snd k) names /\ at_ n' (snd k) = (Some p', Some true, Some g')) /\
    (forall nm, In nm names -> has_grad n nm = true -> exists p, get_param n nm = Ok p).
  Proof.
    induction names as [|nm names IH]; intros s a n s' n' log Hnd Hincl Hr; cbn [finish_names] in Hr.
    - injection Hr as <- <- <-. split; [constructor|]. split; [reflexivity|]. split; [apply same_rest_refl|].
      split; [reflexivity|]. split; [reflexivity|]. split; [intros b k p g p' g' []|intros nm []].
    - inversion Hnd as [|? ? Hnm Hnd']; subst.
      assert (Hincl' : incl names (dkeys (n_has n))) by (intros x Hx; apply Hincl; now right).
      destruct (has_grad n nm) eqn:Hg.
      + destruct (get_param n nm) as [p|e] eqn:Ep; [|discriminate].
        destruct (get_grad n nm) as [g|e] eqn:Eg; [|discriminate].
        destruct (opt s (n_id n, nm) p g) as [s1 pg] eqn:Eo. fold (one n nm pg) in Hr.
        destruct (finish_names opt s1 a (one n nm pg) names) as [[[s2 n2] log2] r2] eqn:Ef.
        injection Hr as <- <- <- ->.
        assert (Hk : dkeys (n_has (one n nm pg)) = dkeys (n_has n)).
        { unfold one. cbn. apply dkeys_dset_mem. apply Hincl. now left. }
        destruct (IH s1 a (one n nm pg) s2 n2 log2 Hnd') as (I1 & I2 & I3 & I4 & I5 & I6 & I7).
        { now rewrite Hk. }
        { exact Ef. }
        assert (Hoth : forall x, In x names -> at_ (one n nm pg) x = at_ n x).
        { intros x Hx. apply one_other. intros ->. contradiction. }
        assert (Hhg : forall x, x <> nm -> has_grad (one n nm pg) x = has_grad n x).
        { intros x Hx. pose proof (one_other n nm pg x Hx) as H. apply at_inv in H. destruct H as (_ & _ & H).
          unfold has_grad, dmem. now rewrite H. }
        split; [|split; [|split; [|split; [|split; [|split]]]]].
        * apply th_cons; rewrite Eo; [exact I1|reflexivity].
        * cbn [map fst]. unfold node_calls at 1. cbn [flat_map]. rewrite Ep, Eg. cbn [app]. f_equal.
          rewrite I2. apply at_calls; [reflexivity|exact Hoth].
        * apply same_rest_trans with (one n nm pg); [apply one_same|exact I3].
        * now rewrite I4.
        * intros x Hx.
          assert (Hxn : x <> nm).
          { destruct Hx as [Hx|Hx]; [intros ->; apply Hx; now left|intros ->; congruence]. }
          rewrite (I5 x); [now apply one_other|].
          destruct Hx as [Hx|Hx]; [left; intros Hi; apply Hx; now right|right; now rewrite Hhg].
        * intros b k p1 g1 p' g' [He|Hin].
          -- injection He as <- <- <- <- He. cbn [fst snd]. split; [reflexivity|]. split; [reflexivity|].
             split; [now left|]. rewrite (I5 nm) by (now left).
             unfold at_, one. cbn. rewrite !dget_dset_same. rewrite He. reflexivity.
          -- destruct (I6 _ _ _ _ _ _ Hin) as (J1 & J2 & J3 & J4).
             split; [exact J1|]. split; [exact J2|]. split; [now right|exact J4].
        * intros x [<-|Hx] Hgx; [now exists p|].
          assert (Hxn : x <> nm) by (intros ->; contradiction).
          destruct (I7 x Hx) as [p1 Hp1]; [now rewrite Hhg|]. exists p1.
          specialize (Hoth x Hx). apply at_inv in Hoth. destruct Hoth as (H1 & H2 & _).
          unfold get_param in *. now rewrite H1, H2 in Hp1.
      + destruct (IH s a n s' n' log Hnd' Hincl' Hr) as (I1 & I2 & I3 & I4 & I5 & I6 & I7).
        split; [exact I1|]. split; [|split; [exact I3|split; [exact I4|split; [|split]]]].
        * rewrite I2. unfold node_calls at 2. cbn [flat_map].
          assert (He : get_grad n nm = Err KeyError).
          { unfold has_grad, dmem in Hg. unfold get_grad. destruct (dget nm (n_grads n)); [discriminate|reflexivity]. }
          rewrite He. destruct (get_param n nm); reflexivity.
        * intros x [Hx|Hx].
          -- destruct (eqd x nm) as [->|Hne]; [apply I5; now right|].
             apply I5. left. intros Hi. apply Hx. now right.
          -- apply I5. now right.
        * intros b k p g p' g' Hin. destruct (I6 _ _ _ _ _ _ Hin) as (J1 & J2 & J3 & J4).
          split; [exact J1|]. split; [exact J2|]. split; [now right|exact J4].
        * intros x [<-|Hx] Hgx; [congruence|]. exact (I7 x Hx Hgx).
  Qed.

  Lemma finish_names_succeeds names : forall s a n, NoDup names ->
    (forall nm, In nm names -> has_grad n nm = true -> exists p, get_param n nm = Ok p) ->
    exists s' n' log, finish_names opt s a n names = (s', n', log, Ok tt).
  Proof.
    induction names as [|nm names IH]; intros s a n Hnd Hall; cbn [finish_names]; [now exists s, n, []|].
    inversion Hnd as [|? ? Hnm Hnd']; subst.
    destruct (has_grad n nm) eqn:Hg.
    - destruct (Hall nm (or_introl eq_refl) Hg) as [p ->].
      unfold has_grad, dmem in Hg. unfold get_grad. destruct (dget nm (n_grads n)) as [g|]; [|discriminate].
      destruct (opt s (n_id n, nm) p g) as [s1 pg]. fold (one n nm pg).
      destruct (IH s1 a (one n nm pg) Hnd') as (s' & n' & log & ->).
      + intros x Hx Hgx. assert (Hxn : x <> nm) by (intros ->; contradiction).
        pose proof (one_other n nm pg x Hxn) as H. apply at_inv in H. destruct H as (H1 & H2 & H3).
        destruct (Hall x (or_intror Hx)) as [p1 Hp1].
        * unfold has_grad, dmem in *. now rewrite <- H3.
        * exists p1. unfold get_param in *. now rewrite H1, H2.
      + now eexists _, _, _.
    - apply IH; [exact Hnd'|]. intros x Hx. apply Hall. now right.
  Qed.

  Lemma nth_set_nth {X} (l : list X) i x j y : nth_error l i = Some y ->
    nth_error (set_nth i x l) j = if Nat.eq_dec j i then Some x else nth_error l j.
  Proof.
    intros Hy. destruct (Nat.eq_dec j i) as [->|Hne]; [exact (set_nth_same _ _ _ _ Hy)|].
    apply set_nth_other. congruence.
  Qed.

  Lemma finish_nodes_ok nodes : forall s h s' h' log,
    NoDup nodes -> hdicts_ok h ->
    finish_nodes opt s h nodes = (s', h', log, Ok tt) ->
    threaded opt s log s' /\
    map fst log = flat_map (fun a => match nth_error h a with Some n => node_calls a n (param_names n) | None => [] end) nodes /\
    length h' = length h /\
    (forall a, ~ In a nodes -> nth_error h' a = nth_error h a) /\
    (forall a n, In a nodes -> nth_error h a = Some n ->
       exists n', nth_error h' a = Some n' /\ same_rest n n' /\
       (forall nm, ~ In nm (param_names n) \/ has_grad n nm = false -> at_ n' nm = at_ n nm) /\
       (forall k p g p' g', In ((a, k, p, g), (p', g')) log -> at_ n' (snd k) = (Some p', Some true, Some g'))) /\
    (forall b k p g o, In ((b, k, p, g), o) log -> In b nodes) /\
    (forall a n nm, In a nodes -> nth_error h a = Some n -> In nm (param_names n) -> has_grad n nm = true ->
       exists p, get_param n nm = Ok p).
  Proof.
    induction nodes as [|a nodes IH]; intros s h s' h' log Hnd Hd Hr; cbn [finish_nodes] in Hr.
    - injection Hr as <- <- <-. split; [constructor|]. split; [reflexivity|]. split; [reflexivity|].
      split; [reflexivity|]. split; [intros a n []|]. split; [intros b k p g o []|intros a n nm []].
    - inversion Hnd as [|? ? Hna Hnd']; subst.
      destruct (nth_error h a) as [n|] eqn:En; [|discriminate].
      destruct (finish_names opt s a n (param_names n)) as [[[s1 n1] log1] r] eqn:Ef.
      destruct r as [[]|e]; [|discriminate].
      destruct (finish_nodes opt s1 (set_nth a n1 h) nodes) as [[[s2 h2] log2] r2] eqn:Ef2.
      injection Hr as <- <- <- ->.
      destruct (finish_names_ok _ _ _ _ _ _ _ (Hd _ _ En) (incl_refl _) Ef)
        as (F1 & F2 & F3 & F4 & F5 & F6 & F7).
      assert (Hnth : forall b, nth_error (set_nth a n1 h) b = if Nat.eq_dec b a then Some n1 else nth_error h b).
      { intros b. exact (nth_set_nth h a n1 b n En). }
      destruct (IH s1 (set_nth a n1 h) s2 h2 log2 Hnd') as (I1 & I2 & I3 & I4 & I5 & I6 & I7).
      { intros b m Hm. rewrite Hnth in Hm. destruct (Nat.eq_dec b a) as [->|Hne].
        - injection Hm as <-. rewrite F4. exact (Hd _ _ En).
        - exact (Hd _ _ Hm). }
      { exact Ef2. }
      assert (Hnth' : forall b, In b nodes -> nth_error (set_nth a n1 h) b = nth_error h b).
      { intros b Hb. rewrite Hnth. destruct (Nat.eq_dec b a) as [->|]; [contradiction|reflexivity]. }
      split; [|split; [|split; [|split; [|split; [|split]]]]].
      + exact (threaded_app _ _ _ _ _ F1 I1).
      + cbn [flat_map]. rewrite En, map_app. apply f_equal2; [exact F2|].
        etransitivity; [exact I2|].
        rewrite !flat_map_concat_map. f_equal. apply map_ext_in. intros b Hb. now rewrite Hnth'.
      + now rewrite I3, set_nth_length.
      + intros b Hb. rewrite I4 by (intros Hi; apply Hb; now right). rewrite Hnth.
        destruct (Nat.eq_dec b a) as [->|]; [exfalso; apply Hb; now left|reflexivity].
      + intros b m Hb Hm. destruct (Nat.eq_dec b a) as [->|Hne].
        * rewrite En in Hm. injection Hm as <-. exists n1.
          split; [rewrite (I4 a Hna), Hnth; destruct (Nat.eq_dec a a); [reflexivity|contradiction]|].
          split; [exact F3|]. split; [exact F5|]. intros k p g p' g' Hin. apply in_app_or in Hin.
          destruct Hin as [Hin|Hin]; [apply (F6 _ _ _ _ _ _ Hin)|]. exfalso. apply Hna. exact (I6 _ _ _ _ _ Hin).
        * destruct Hb as [Hb|Hb]; [congruence|].
          destruct (I5 b m Hb) as (m' & M1 & M2 & M3 & M4); [now rewrite Hnth'|].
          exists m'. split; [exact M1|]. split; [exact M2|]. split; [exact M3|].
          intros k p g p' g' Hin. apply in_app_or in Hin. destruct Hin as [Hin|Hin]; [|exact (M4 _ _ _ _ _ Hin)].
          destruct (F6 _ _ _ _ _ _ Hin) as [Hba _]. congruence.
      + intros b k p g [p' g'] Hin. apply in_app_or in Hin. destruct Hin as [Hin|Hin].
        * destruct (F6 _ _ _ _ _ _ Hin) as [-> _]. now left.
        * right. exact (I6 _ _ _ _ _ Hin).
      + intros b m nm Hb Hm Hnm Hg. destruct (Nat.eq_dec b a) as [->|Hne].
        * rewrite En in Hm. injection Hm as <-. exact (F7 nm Hnm Hg).
        * destruct Hb as [Hb|Hb]; [congruence|]. apply (I7 b m nm Hb); [now rewrite Hnth'|exact Hnm|exact Hg].
  Qed.

  Lemma finish_nodes_succeeds nodes : forall s h,
    NoDup nodes -> hdicts_ok h -> (forall a, In a nodes -> a < length h) ->
    (forall a n nm, In a nodes -> nth_error h a = Some n -> In nm (param_names n) -> has_grad n nm = true ->
       exists p, get_param n nm = Ok p) ->
    exists s' h' log, finish_nodes opt s h nodes = (s', h', log, Ok tt).
  Proof.
    induction nodes as [|a nodes IH]; intros s h Hnd Hd Hlt Hall; cbn [finish_nodes]; [now exists s, h, []|].
    inversion Hnd as [|? ? Hna Hnd']; subst.
    assert (Ha : a < length h) by (apply Hlt; now left).
    destruct (nth_error h a) as [n|] eqn:En; [|apply nth_error_None in En; lia].
    destruct (finish_names_succeeds (param_names n) s a n (Hd _ _ En)) as (s1 & n1 & log1 & Ef).
    { intros nm Hnm Hg. exact (Hall a n nm (or_introl eq_refl) En Hnm Hg). }
    rewrite Ef.
    destruct (finish_names_ok _ _ _ _ _ _ _ (Hd _ _ En) (incl_refl _) Ef) as (_ & _ & _ & F4 & _).
    destruct (IH s1 (set_nth a n1 h) Hnd') as (s2 & h2 & log2 & ->).
    - intros b m Hm. rewrite (nth_set_nth h a n1 b n En) in Hm. destruct (Nat.eq_dec b a).
      + injection Hm as <-. rewrite F4. exact (Hd _ _ En).
      + exact (Hd _ _ Hm).
    - intros b Hb. rewrite set_nth_length. apply Hlt. now right.
    - intros b m nm Hb Hm. rewrite (nth_set_nth h a n1 b n En) in Hm.
      destruct (Nat.eq_dec b a) as [->|]; [contradiction|]. apply (Hall b m nm); [now right|exact Hm].
    - now eexists _, _, _.
  Qed.

  Lemma get_of_at n nm p g : at_ n nm = (Some p, Some true, Some g) -> get_param n nm = Ok p /\ get_grad n nm = Ok g.
  Proof. unfold at_, get_param, get_grad. intros H. injection H as -> -> ->. split; reflexivity. Qed.

  Lemma finish_update_effect shim_finish s h root s' h' log :
    hdicts_ok h ->
    finish_update opt shim_finish s h root = (s', h', log, Ok tt) ->
    threaded opt (fold_left shim_finish (flat_map (shims_of h) (walk (graph_of h) Bfs root)) s) log s' /\
    map fst log = expected_calls h root /\
    length h' = length h /\
    (forall a, ~ reach (graph_of h) root a -> nth_error h' a = nth_error h a) /\
    (forall a n, reach (graph_of h) root a -> nth_error h a = Some n ->
       exists n', nth_error h' a = Some n' /\ same_rest n n' /\
       (forall nm, ~ In nm (param_names n) \/ has_grad n nm = false ->
          get_param n' nm = get_param n nm /\ has_param n' nm = has_param n nm /\ get_grad n' nm = get_grad n nm) /\
       (forall k p g p' g', In ((a, k, p, g), (p', g')) log ->
          get_param n' (snd k) = Ok p' /\ get_grad n' (snd k) = Ok g')).
  Proof.
    intros Hd Hr. unfold finish_update in Hr. destruct (walk_exact (graph_of h) Bfs root) as [Hnd Hiff].
    destruct (finish_nodes_ok _ _ _ _ _ _ Hnd Hd Hr) as (I1 & I2 & I3 & I4 & I5 & _ & _).
    split; [|split; [exact I2|split; [exact I3|split]]].
    - replace (fold_left shim_finish _ s) with (finish_shims shim_finish s h root); [exact I1|].
      unfold finish_shims. clear. generalize (walk (graph_of h) Bfs root) as l. intros l. revert s.
      induction l as [|a l IH]; intros s; cbn [fold_left flat_map]; [reflexivity|].
      now rewrite fold_left_app, IH.
    - intros a Ha. apply I4. intros Hi. apply Ha, Hiff, Hi.
    - intros a n Ha Hn. destruct (I5 a n) as (n' & M1 & M2 & M3 & M4); [now apply Hiff|exact Hn|].
      exists n'. split; [exact M1|]. split; [exact M2|]. split.
      + intros nm Hnm. specialize (M3 nm Hnm). apply at_inv in M3. destruct M3 as (H1 & H2 & H3).
        unfold get_param, has_param, get_grad. rewrite H1, H2, H3. repeat split; reflexivity.
      + intros k p g p' g' Hin. exact (get_of_at _ _ _ _ (M4 _ _ _ _ _ Hin)).
  Qed.

  Lemma finish_update_succeeds shim_finish s h root :
    hdicts_ok h -> closed h -> root < length h ->
    (forall a n nm, reach (graph_of h) root a -> nth_error h a = Some n -> In nm (param_names n) ->
       has_grad n nm = true -> exists p, get_param n nm = Ok p) ->
    exists s' h' log, finish_update opt shim_finish s h root = (s', h', log, Ok tt).
  Proof.
    intros Hd Hc Hroot Hall. destruct (walk_exact (graph_of h) Bfs root) as [Hnd Hiff].
    apply finish_nodes_succeeds; [exact Hnd|exact Hd| |].
    - intros a Ha. apply Hiff in Ha. exact (reach_in_heap _ _ _ Hc Hroot Ha).
    - intros a n nm Ha. apply Hiff in Ha. exact (Hall a n nm Ha).
  Qed.

  Lemma node_calls_keys a n names c : In c (node_calls a n names) ->
    exists nm p g, c = (a, (n_id n, nm), p, g) /\ In nm names /\ get_param n nm = Ok p /\ get_grad n nm = Ok g.
  Proof.
    unfold node_calls. rewrite in_flat_map. intros (nm & Hnm & Hc).
    destruct (get_param n nm) as [p|] eqn:Ep; [|destruct Hc]. destruct (get_grad n nm) as [g|] eqn:Eg; [|destruct Hc].
    destruct Hc as [<-|[]]. now exists nm, p, g.
  Qed.

  (** Each (object, parameter) occurs at most once, and exactly those with a gradient occur. *)
  Lemma expected_calls_once h root : hdicts_ok h ->
    NoDup (map (fun c : call_in => (fst (fst (fst c)), snd (snd (fst (fst c))))) (expected_calls h root)) /\
    (forall a k p g, In (a, k, p, g) (expected_calls h root) <->
       reach (graph_of h) root a /\ exists n nm, nth_error h a = Some n /\ In nm (param_names n) /\
         k = (n_id n, nm) /\ get_param n nm = Ok p /\ get_grad n nm = Ok g).
  Proof.
    intros Hd. destruct (walk_exact (graph_of h) Bfs root) as [Hnd Hiff]. split.
    - unfold expected_calls. revert Hnd. generalize (walk (graph_of h) Bfs root) as l. clear Hiff.
      induction l as [|a l IH]; intros Hnd; cbn [flat_map map]; [constructor|].
      inversion Hnd as [|? ? Hna Hnd']; subst. rewrite map_app. apply NoDup_app_intro.
      + destruct (nth_error h a) as [n|] eqn:En; [|constructor].
        pose proof (Hd _ _ En) as Hk. fold (param_names n) in Hk. revert Hk.
        generalize (param_names n) as names. induction names as [|nm names IHn]; intros Hk; [constructor|].
        inversion Hk as [|? ? Hnm Hk']; subst. unfold node_calls. cbn [flat_map].
        fold (node_calls a n names). rewrite map_app.
        destruct (get_param n nm); [|exact (IHn Hk')]. destruct (get_grad n nm); [|exact (IHn Hk')].
        cbn [map app]. constructor; [|exact (IHn Hk')]. cbn [fst snd]. intros Hi. apply in_map_iff in Hi.
        destruct Hi as (c & Hc & Hin). apply node_calls_keys in Hin. destruct Hin as (nm' & p' & g' & -> & Hin & _).
        cbn in Hc. injection Hc as ->. contradiction.
      + exact (IH Hnd').
      + intros x Hx Hx'. apply in_map_iff in Hx. destruct Hx as (c & <- & Hc).
        apply in_map_iff in Hx'. destruct Hx' as (c' & He & Hc').
        destruct (nth_error h a) as [n|] eqn:En; [|destruct Hc].
        apply node_calls_keys in Hc. destruct Hc as (nm & p & g & -> & _).
        apply in_flat_map in Hc'. destruct Hc' as (b & Hb & Hc').
        destruct (nth_error h b) as [m|] eqn:Em; [|destruct Hc'].
        apply node_calls_keys in Hc'. destruct Hc' as (nm' & p' & g' & -> & _). cbn in He.
        injection He as -> _. contradiction.
    - intros a k p g. unfold expected_calls. rewrite in_flat_map. split.
      + intros (b & Hb & Hc). destruct (nth_error h b) as [n|] eqn:En; [|destruct Hc].
        apply node_calls_keys in Hc. destruct Hc as (nm & p' & g' & He & H1 & H2 & H3).
        injection He as -> -> -> ->. split; [now apply Hiff|]. now exists n, nm.
      + intros (Hr & n & nm & En & Hnm & -> & Hp & Hg). exists a. split; [now apply Hiff|]. rewrite En.
        unfold node_calls. apply in_flat_map. exists nm. split; [exact Hnm|]. rewrite Hp, Hg. now left.
  Qed.
End FinishProofs.
