(** Proofs about [replace_node] and [remove_node]. *)
From Coq Require Import String Permutation.
From Verif Require Import BaseFacts DictFacts GraphModel GraphSpec GraphProofs NodeModel NodeSpec NodeProofs EditModel EditSpec.

Set Default Goal Selector "!".

Ltac din H H' :=
  match goal with |- context [in_dec ?d ?x ?l] => destruct (in_dec d x l) as [H|H'] end.

Section EditProofs.
  Context {V A : Type}.
  Notation node := (node V A).
  Notation heap := (heap V A).
  Implicit Types (n : node) (h : heap).

  (** References whose name is in [todo] are substituted. *)
  Definition subst_refs_in (old new : addr) (todo : list string) (d : dict string (option addr)) :=
    map (fun kv => (fst kv, if in_dec eqd (fst kv) todo then option_map (subst old new) (snd kv) else snd kv)) d.

  Lemma with_refs_id n : with_refs n (n_refs n) = n.
  Proof. destruct n; reflexivity. Qed.
  Lemma with_layers_id n : with_layers n (n_layers n) = n.
  Proof. destruct n; reflexivity. Qed.

  Lemma get_ref_ok n nm r : get_ref n nm = Ok r -> dget nm (n_refs n) = Some (Some r).
  Proof. unfold get_ref. destruct (dget nm (n_refs n)) as [[x|]|]; congruence. Qed.

  Lemma dset_map_refs nm (v : option addr) (d : dict string (option addr)) :
    NoDup (dkeys d) -> In nm (dkeys d) ->
    dset nm v d = map (fun kv => (fst kv, if eqd nm (fst kv) then v else snd kv)) d.
  Proof.
    induction d as [|[k0 v0] d IH]; cbn [dkeys map fst In dset snd]; intros Hnd Hin; [tauto|].
    inversion Hnd as [|? ? Hn Hnd']; subst. destruct (eqd nm k0) as [->|Hne].
    - f_equal. rewrite <- (map_id d) at 1. apply map_ext_in. intros [k1 v1] Hi. cbn [fst snd].
      rewrite eqd_neq; [reflexivity|]. intros ->. apply Hn. change k1 with (fst (k1, v1)). now apply in_map.
    - f_equal. apply IH; [exact Hnd'|]. destruct Hin as [He|Hin]; [congruence|exact Hin].
  Qed.

  Lemma set_ref_other h a nm v b : b <> a -> nth_error (fst (set_ref h a nm v)) b = nth_error h b.
  Proof.
    intros Hne. destruct (snd (set_ref h a nm v)) as [[]|e] eqn:E.
    - rewrite (set_ref_effect _ _ _ _ _ E). destruct (Nat.eq_dec b a); [contradiction|reflexivity].
    - rewrite (set_ref_fail _ _ _ _ _ E). reflexivity.
  Qed.

  (** The references loop on one node. *)
  Lemma replace_refs_spec names h a n old new h' :
    nth_error h a = Some n -> NoDup (dkeys (n_refs n)) -> NoDup names -> incl names (dkeys (n_refs n)) ->
    replace_refs h a old new names = (h', Ok tt) ->
    (forall nm, In nm names -> exists r, dget nm (n_refs n) = Some (Some r)) /\
    graph_of h' = graph_of h /\ length h' = length h /\
    (forall b, b <> a -> nth_error h' b = nth_error h b) /\
    nth_error h' a = Some (with_refs n (subst_refs_in old new names (n_refs n))).
  Proof.
    revert h n. induction names as [|nm names IH]; intros h n Hn Hnd Hnn Hincl Hr; cbn [replace_refs] in Hr.
    - injection Hr as <-. split; [intros nm []|]. split; [reflexivity|]. split; [reflexivity|].
      split; [reflexivity|]. rewrite Hn. f_equal. rewrite <- (with_refs_id n) at 1. f_equal.
      unfold subst_refs_in. rewrite <- (map_id (n_refs n)) at 1. apply map_ext. intros [k v]. reflexivity.
    - rewrite Hn in Hr. inversion Hnn as [|? ? Hnm Hnn']; subst.
      destruct (get_ref n nm) as [r|e] eqn:Eg; [|discriminate].
      pose proof (get_ref_ok _ _ _ Eg) as Hdg.
      destruct (Nat.eqb_spec r old) as [->|Hne].
      + destruct (set_ref h a nm (Some new)) as [h1 [[]|e]] eqn:Es; [|discriminate].
        assert (Hok : snd (set_ref h a nm (Some new)) = Ok tt) by now rewrite Es.
        assert (Hh1 : h1 = fst (set_ref h a nm (Some new))) by now rewrite Es.
        set (n1 := with_refs n (dset nm (Some new) (n_refs n))).
        assert (Hn1 : nth_error h1 a = Some n1).
        { rewrite Hh1, (set_ref_effect _ _ _ _ _ Hok). destruct (Nat.eq_dec a a); [|contradiction].
          now rewrite Hn. }
        assert (Hk : dkeys (n_refs n1) = dkeys (n_refs n)).
        { unfold n1. cbn [n_refs with_refs]. apply dkeys_dset_mem. eapply dget_some_key, Hdg. }
        destruct (IH h1 n1 Hn1) as (I1 & I2 & I3 & I4 & I5).
        { now rewrite Hk. }
        { exact Hnn'. }
        { rewrite Hk. intros x Hx. apply Hincl. now right. }
        { exact Hr. }
        split; [|split; [|split; [|split]]].
        * intros x [<-|Hx]; [now exists old|].
          destruct (I1 x Hx) as [r' Hr']. unfold n1 in Hr'. cbn [n_refs with_refs] in Hr'.
          rewrite dget_dset_other in Hr' by (intros ->; contradiction). now exists r'.
        * rewrite I2, Hh1. apply graph_of_set_ref.
        * rewrite I3, Hh1, (set_ref_ok _ _ _ _ Hok). apply upd_length.
        * intros b Hb. rewrite (I4 b Hb), Hh1. apply set_ref_other, Hb.
        * rewrite I5. f_equal. unfold n1. cbn [n_refs with_refs].
          change (with_refs n (subst_refs_in old new names (dset nm (Some new) (n_refs n))) =
                  with_refs n (subst_refs_in old new (nm :: names) (n_refs n))).
          f_equal. rewrite dset_map_refs; [|exact Hnd|eapply dget_some_key, Hdg].
          unfold subst_refs_in. rewrite map_map. apply map_ext_in. intros [k v] Hin. cbn [fst snd].
          f_equal. destruct (eqd nm k) as [->|Hk'].
          -- destruct (in_dec eqd k names) as [Hi|_]; [contradiction|].
             destruct (in_dec eqd k (k :: names)) as [_|Hi]; [|exfalso; apply Hi; now left].
             assert (v = Some old) as ->.
             { pose proof (dget_nodup_in k v _ Hnd Hin) as E1. congruence. }
             cbn [option_map]. unfold subst. now rewrite Nat.eqb_refl.
          -- destruct (in_dec eqd k names) as [Hi|Hi]; destruct (in_dec eqd k (nm :: names)) as [Hi'|Hi'];
               try reflexivity.
             ++ exfalso. apply Hi'. now right.
             ++ exfalso. destruct Hi' as [->|Hi']; contradiction.
      + destruct (IH h n Hn Hnd Hnn') as (I1 & I2 & I3 & I4 & I5).
        { intros x Hx. apply Hincl. now right. }
        { exact Hr. }
        split; [|split; [exact I2|split; [exact I3|split; [exact I4|]]]].
        * intros x [<-|Hx]; [now exists r|exact (I1 x Hx)].
        * rewrite I5. f_equal. f_equal. unfold subst_refs_in. apply map_ext_in. intros [k v] Hin.
          cbn [fst snd]. f_equal.
          destruct (in_dec eqd k names) as [Hi|Hi]; destruct (in_dec eqd k (nm :: names)) as [Hi'|Hi'];
            try reflexivity.
          -- exfalso. apply Hi'. now right.
          -- destruct Hi' as [->|Hi']; [|contradiction].
             pose proof (dget_nodup_in k v _ Hnd Hin) as E1. rewrite Hdg in E1. injection E1 as <-.
             cbn [option_map]. unfold subst. destruct (Nat.eqb_spec r old); [contradiction|reflexivity].
  Qed.

  Lemma subst_refs_in_all old new d : subst_refs_in old new (dkeys d) d = subst_refs old new d.
  Proof.
    unfold subst_refs_in, subst_refs. apply map_ext_in. intros [k v] Hin. cbn [fst snd].
    destruct (in_dec eqd k (dkeys d)) as [_|Hn]; [reflexivity|].
    exfalso. apply Hn. change k with (fst (k, v)). now apply in_map.
  Qed.

  Lemma replace_loop_spec (nodes : list addr) h old new seen h' b :
    NoDup nodes -> dicts_ok h -> (forall a, In a nodes -> a < length h) ->
    replace_loop h old new nodes seen = (h', Ok b) ->
    b = (seen || memb old nodes) /\ length h' = length h /\
    (forall a n, nth_error h a = Some n ->
       nth_error h' a = Some (if in_dec Nat.eq_dec a nodes then
                                if Nat.eq_dec a old then n else replaced old new n else n)) /\
    (forall a n nm, In a nodes -> a <> old -> nth_error h a = Some n -> In nm (dkeys (n_refs n)) ->
       exists r, dget nm (n_refs n) = Some (Some r)).
  Proof.
    revert h seen. induction nodes as [|a nodes IH]; intros h seen Hnd Hd Hin Hr; cbn [replace_loop] in Hr.
    - injection Hr as <- <-. split; [now rewrite orb_false_r|]. split; [reflexivity|]. split.
      + intros a n Hn. exact Hn.
      + intros a n nm [].
    - inversion Hnd as [|? ? Hna Hnd']; subst.
      destruct (Nat.eqb_spec a old) as [->|Hne].
      + destruct (IH h true Hnd' Hd) as (I1 & I2 & I3 & I4).
        { intros x Hx. apply Hin. now right. }
        { exact Hr. }
        split; [|split; [exact I2|split]].
        * rewrite I1. replace (memb old (old :: nodes)) with true; [now rewrite orb_true_r|].
          symmetry. apply memb_true. now left.
        * intros x n Hn. rewrite (I3 x n Hn). f_equal.
          din Hi Hi; din Hi' Hi';
            try reflexivity.
          -- exfalso. apply Hi'. now right.
          -- destruct Hi' as [->|Hi']; [|contradiction]. destruct (Nat.eq_dec x x); [reflexivity|contradiction].
        * intros x n nm [<-|Hx] Hxo Hn Hnm; [contradiction|]. exact (I4 x n nm Hx Hxo Hn Hnm).
      + set (h1 := upd h a _) in Hr.
        assert (Ha : a < length h) by (apply Hin; now left).
        destruct (nth_error h a) as [n|] eqn:En; [|apply nth_error_None in En; lia].
        set (n1 := with_layers n (map (fun l => if Nat.eqb l old then new else l) (n_layers n))).
        assert (Hn1 : nth_error h1 a = Some n1).
        { unfold h1. rewrite upd_nth. destruct (Nat.eq_dec a a); [|contradiction]. now rewrite En. }
        rewrite Hn1 in Hr.
        destruct (replace_refs h1 a old new (dkeys (n_refs n1))) as [h2 [[]|e]] eqn:Er; [|discriminate].
        assert (Hnk : NoDup (dkeys (n_refs n1))) by exact (Hd _ _ En).
        destruct (replace_refs_spec _ _ _ _ _ _ _ Hn1 Hnk Hnk (incl_refl _) Er) as (R1 & R2 & R3 & R4 & R5).
        rewrite subst_refs_in_all in R5.
        assert (Hlen : length h2 = length h) by (rewrite R3; apply upd_length).
        assert (Hoth : forall x, x <> a -> nth_error h2 x = nth_error h x).
        { intros x Hx. rewrite (R4 x Hx). unfold h1. rewrite upd_nth.
          destruct (Nat.eq_dec x a); [contradiction|reflexivity]. }
        destruct (IH h2 seen Hnd') as (I1 & I2 & I3 & I4).
        { intros x m Hm. destruct (Nat.eq_dec x a) as [->|Hx].
          - rewrite R5 in Hm. injection Hm as <-. cbn [n_refs with_refs].
            unfold subst_refs, dkeys. rewrite map_map. exact Hnk.
          - rewrite Hoth in Hm by exact Hx. exact (Hd _ _ Hm). }
        { intros x Hx. rewrite Hlen. apply Hin. now right. }
        { exact Hr. }
        split; [|split; [|split]].
        * rewrite I1. f_equal. destruct (memb old nodes) eqn:Em; symmetry.
          -- apply memb_true. apply memb_true in Em. now right.
          -- apply memb_false. apply memb_false in Em. intros [He|Hi]; [congruence|contradiction].
        * now rewrite I2.
        * intros x m Hm. destruct (Nat.eq_dec x a) as [->|Hx].
          -- rewrite (I3 a _ R5).
             destruct (in_dec Nat.eq_dec a nodes) as [Hi|_]; [contradiction|].
             destruct (in_dec Nat.eq_dec a (a :: nodes)) as [_|Hi]; [|exfalso; apply Hi; now left].
             destruct (Nat.eq_dec a old); [contradiction|].
             rewrite En in Hm. injection Hm as <-. reflexivity.
          -- assert (Hm2 : nth_error h2 x = Some m) by (rewrite Hoth; assumption).
             rewrite (I3 x m Hm2). f_equal.
             din Hi Hi; din Hi' Hi';
               try reflexivity.
             ++ exfalso. apply Hi'. now right.
             ++ exfalso. destruct Hi' as [He|Hi']; [congruence|contradiction].
        * intros x m nm Hx Hxo Hm Hnm. destruct (Nat.eq_dec x a) as [->|Hxa].
          -- rewrite En in Hm. injection Hm as <-. exact (R1 nm Hnm).
          -- destruct Hx as [He|Hx]; [congruence|].
             apply (I4 x m nm Hx Hxo); [|exact Hnm]. now rewrite Hoth.
  Qed.

  Lemma reach_in_heap h root a : closed h -> root < length h -> reach (graph_of h) root a -> a < length h.
  Proof.
    intros Hc Hroot. apply (reach_closed (graph_of h) (fun x => x < length h)); [exact Hroot|].
    intros x y Hx Hy. rewrite nth_layers in Hy.
    destruct (nth_error h x) as [n|] eqn:E; [exact (Hc _ _ _ E Hy)|destruct Hy].
  Qed.

  Lemma replace_node_effect h root old new h' b :
    dicts_ok h -> closed h -> root < length h ->
    replace_node h root old new = (h', Ok b) ->
    (b = true <-> reach (graph_of h) root old) /\ length h' = length h /\
    (forall a n, nth_error h a = Some n ->
       (reach (graph_of h) root a -> a <> old -> nth_error h' a = Some (replaced old new n)) /\
       (~ reach (graph_of h) root a \/ a = old -> nth_error h' a = Some n)).
  Proof.
    intros Hd Hc Hroot Hr. unfold replace_node in Hr.
    destruct (walk_exact (graph_of h) DfsPost root) as [Hnd Hiff].
    assert (Hlt : forall a, In a (walk (graph_of h) DfsPost root) -> a < length h).
    { intros a Ha. apply Hiff in Ha. exact (reach_in_heap _ _ _ Hc Hroot Ha). }
    destruct (replace_loop_spec _ _ _ _ _ _ _ Hnd Hd Hlt Hr) as (I1 & I2 & I3 & I4).
    split; [|split; [exact I2|]].
    - rewrite I1. cbn [orb]. rewrite memb_true. apply Hiff.
    - intros a n Hn. rewrite (I3 a n Hn).
      destruct (in_dec Nat.eq_dec a (walk (graph_of h) DfsPost root)) as [Hi|Hi];
        destruct (Nat.eq_dec a old) as [He|He].
      + split; [intros _ Hx; contradiction|reflexivity].
      + split; [reflexivity|]. intros [Hx|Hx]; [exfalso; apply Hx, Hiff, Hi|contradiction].
      + split; [intros Hx; exfalso; apply Hi, Hiff, Hx|reflexivity].
      + split; [intros Hx; exfalso; apply Hi, Hiff, Hx|reflexivity].
  Qed.

  (** ** Success on acyclic graphs *)

  Lemma before_trans {X} (x y z : X) l : NoDup l -> before x y l -> before y z l -> before x z l.
  Proof.
    intros Hnd (a1 & a2 & a3 & E1) (b1 & b2 & b3 & E2).
    assert (Hsplit : a1 ++ x :: a2 = b1).
    { assert (E3 : (a1 ++ x :: a2) ++ y :: a3 = b1 ++ y :: b2 ++ z :: b3).
      { rewrite <- app_assoc. cbn [app]. congruence. }
      clear E1. revert E3 E2. generalize (a1 ++ x :: a2) as p. intros p E3 E2.
      assert (Hy : ~ In y b1).
      { rewrite E2 in Hnd. apply NoDup_remove_2 in Hnd. intros Hi. apply Hnd, in_or_app. now left. }
      assert (Hy' : ~ In y p).
      { rewrite E2, <- E3 in Hnd. apply NoDup_remove_2 in Hnd. intros Hi. apply Hnd, in_or_app. now left. }
      clear E2 Hnd. revert p E3 Hy Hy'. induction b1 as [|u b1 IHb]; intros [|w p] E3 Hy Hy'.
      - reflexivity.
      - cbn in E3. injection E3 as -> E3. exfalso. apply Hy'. now left.
      - cbn in E3. injection E3 as <- E3. exfalso. apply Hy. now left.
      - cbn in E3. injection E3 as -> E3. f_equal. apply IHb; [exact E3| |];
          intros Hi; [apply Hy|apply Hy']; now right. }
    subst b1. exists a1, (a2 ++ y :: b2), b3. rewrite E2, <- !app_assoc. reflexivity.
  Qed.

  Lemma before_nodup_split {X} (x y : X) l1 l2 :
    NoDup (l1 ++ y :: l2) -> before x y (l1 ++ y :: l2) -> In x l1.
  Proof.
    intros Hnd (a1 & a2 & a3 & E).
    assert (Hp : l1 = a1 ++ x :: a2).
    { assert (E3 : l1 ++ y :: l2 = (a1 ++ x :: a2) ++ y :: a3) by (rewrite E, <- app_assoc; reflexivity).
      assert (Hy : ~ In y l1).
      { apply NoDup_remove_2 in Hnd. intros Hi. apply Hnd, in_or_app. now left. }
      assert (Hy' : ~ In y (a1 ++ x :: a2)).
      { rewrite E3 in Hnd. apply NoDup_remove_2 in Hnd. intros Hi. apply Hnd, in_or_app. now left. }
      clear E Hnd. revert E3 Hy Hy'. generalize (a1 ++ x :: a2) as p. clear a1 a2.
      induction l1 as [|u l1 IH]; intros [|w p] E3 Hy Hy'.
      - reflexivity.
      - cbn in E3. injection E3 as -> E3. exfalso. apply Hy'. now left.
      - cbn in E3. injection E3 as <- E3. exfalso. apply Hy. now left.
      - cbn in E3. injection E3 as -> E3. f_equal. apply IH; [exact E3| |];
          intros Hi; [apply Hy|apply Hy']; now right. }
    rewrite Hp. apply in_or_app. right. now left.
  Qed.

  Lemma reach_step g a b c : reach g a b -> In c (layers g b) -> reach g a c.
  Proof. intros [k Hk] Hc. exists (S k). now apply path_step with b. Qed.

  Lemma reach_trans g a b c : reach g a b -> reach g b c -> reach g a c.
  Proof. intros [k Hk] [j Hj]. exists (j + k). exact (path_trans _ _ _ _ _ _ Hk Hj). Qed.

  (** Every strict descendant is produced before its ancestor. *)
  Lemma post_descendants g root a b : acyclic g -> reach g root a -> reach g a b -> b <> a ->
    before b a (walk g DfsPost root).
  Proof.
    intros Hac Hra [k Hk] Hne.
    destruct (walk_exact g DfsPost root) as [Hnd _].
    induction Hk as [a|k a b c Hk IH Hc]; [congruence|].
    assert (Hcb : before c b (walk g DfsPost root)).
    { apply walk_post_children_first; [exact Hac| |exact Hc].
      apply reach_trans with a; [exact Hra|]. now exists k. }
    destruct (Nat.eq_dec b a) as [->|Hba]; [exact Hcb|].
    exact (before_trans _ _ _ _ Hnd Hcb (IH Hra Hba)).
  Qed.

  Lemma reach_avoid g old a : a <> old -> reach g a old ->
    exists p, avoid g old a p /\ In old (layers g p).
  Proof.
    intros Hne [k Hk].
    assert (Hgen : forall k b, path g k a b ->
      avoid g old a b \/ exists p, avoid g old a p /\ In old (layers g p)).
    { clear k Hk. intros k b Hk. induction Hk as [a|k a b c Hk IH Hc].
      - left. now constructor.
      - destruct (IH Hne) as [Hb|Hp]; [|now right].
        destruct (Nat.eq_dec c old) as [->|Hc']; [right; exists b; split; assumption|].
        left. now apply avoid_step with b. }
    destruct (Hgen _ _ Hk) as [Hav|Hp]; [|exact Hp].
    exfalso. inversion Hav; subst; congruence.
  Qed.

  Lemma avoid_reach g old a b : avoid g old a b -> reach g a b.
  Proof.
    induction 1 as [a Ha|a b c _ IH Hc _]; [exists 0; constructor|]. exact (reach_step _ _ _ _ IH Hc).
  Qed.

  Lemma avoid_ne g old a b : avoid g old a b -> b <> old.
  Proof. induction 1; assumption. Qed.

  (** If every node on the way had its layers substituted, [new] is now reachable. *)
  Lemma avoid_transfer g g' old new a :
    a <> old -> reach g a old ->
    (forall x, reach g a x -> x <> old -> layers g' x = map (subst old new) (layers g x)) ->
    reach g' a new.
  Proof.
    intros Hne Hr Hl. destruct (reach_avoid _ _ _ Hne Hr) as (p & Hav & Hold).
    assert (Hrp : reach g' a p).
    { clear Hold. induction Hav as [a Ha|a b c Hav IH Hc Hco].
      - exists 0; constructor.
      - apply reach_step with b; [exact (IH Hne Hr Hl)|].
        rewrite Hl; [|exact (avoid_reach _ _ _ _ Hav)|exact (avoid_ne _ _ _ _ Hav)].
        replace c with (subst old new c); [now apply in_map|].
        unfold subst. destruct (Nat.eqb_spec c old); [contradiction|reflexivity]. }
    apply reach_step with p; [exact Hrp|].
    rewrite Hl; [|exact (avoid_reach _ _ _ _ Hav)|exact (avoid_ne _ _ _ _ Hav)].
    apply in_map_iff. exists old. split; [|exact Hold]. unfold subst. now rewrite Nat.eqb_refl.
  Qed.

  Definition all_refs_set n := forall nm, In nm (dkeys (n_refs n)) -> exists r, get_ref n nm = Ok r.

  Lemma replace_refs_ok names h a n old new :
    nth_error h a = Some n -> NoDup (dkeys (n_refs n)) ->
    (forall nm, In nm names -> exists r, get_ref n nm = Ok r) ->
    (forall nm, In nm names -> get_ref n nm = Ok old -> reach (graph_of h) a new) ->
    exists h', replace_refs h a old new names = (h', Ok tt).
  Proof.
    revert h n. induction names as [|nm names IH]; intros h n Hn Hnd Hall Hreach; cbn [replace_refs].
    - now exists h.
    - rewrite Hn. destruct (Hall nm (or_introl eq_refl)) as [r Hr]. rewrite Hr.
      destruct (Nat.eqb_spec r old) as [->|Hne].
      + assert (Hok : snd (set_ref h a nm (Some new)) = Ok tt).
        { apply set_ref_iff. right. exists new. split; [reflexivity|]. apply (Hreach nm); [now left|exact Hr]. }
        destruct (set_ref h a nm (Some new)) as [h1 [[]|e]] eqn:Es; [|discriminate].
        assert (Hh1 : h1 = fst (set_ref h a nm (Some new))) by now rewrite Es.
        rewrite <- Es in Hok.
        apply (IH h1 (with_refs n (dset nm (Some new) (n_refs n)))).
        * rewrite Hh1, (set_ref_effect _ _ _ _ _ Hok). destruct (Nat.eq_dec a a); [|contradiction]. now rewrite Hn.
        * cbn [n_refs with_refs]. now apply NoDup_dset.
        * intros x Hx. unfold get_ref. cbn [n_refs with_refs]. rewrite dget_dset.
          destruct (eqd x nm); [now exists new|]. apply (Hall x). now right.
        * intros x Hx Hg. rewrite Hh1, graph_of_set_ref. apply (Hreach nm); [now left|exact Hr].
      + apply (IH h n Hn Hnd).
        * intros x Hx. apply Hall. now right.
        * intros x Hx Hg. apply (Hreach x); [now right|exact Hg].
  Qed.

  Lemma replace_loop_ok (nodes : list addr) h old new seen h0 (done_ : list addr) :
    NoDup (done_ ++ nodes) ->
    dicts_ok h0 -> (forall a, In a nodes -> a < length h0) ->
    length h = length h0 ->
    (forall a n, nth_error h0 a = Some n ->
       nth_error h a = Some (if in_dec Nat.eq_dec a done_ then
                                if Nat.eq_dec a old then n else replaced old new n else n)) ->
    (forall a n, In a nodes -> a <> old -> nth_error h0 a = Some n -> all_refs_set n) ->
    (forall a n nm b, nth_error h0 a = Some n -> get_ref n nm = Ok b -> In a nodes -> reach (graph_of h0) a b) ->
    (forall l1 a l2 x, nodes = l1 ++ a :: l2 -> reach (graph_of h0) a x -> x <> a -> In x (done_ ++ l1)) ->
    exists h' b, replace_loop h old new nodes seen = (h', Ok b).
  Proof.
    revert h seen done_. induction nodes as [|a nodes IH];
      intros h seen done_ Hnd Hd Hin Hlen Hst Hset Hrefs Hpost; cbn [replace_loop].
    - now exists h, seen.
    - assert (Ha : a < length h0) by (apply Hin; now left).
      assert (Hadone : ~ In a done_).
      { apply NoDup_remove_2 in Hnd. intros Hi. apply Hnd, in_or_app. now left. }
      assert (Hnd' : NoDup ((done_ ++ [a]) ++ nodes)) by (rewrite <- app_assoc; exact Hnd).
      assert (Hpost' : forall l1 a0 l2 x, nodes = l1 ++ a0 :: l2 -> reach (graph_of h0) a0 x ->
                 x <> a0 -> In x ((done_ ++ [a]) ++ l1)).
      { intros l1 a0 l2 x -> Hx Hne. rewrite <- app_assoc. cbn [app].
        apply (Hpost (a :: l1) a0 l2 x); [reflexivity|exact Hx|exact Hne]. }
      assert (Hcommon : forall hh sn, length hh = length h0 ->
        (forall x n, nth_error h0 x = Some n ->
          nth_error hh x = Some (if in_dec Nat.eq_dec x (done_ ++ [a]) then
                                if Nat.eq_dec x old then n else replaced old new n else n)) ->
        exists h' b, replace_loop hh old new nodes sn = (h', Ok b)).
      { intros hh sn Hl Hs. apply (IH hh sn (done_ ++ [a])); try assumption.
        - intros x Hx. apply Hin. now right.
        - intros x n Hx. apply Hset. now right.
        - intros x n nm b Hn Hg Hx. apply (Hrefs x n nm b Hn Hg). now right. }
      destruct (Nat.eqb_spec a old) as [->|Hne].
      + apply Hcommon; [exact Hlen|]. intros x n Hn. rewrite (Hst x n Hn). f_equal.
        din Hi Hi; din Hi' Hi'; try reflexivity.
        * exfalso. apply Hi', in_or_app. now left.
        * apply in_app_or in Hi'. destruct Hi' as [Hi'|[<-|[]]]; [contradiction|].
          destruct (Nat.eq_dec old old); [reflexivity|contradiction].
      + destruct (nth_error h0 a) as [n|] eqn:En; [|apply nth_error_None in En; lia].
        pose proof (Hst a n En) as Hna.
        destruct (in_dec Nat.eq_dec a done_) as [Hi|_]; [contradiction|].
        set (h1 := upd h a _).
        set (n1 := with_layers n (map (fun l => if Nat.eqb l old then new else l) (n_layers n))).
        assert (Hn1 : nth_error h1 a = Some n1).
        { unfold h1. rewrite upd_nth. destruct (Nat.eq_dec a a); [|contradiction]. now rewrite Hna. }
        rewrite Hn1.
        assert (Hnk : NoDup (dkeys (n_refs n1))) by exact (Hd _ _ En).
        destruct (replace_refs_ok (dkeys (n_refs n1)) h1 a n1 old new Hn1 Hnk) as [h2 Hr2].
        { intros nm Hnm. exact (Hset a n (or_introl eq_refl) Hne En nm Hnm). }
        { intros nm Hnm Hg.
          assert (Hro : reach (graph_of h0) a old) by exact (Hrefs a n nm old En Hg (or_introl eq_refl)).
          apply (avoid_transfer (graph_of h0) (graph_of h1) old new a Hne Hro).
          intros x Hx Hxo. rewrite !nth_layers.
          destruct (Nat.eq_dec x a) as [->|Hxa].
          - rewrite Hn1, En. reflexivity.
          - assert (Hxd : In x done_).
            { pose proof (Hpost [] a nodes x eq_refl Hx Hxa) as Hi. now rewrite app_nil_r in Hi. }
            unfold h1. rewrite upd_nth. destruct (Nat.eq_dec x a); [contradiction|].
            destruct (nth_error h0 x) as [m|] eqn:Em.
            + rewrite (Hst x m Em). destruct (in_dec Nat.eq_dec x done_) as [_|Hi]; [|contradiction].
              destruct (Nat.eq_dec x old); [contradiction|]. reflexivity.
            + assert (Em' : nth_error h x = None).
              { apply nth_error_None. apply nth_error_None in Em. lia. }
              rewrite Em'. reflexivity. }
        rewrite Hr2.
        destruct (replace_refs_spec _ _ _ _ _ _ _ Hn1 Hnk Hnk (incl_refl _) Hr2) as (R1 & R2 & R3 & R4 & R5).
        rewrite subst_refs_in_all in R5.
        apply Hcommon.
        * rewrite R3. unfold h1. rewrite upd_length. exact Hlen.
        * intros x m Hm. destruct (Nat.eq_dec x a) as [->|Hxa].
          -- rewrite R5. destruct (in_dec Nat.eq_dec a (done_ ++ [a])) as [_|Hi];
               [|exfalso; apply Hi, in_or_app; right; now left].
             destruct (Nat.eq_dec a old); [contradiction|].
             rewrite En in Hm. injection Hm as <-. reflexivity.
          -- rewrite (R4 x Hxa). unfold h1. rewrite upd_nth. destruct (Nat.eq_dec x a); [contradiction|].
             rewrite (Hst x m Hm). f_equal.
             din Hi Hi; din Hi' Hi'; try reflexivity.
             ++ exfalso. apply Hi', in_or_app. now left.
             ++ apply in_app_or in Hi'. destruct Hi' as [Hi'|[He|[]]]; [contradiction|congruence].
  Qed.

  Lemma replace_node_succeeds h root old new :
    dicts_ok h -> closed h -> root < length h -> acyclic (graph_of h) -> refs_in_tree h ->
    (forall a n nm, reach (graph_of h) root a -> a <> old -> nth_error h a = Some n ->
       has_ref n nm <> None) ->
    exists h' b, replace_node h root old new = (h', Ok b).
  Proof.
    intros Hd Hc Hroot Hac Hrefs Hset. unfold replace_node.
    destruct (walk_exact (graph_of h) DfsPost root) as [Hnd Hiff].
    apply (replace_loop_ok _ h old new false h []).
    - exact Hnd.
    - exact Hd.
    - intros a Ha. apply Hiff in Ha. exact (reach_in_heap _ _ _ Hc Hroot Ha).
    - reflexivity.
    - intros a n Hn. exact Hn.
    - intros a n Ha Hne Hn nm Hnm. apply Hiff in Ha. pose proof (Hset a n nm Ha Hne Hn) as Hs.
      unfold has_ref in Hs. unfold get_ref. apply dget_key in Hnm. destruct Hnm as [[r|] Hr]; rewrite Hr in *.
      + now exists r.
      + congruence.
    - intros a n nm b Hn Hg _. exact (Hrefs a n nm b Hn Hg).
    - intros l1 a l2 x E Hx Hne. cbn [app].
      assert (Hra : reach (graph_of h) root a).
      { apply Hiff. rewrite E. apply in_or_app. right. now left. }
      pose proof (post_descendants _ _ _ _ Hac Hra Hx Hne) as Hb. rewrite E in Hb, Hnd.
      exact (before_nodup_split _ _ _ _ Hnd Hb).
  Qed.

  (** * remove_node *)

  Definition prune_refs_in (tree : list addr) (todo : list string) (d : dict string (option addr)) :=
    map (fun kv => (fst kv, if in_dec eqd (fst kv) todo then prune tree (snd kv) else snd kv)) d.

  Lemma prune_refs_spec names h tree a n :
    nth_error h a = Some n -> NoDup (dkeys (n_refs n)) -> NoDup names -> incl names (dkeys (n_refs n)) ->
    ((forall nm, In nm names -> exists r, dget nm (n_refs n) = Some (Some r)) ->
       exists h', prune_refs h tree a names = (h', Ok tt)) /\
    (forall h', prune_refs h tree a names = (h', Ok tt) ->
      (forall nm, In nm names -> exists r, dget nm (n_refs n) = Some (Some r)) /\
      length h' = length h /\
      (forall b, b <> a -> nth_error h' b = nth_error h b) /\
      nth_error h' a = Some (with_refs n (prune_refs_in tree names (n_refs n)))) /\
    (forall h' e, prune_refs h tree a names = (h', Err e) -> e = ValueError).
  Proof.
    revert h n. induction names as [|nm names IH]; intros h n Hn Hnd Hnn Hincl; cbn [prune_refs].
    - split; [|split].
      + intros _. now exists h.
      + intros h' Hr. injection Hr as <-. split; [intros nm []|]. split; [reflexivity|].
        split; [reflexivity|]. rewrite Hn. f_equal. rewrite <- (with_refs_id n) at 1. f_equal.
        unfold prune_refs_in. rewrite <- (map_id (n_refs n)) at 1. apply map_ext. intros [k v]. reflexivity.
      + discriminate.
    - rewrite Hn. inversion Hnn as [|? ? Hnm Hnn']; subst.
      assert (Hinck : incl names (dkeys (n_refs n))) by (intros x Hx; apply Hincl; now right).
      destruct (get_ref n nm) as [r|e] eqn:Eg.
      2:{ split; [|split].
          - intros Hall. destruct (Hall nm (or_introl eq_refl)) as [r Hr]. unfold get_ref in Eg.
            rewrite Hr in Eg. discriminate.
          - discriminate.
          - intros h' e' He. injection He as <- <-. unfold get_ref in Eg.
            assert (Hk : In nm (dkeys (n_refs n))) by (apply Hincl; now left).
            apply dget_key in Hk. destruct Hk as [[x|] Hx]; rewrite Hx in Eg; congruence. }
      pose proof (get_ref_ok _ _ _ Eg) as Hdg.
      destruct (memb r tree) eqn:Em.
      + destruct (IH h n Hn Hnd Hnn' Hinck) as (I1 & I2 & I3). split; [|split].
        * intros Hall. apply I1. intros x Hx. apply Hall. now right.
        * intros h' Hr. destruct (I2 h' Hr) as (J1 & J2 & J3 & J4).
          split; [|split; [exact J2|split; [exact J3|]]].
          -- intros x [<-|Hx]; [now exists r|exact (J1 x Hx)].
          -- rewrite J4. f_equal. f_equal. unfold prune_refs_in. apply map_ext_in. intros [k v] Hin.
             cbn [fst snd]. f_equal.
             destruct (in_dec eqd k names) as [Hi|Hi]; destruct (in_dec eqd k (nm :: names)) as [Hi'|Hi'];
               try reflexivity.
             ++ exfalso. apply Hi'. now right.
             ++ destruct Hi' as [->|Hi']; [|contradiction].
                pose proof (dget_nodup_in k v _ Hnd Hin) as E1. rewrite Hdg in E1. injection E1 as <-.
                cbn [prune]. now rewrite Em.
        * exact I3.
      + cbn [set_ref]. set (n1 := with_refs n (dset nm None (n_refs n))).
        set (h1 := upd h a _).
        assert (Hn1 : nth_error h1 a = Some n1).
        { unfold h1. rewrite upd_nth. destruct (Nat.eq_dec a a); [|contradiction]. now rewrite Hn. }
        assert (Hk : dkeys (n_refs n1) = dkeys (n_refs n)).
        { unfold n1. cbn [n_refs with_refs]. apply dkeys_dset_mem. eapply dget_some_key, Hdg. }
        assert (Hoth : forall x, In x names -> dget x (n_refs n1) = dget x (n_refs n)).
        { intros x Hx. unfold n1. cbn [n_refs with_refs]. apply dget_dset_other. intros ->. contradiction. }
        destruct (IH h1 n1 Hn1) as (I1 & I2 & I3).
        { now rewrite Hk. }
        { exact Hnn'. }
        { now rewrite Hk. }
        split; [|split].
        * intros Hall. apply I1. intros x Hx. rewrite Hoth by exact Hx. apply Hall. now right.
        * intros h' Hr. destruct (I2 h' Hr) as (J1 & J2 & J3 & J4).
          split; [|split; [|split]].
          -- intros x [<-|Hx]; [now exists r|]. rewrite <- Hoth by exact Hx. exact (J1 x Hx).
          -- rewrite J2. apply upd_length.
          -- intros b Hb. rewrite (J3 b Hb). unfold h1. rewrite upd_nth.
             destruct (Nat.eq_dec b a); [contradiction|reflexivity].
          -- rewrite J4. f_equal. unfold n1. cbn [n_refs with_refs].
             change (with_refs n (prune_refs_in tree names (dset nm None (n_refs n))) =
                     with_refs n (prune_refs_in tree (nm :: names) (n_refs n))).
             f_equal. rewrite dset_map_refs; [|exact Hnd|eapply dget_some_key, Hdg].
             unfold prune_refs_in. rewrite map_map. apply map_ext_in. intros [k v] Hin. cbn [fst snd].
             f_equal. destruct (eqd nm k) as [->|Hk'].
             ++ destruct (in_dec eqd k names) as [Hi|_]; [contradiction|].
                destruct (in_dec eqd k (k :: names)) as [_|Hi]; [|exfalso; apply Hi; now left].
                assert (v = Some r) as ->.
                { pose proof (dget_nodup_in k v _ Hnd Hin) as E1. congruence. }
                cbn [prune]. now rewrite Em.
             ++ destruct (in_dec eqd k names) as [Hi|Hi]; destruct (in_dec eqd k (nm :: names)) as [Hi'|Hi'];
                  try reflexivity.
                ** exfalso. apply Hi'. now right.
                ** exfalso. destruct Hi' as [->|Hi']; contradiction.
        * exact I3.
  Qed.

  Definition pruned (tree : list addr) n : node :=
    with_refs n (map (fun kv => (fst kv, prune tree (snd kv))) (n_refs n)).

  Lemma prune_refs_in_all tree d :
    prune_refs_in tree (dkeys d) d = map (fun kv => (fst kv, prune tree (snd kv))) d.
  Proof.
    unfold prune_refs_in. apply map_ext_in. intros [k v] Hin. cbn [fst snd].
    destruct (in_dec eqd k (dkeys d)) as [_|Hn]; [reflexivity|].
    exfalso. apply Hn. change k with (fst (k, v)). now apply in_map.
  Qed.

  Lemma prune_loop_spec (nodes : list addr) h (tree : list addr) :
    NoDup nodes -> dicts_ok h -> (forall a, In a nodes -> a < length h) ->
    ((forall a n, In a nodes -> nth_error h a = Some n -> all_refs_set n) ->
       exists h', prune_loop h tree nodes = (h', Ok tt)) /\
    (forall h', prune_loop h tree nodes = (h', Ok tt) ->
      length h' = length h /\
      (forall a n, In a nodes -> nth_error h a = Some n -> all_refs_set n) /\
      (forall a n, nth_error h a = Some n ->
         nth_error h' a = Some (if in_dec Nat.eq_dec a nodes then pruned tree n else n))) /\
    (forall h' e, prune_loop h tree nodes = (h', Err e) -> e = ValueError).
  Proof.
    revert h. induction nodes as [|a nodes IH]; intros h Hnd Hd Hin; cbn [prune_loop].
    - split; [intros _; now exists h|]. split; [|discriminate].
      intros h' Hr. injection Hr as <-. split; [reflexivity|]. split; [intros a n []|].
      intros a n Hn. exact Hn.
    - inversion Hnd as [|? ? Hna Hnd']; subst.
      assert (Ha : a < length h) by (apply Hin; now left).
      destruct (nth_error h a) as [n|] eqn:En; [|apply nth_error_None in En; lia].
      assert (Hnk : NoDup (dkeys (n_refs n))) by exact (Hd _ _ En).
      destruct (prune_refs_spec (dkeys (n_refs n)) h tree a n En Hnk Hnk (incl_refl _)) as (P1 & P2 & P3).
      assert (Hdg : forall x : node, all_refs_set x <-> forall nm, In nm (dkeys (n_refs x)) -> exists r, dget nm (n_refs x) = Some (Some r)).
      { intros x. split; intros Hs nm Hnm.
        - destruct (Hs nm Hnm) as [r Hr]. exists r. now apply get_ref_ok.
        - destruct (Hs nm Hnm) as [r Hr]. exists r. unfold get_ref. now rewrite Hr. }
      destruct (prune_refs h tree a (dkeys (n_refs n))) as [h1 [[]|e]] eqn:Ep.
      + destruct (P2 h1 eq_refl) as (Q1 & Q2 & Q3 & Q4).
        rewrite prune_refs_in_all in Q4.
        assert (Hd1 : dicts_ok h1).
        { intros x m Hm. destruct (Nat.eq_dec x a) as [->|Hx].
          - rewrite Q4 in Hm. injection Hm as <-. cbn [n_refs with_refs]. unfold dkeys. rewrite map_map. exact Hnk.
          - rewrite Q3 in Hm by exact Hx. exact (Hd _ _ Hm). }
        assert (Hin1 : forall x, In x nodes -> x < length h1).
        { intros x Hx. rewrite Q2. apply Hin. now right. }
        destruct (IH h1 Hnd' Hd1 Hin1) as (I1 & I2 & I3).
        split; [|split; [|exact I3]].
        * intros Hall. apply I1. intros x m Hx Hm.
          assert (Hxa : x <> a) by (intros ->; contradiction).
          rewrite Q3 in Hm by exact Hxa. apply (Hall x m); [now right|exact Hm].
        * intros h' Hr. destruct (I2 h' Hr) as (J1 & J2 & J3).
          split; [now rewrite J1|]. split.
          -- intros x m [<-|Hx] Hm.
             ++ rewrite En in Hm. injection Hm as <-. apply Hdg. exact Q1.
             ++ assert (Hxa : x <> a) by (intros ->; contradiction).
                apply (J2 x m Hx). now rewrite Q3.
          -- intros x m Hm. destruct (Nat.eq_dec x a) as [->|Hxa].
             ++ rewrite (J3 a _ Q4). destruct (in_dec Nat.eq_dec a nodes) as [Hi|_]; [contradiction|].
                destruct (in_dec Nat.eq_dec a (a :: nodes)) as [_|Hi]; [|exfalso; apply Hi; now left].
                rewrite En in Hm. injection Hm as <-. reflexivity.
             ++ assert (Hm1 : nth_error h1 x = Some m) by (rewrite Q3; assumption).
                rewrite (J3 x m Hm1). f_equal.
                din Hi Hi; din Hi' Hi';
                  try reflexivity.
                ** exfalso. apply Hi'. now right.
                ** exfalso. destruct Hi' as [He|Hi']; [congruence|contradiction].
      + split; [|split].
        * intros Hall. destruct P1 as [h2 Hh2]; [|discriminate]. apply Hdg. apply (Hall a n); [now left|exact En].
        * discriminate.
        * intros h' e' He. injection He as <- <-. exact (P3 _ _ eq_refl).
  Qed.

  Lemma drop_layers_all h root x a n :
    nth_error h a = Some n ->
    nth_error (fold_left (fun h a => upd h a (drop_layer x)) (walk (graph_of h) Bfs root) h) a =
      Some (if in_dec Nat.eq_dec a (walk (graph_of h) Bfs root) then drop_layer x n else n).
  Proof.
    intros Hn. rewrite fold_upd_nth by apply walk_exact. rewrite Hn.
    destruct (in_dec Nat.eq_dec a _); reflexivity.
  Qed.

  Lemma reach_dec g root a : {reach g root a} + {~ reach g root a}.
  Proof.
    destruct (in_dec Nat.eq_dec a (walk g Bfs root)) as [Hi|Hi].
    - left. now apply walk_exact in Hi.
    - right. intros Hr. apply Hi, walk_exact, Hr.
  Qed.

  (** The graph after the first loop. *)
  Definition dropped h root x : heap :=
    fold_left (fun h a => upd h a (drop_layer x)) (walk (graph_of h) Bfs root) h.

  Lemma dropped_nth h root x a n : nth_error h a = Some n ->
    (reach (graph_of h) root a -> nth_error (dropped h root x) a = Some (drop_layer x n)) /\
    (~ reach (graph_of h) root a -> nth_error (dropped h root x) a = Some n).
  Proof.
    intros Hn. unfold dropped. rewrite (drop_layers_all h root x a n Hn).
    destruct (walk_exact (graph_of h) Bfs root) as [_ Hiff].
    destruct (in_dec Nat.eq_dec a (walk (graph_of h) Bfs root)) as [Hi|Hi].
    - split; [reflexivity|]. intros Hr. exfalso. apply Hr, Hiff, Hi.
    - split; [|reflexivity]. intros Hr. exfalso. apply Hi, Hiff, Hr.
  Qed.

  Lemma dropped_length h root x : length (dropped h root x) = length h.
  Proof. apply fold_upd_length. Qed.

  Lemma dropped_layers h root x a :
    layers (graph_of (dropped h root x)) a =
      if reach_dec (graph_of h) root a
      then filter (fun l => negb (Nat.eqb l x)) (layers (graph_of h) a) else layers (graph_of h) a.
  Proof.
    rewrite !nth_layers. destruct (nth_error h a) as [n|] eqn:En.
    - destruct (dropped_nth h root x a n En) as [H1 H2].
      destruct (reach_dec (graph_of h) root a) as [Hr|Hr].
      + rewrite (H1 Hr). reflexivity.
      + rewrite (H2 Hr). reflexivity.
    - assert (En' : nth_error (dropped h root x) a = None).
      { apply nth_error_None. rewrite dropped_length. now apply nth_error_None. }
      rewrite En'. destruct (reach_dec _ _ _); reflexivity.
  Qed.

  Lemma dropped_reach h root x a :
    reach (graph_of (dropped h root x)) root a -> reach (graph_of h) root a.
  Proof.
    apply reach_closed; [exists 0; constructor|]. intros y z Hy Hz.
    apply reach_step with y; [exact Hy|]. rewrite dropped_layers in Hz.
    destruct (reach_dec _ _ _); [|exact Hz]. apply filter_In in Hz. apply Hz.
  Qed.

  Lemma dropped_closed h root x : closed h -> closed (dropped h root x).
  Proof.
    intros Hc a n l Hn Hl. rewrite dropped_length.
    destruct (nth_error h a) as [m|] eqn:Em.
    - destruct (dropped_nth h root x a m Em) as [H1 H2].
      destruct (reach_dec (graph_of h) root a) as [Hr|Hr].
      + rewrite (H1 Hr) in Hn. injection Hn as <-. cbn [drop_layer n_layers with_layers] in Hl.
        apply filter_In in Hl. destruct Hl as [Hl _]. exact (Hc _ _ _ Em Hl).
      + rewrite (H2 Hr) in Hn. injection Hn as <-. exact (Hc _ _ _ Em Hl).
    - apply nth_error_None in Em. rewrite <- (dropped_length h root x) in Em.
      apply nth_error_None in Em. congruence.
  Qed.

  Lemma dropped_dicts h root x : dicts_ok h -> dicts_ok (dropped h root x).
  Proof.
    intros Hd a n Hn. destruct (nth_error h a) as [m|] eqn:Em.
    - destruct (dropped_nth h root x a m Em) as [H1 H2].
      destruct (reach_dec (graph_of h) root a) as [Hr|Hr].
      + rewrite (H1 Hr) in Hn. injection Hn as <-. exact (Hd _ _ Em).
      + rewrite (H2 Hr) in Hn. injection Hn as <-. exact (Hd _ _ Em).
    - apply nth_error_None in Em. rewrite <- (dropped_length h root x) in Em.
      apply nth_error_None in Em. congruence.
  Qed.

  (** [avoid g x root a]: reachable without passing through x. *)
  Lemma dropped_reach_avoid h root x a : root <> x ->
    (reach (graph_of (dropped h root x)) root a <-> avoid (graph_of h) x root a).
  Proof.
    intros Hne. split.
    - apply reach_closed; [now constructor|]. intros y z Hy Hz.
      rewrite dropped_layers in Hz. pose proof (avoid_reach _ _ _ _ Hy) as Hr.
      destruct (reach_dec _ _ _); [|contradiction]. apply filter_In in Hz. destruct Hz as [Hz Hzx].
      apply avoid_step with y; [exact Hy|exact Hz|].
      destruct (Nat.eqb_spec z x); [discriminate|assumption].
    - intros Hav. induction Hav as [a Ha|a b c Hav IH Hc Hcx].
      + exists 0; constructor.
      + apply reach_step with b; [exact (IH Hne)|]. rewrite dropped_layers.
        destruct (reach_dec _ _ _) as [_|Hn]; [|exfalso; apply Hn; exact (avoid_reach _ _ _ _ Hav)].
        apply filter_In. split; [exact Hc|]. destruct (Nat.eqb_spec c x); [contradiction|reflexivity].
  Qed.

  Lemma remove_node_effect shuffle h root x h' :
    (forall l, Permutation (shuffle l) l) -> dicts_ok h -> closed h -> root < length h ->
    remove_node shuffle h root x = (h', Ok tt) ->
    length h' = length h /\
    (forall a n, nth_error h a = Some n ->
      let kept := filter (fun l => negb (Nat.eqb l x)) (n_layers n) in
      let in_new := reach (graph_of h') root in
      (in_new a -> nth_error h' a =
         Some (with_refs (with_layers n kept)
           (map (fun kv => (fst kv, prune (walk (graph_of h') Bfs root) (snd kv))) (n_refs n)))) /\
      (~ in_new a -> reach (graph_of h) root a -> nth_error h' a = Some (with_layers n kept)) /\
      (~ reach (graph_of h) root a -> nth_error h' a = Some n)) /\
    (forall a, reach (graph_of h') root a -> reach (graph_of h) root a /\ ~ In x (layers (graph_of h') a)) /\
    (root <> x -> forall a, reach (graph_of h') root a <-> avoid (graph_of h) x root a).
  Proof.
    intros Hsh Hd Hc Hroot Hr. unfold remove_node in Hr. fold (dropped h root x) in Hr.
    set (h1 := dropped h root x) in *. set (tree := walk (graph_of h1) Bfs root) in *.
    destruct (walk_exact (graph_of h1) Bfs root) as [Hnd Hiff].
    assert (Hnds : NoDup (shuffle tree)).
    { exact (Permutation_NoDup (Permutation_sym (Hsh tree)) Hnd). }
    assert (Hins : forall a, In a (shuffle tree) <-> reach (graph_of h1) root a).
    { intros a. rewrite <- Hiff. split; apply Permutation_in; [apply Hsh|apply Permutation_sym, Hsh]. }
    destruct (prune_loop_spec (shuffle tree) h1 tree Hnds (dropped_dicts h root x Hd)) as (_ & P2 & _).
    { intros a Ha. apply Hins in Ha.
      apply (reach_in_heap h1 root a (dropped_closed h root x Hc)); [|exact Ha].
      unfold h1. rewrite dropped_length. exact Hroot. }
    destruct (P2 h' Hr) as (Q1 & Q2 & Q3).
    assert (Hg : graph_of h' = graph_of h1).
    { unfold graph_of. apply nth_error_ext. intros i. rewrite !nth_error_map.
      destruct (nth_error h1 i) as [m|] eqn:Em.
      - rewrite (Q3 i m Em). destruct (in_dec Nat.eq_dec i (shuffle tree)); reflexivity.
      - assert (Em' : nth_error h' i = None).
        { apply nth_error_None. apply nth_error_None in Em. lia. }
        now rewrite Em'. }
    rewrite Hg. fold tree.
    split; [rewrite Q1; apply dropped_length|]. split; [|split].
    - intros a n Hn. cbn zeta.
      destruct (dropped_nth h root x a n Hn) as [D1 D2]. split; [|split].
      + intros Hra. pose proof (D1 (dropped_reach _ _ _ _ Hra)) as Hm. rewrite (Q3 a _ Hm).
        destruct (in_dec Nat.eq_dec a (shuffle tree)) as [_|Hi]; [|exfalso; apply Hi, Hins, Hra].
        reflexivity.
      + intros Hna Hra. pose proof (D1 Hra) as Hm. rewrite (Q3 a _ Hm).
        destruct (in_dec Nat.eq_dec a (shuffle tree)) as [Hi|_]; [exfalso; apply Hna, Hins, Hi|].
        reflexivity.
      + intros Hna. pose proof (D2 Hna) as Hm. rewrite (Q3 a _ Hm).
        destruct (in_dec Nat.eq_dec a (shuffle tree)) as [Hi|_]; [|reflexivity].
        exfalso. apply Hna. apply (dropped_reach h root x). apply Hins, Hi.
    - intros a Ha. pose proof (dropped_reach _ _ _ _ Ha) as Hra. split; [exact Hra|].
      unfold h1. rewrite dropped_layers. destruct (reach_dec _ _ _); [|contradiction].
      intros Hi. apply filter_In in Hi. destruct Hi as [_ Hi]. now rewrite Nat.eqb_refl in Hi.
    - intros Hne a. apply dropped_reach_avoid, Hne.
  Qed.

  Lemma remove_node_outcome shuffle h root x :
    (forall l, Permutation (shuffle l) l) -> dicts_ok h -> closed h -> root < length h -> root <> x ->
    ((forall a n nm, avoid (graph_of h) x root a -> nth_error h a = Some n -> has_ref n nm <> None) ->
       exists h', remove_node shuffle h root x = (h', Ok tt)) /\
    (forall a n nm, avoid (graph_of h) x root a -> nth_error h a = Some n -> has_ref n nm = None ->
       exists h', remove_node shuffle h root x = (h', Err ValueError)).
  Proof.
    intros Hsh Hd Hc Hroot Hne. unfold remove_node. fold (dropped h root x).
    set (h1 := dropped h root x). set (tree := walk (graph_of h1) Bfs root).
    destruct (walk_exact (graph_of h1) Bfs root) as [Hnd Hiff].
    assert (Hnds : NoDup (shuffle tree)).
    { exact (Permutation_NoDup (Permutation_sym (Hsh tree)) Hnd). }
    assert (Hins : forall a, In a (shuffle tree) <-> reach (graph_of h1) root a).
    { intros a. rewrite <- Hiff. split; apply Permutation_in; [apply Hsh|apply Permutation_sym, Hsh]. }
    destruct (prune_loop_spec (shuffle tree) h1 tree Hnds (dropped_dicts h root x Hd)) as (P1 & P2 & P3).
    { intros a Ha. apply Hins in Ha.
      apply (reach_in_heap h1 root a (dropped_closed h root x Hc)); [|exact Ha].
      unfold h1. rewrite dropped_length. exact Hroot. }
    assert (Hrefs : forall a n, nth_error h a = Some n -> exists m, nth_error h1 a = Some m /\ n_refs m = n_refs n).
    { intros a n Hn. destruct (dropped_nth h root x a n Hn) as [D1 D2].
      destruct (reach_dec (graph_of h) root a) as [Hr|Hr].
      - exists (drop_layer x n). split; [exact (D1 Hr)|reflexivity].
      - exists n. split; [exact (D2 Hr)|reflexivity]. }
    split.
    - intros Hall. apply P1. intros a m Ha Hm nm Hnm.
      destruct (nth_error h a) as [n|] eqn:En.
      + destruct (Hrefs a n En) as (m' & Hm' & E). rewrite Hm in Hm'. injection Hm' as <-.
        apply Hins, dropped_reach_avoid in Ha; [|exact Hne].
        pose proof (Hall a n nm Ha En) as Hs. unfold has_ref in Hs. unfold get_ref. rewrite E in *.
        apply dget_key in Hnm. destruct Hnm as [[r|] Hr]; rewrite Hr in *; [now exists r|congruence].
      + exfalso. apply nth_error_None in En. unfold h1 in Hm.
        rewrite <- (dropped_length h root x) in En. apply nth_error_None in En. congruence.
    - intros a n nm Ha Hn Hu.
      destruct (prune_loop h1 tree (shuffle tree)) as [h2 [[]|e]] eqn:Ep.
      + exfalso. destruct (P2 h2 eq_refl) as (_ & Q2 & _).
        destruct (Hrefs a n Hn) as (m & Hm & E).
        assert (Hai : In a (shuffle tree)) by (apply Hins; unfold h1; apply dropped_reach_avoid; assumption).
        unfold has_ref in Hu. destruct (dget nm (n_refs n)) as [[r|]|] eqn:Eg; try discriminate.
        destruct (Q2 a m Hai Hm nm) as [r Hr].
        * rewrite E. eapply dget_some_key, Eg.
        * unfold get_ref in Hr. rewrite E, Eg in Hr. discriminate.
      + exists h2. now rewrite (P3 _ _ eq_refl).
  Qed.
End EditProofs.

(** * Witnesses *)
Definition wit_m (ls : list addr) (refs : dict string (option addr)) : node nat Z :=
  mkNode 0 "n"%string 0 ls [] [] [] [] [] refs [].
Definition wit_h : heap nat Z := [wit_m [1; 2] [("out"%string, None)]; wit_m [2] []; wit_m [] []; wit_m [] []].

Lemma replace_unset_ref_witness :
  exists (h : heap nat Z) root old new h',
    refs_in_tree h /\ acyclic (graph_of h) /\ replace_node h root old new = (h', Err ValueError) /\ h' <> h.
Proof.
  exists wit_h, 0, 2, 3, (fst (replace_node wit_h 0 2 3)). split; [|split; [|split]].
  - intros a n nm b Hn Hg. destruct a as [|[|[|[|a]]]]; cbn in Hn;
      try (injection Hn as <-; unfold get_ref in Hg; cbn in Hg; try discriminate).
    + destruct (eqd nm "out"%string); discriminate.
    + destruct a; discriminate.
  - assert (Hedge : forall a b, In b (layers (graph_of wit_h) a) -> a < b).
    { intros a b. destruct a as [|[|[|[|a]]]]; cbn; [lia|lia|lia|lia|]. destruct a; cbn; tauto. }
    assert (Hpath : forall k a b, path (graph_of wit_h) k a b -> k <= b - a /\ a <= b).
    { induction 1 as [a|k a b c Hp IH Hc]; [lia|]. apply Hedge in Hc. lia. }
    intros k a Hp. apply Hpath in Hp. lia.
  - vm_compute. reflexivity.
  - vm_compute. discriminate.
Qed.

Lemma remove_partial_edit_witness :
  exists (h : heap nat Z) root x h',
    remove_node (fun l => l) h root x = (h', Err ValueError) /\ h' <> h.
Proof.
  exists wit_h, 0, 2, (fst (remove_node (fun l => l) wit_h 0 2)). split.
  - vm_compute. reflexivity.
  - vm_compute. discriminate.
Qed.
