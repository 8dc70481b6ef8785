From Coq Require Import String.
From Verif Require Import BaseFacts DictFacts GraphModel GraphSpec GraphProofs NodeModel NodeSpec NodeProofs
  EditSpec EditProofs SerialModel SerialSpec SerialProofs.

Set Default Goal Selector "!".

Lemma dget_map_val {W W'} (F : W -> W') (k : string) (d : dict string W) :
  dget k (map (fun p => (fst p, F (snd p))) d) = option_map F (dget k d).
Proof. induction d as [|[k' v] d IH]; [reflexivity|]. cbn. destruct (eqd k k'); [reflexivity|exact IH]. Qed.

Lemma dkeys_map_val {W W'} (F : string * W -> W') (d : dict string W) :
  dkeys (map (fun p => (fst p, F p)) d) = dkeys d.
Proof. unfold dkeys. rewrite map_map. reflexivity. Qed.

Lemma dget_tabulate {W} (F : string -> W) k l :
  dget k (map (fun x => (x, F x)) l) = if in_dec string_dec k l then Some (F k) else None.
Proof.
  induction l as [|x l IH]; [reflexivity|]. cbn [map dget]. destruct (eqd k x) as [->|Hne].
  - destruct (in_dec string_dec x (x :: l)) as [_|Hi]; [reflexivity|exfalso; apply Hi; now left].
  - rewrite IH. destruct (in_dec string_dec k l) as [Hi|Hi]; destruct (in_dec string_dec k (x :: l)) as [Hj|Hj]; try reflexivity.
    + exfalso. apply Hj. now right.
    + exfalso. destruct Hj as [He|Hj]; [congruence|contradiction].
Qed.

Lemma map_some_nth {X} (h : list X) l ns : map Some ns = map (nth_error h) l ->
  forall i a, nth_error l i = Some a -> nth_error ns i = nth_error h a.
Proof.
  revert ns. induction l as [|b l IH]; intros [|n ns] Hm [|i] a Hi; try discriminate.
  - injection Hi as <-. injection Hm as Hn _. exact Hn.
  - injection Hm as _ Hm. exact (IH ns Hm i a Hi).
Qed.

Lemma collect {X} (h1 h2 : list X) (f : nat -> nat) (Rel : X -> X -> Prop) l :
  (forall a, In a l -> exists n1 n2, nth_error h1 a = Some n1 /\ nth_error h2 (f a) = Some n2 /\ Rel n1 n2) ->
  exists ns1 ns2, map Some ns1 = map (nth_error h1) l /\ map Some ns2 = map (nth_error h2) (map f l) /\ Forall2 Rel ns1 ns2.
Proof.
  induction l as [|a l IH]; intros Hall; [exists [], []; repeat split; constructor|].
  destruct (Hall a (or_introl eq_refl)) as (n1 & n2 & H1 & H2 & H3).
  destruct IH as (ns1 & ns2 & I1 & I2 & I3); [intros b Hb; apply Hall; now right|].
  exists (n1 :: ns1), (n2 :: ns2). cbn. rewrite H1, H2, I1, I2. repeat split. now constructor.
Qed.

Lemma forall2_map {X Y} (Rel : X -> X -> Prop) (F G : X -> Y) l1 l2 :
  Forall2 Rel l1 l2 -> (forall x y, Rel x y -> F x = G y) -> map F l1 = map G l2.
Proof. induction 1 as [|x y l1 l2 Hxy Hl IH]; intros He; [reflexivity|]. cbn. f_equal; [now apply He|now apply IH]. Qed.

Section RoundTrip.
  Context {V A Y S : Type} `{EqD Y}.
  Notation node := (node V A).
  Notation heap := (heap V A).
  Notation sstate := (sstate V A S).
  Notation message := (message V Y).
  Variable ser : A -> option Y.
  Variable deser : option A -> Y -> A.
  Variable shim_to : S -> Y.
  Variable shim_from : S -> Y -> S.

  Lemma dget_ser_attrs (n : node) k : NoDup (dkeys (n_attrs n)) ->
    dget k (ser_attrs ser n) = match dget k (n_attrs n) with Some v => ser v | None => None end.
  Proof.
    unfold ser_attrs. induction (n_attrs n) as [|[k' v] d IH]; intros Hnd; [reflexivity|].
    cbn [dkeys map fst] in Hnd. inversion Hnd as [|? ? Hk Hnd']; subst. cbn [flat_map fst snd dget].
    destruct (ser v) as [y|] eqn:Ey.
    - cbn [app dget]. destruct (eqd k k') as [->|Hne]; [now rewrite Ey|now apply IH].
    - cbn [app]. destruct (eqd k k') as [->|Hne]; [|now apply IH].
      rewrite IH by exact Hnd'. assert (dget k' d = None) as -> by now apply dget_none. now rewrite Ey.
  Qed.

  Lemma ser_attrs_keys (n : node) : incl (dkeys (ser_attrs ser n)) (dkeys (n_attrs n)).
  Proof.
    intros k Hk. unfold dkeys, ser_attrs in Hk. apply in_map_iff in Hk. destruct Hk as ([k' y] & <- & Hk).
    apply in_flat_map in Hk. destruct Hk as ([k2 v] & Hin & Hy). cbn [fst snd] in Hy.
    destruct (ser v); [|destruct Hy]. destruct Hy as [He|[]]. injection He as <- _.
    apply in_map_iff. now exists (k2, v).
  Qed.

  Lemma ser_attrs_nodup (n : node) : NoDup (dkeys (n_attrs n)) -> NoDup (dkeys (ser_attrs ser n)).
  Proof.
    unfold ser_attrs, dkeys. induction (n_attrs n) as [|[k v] d IH]; intros Hnd; [constructor|].
    cbn [map fst] in Hnd. inversion Hnd as [|? ? Hk Hnd']; subst. cbn [flat_map fst snd].
    destruct (ser v) as [y|]; [|cbn; now apply IH]. cbn. constructor; [|now apply IH].
    intros Hin. apply Hk. apply in_map_iff in Hin. destruct Hin as ([k' y'] & <- & Hin).
    apply in_flat_map in Hin. destruct Hin as ([k2 v2] & Hin & Hy). cbn [fst snd] in Hy.
    destruct (ser v2); [|destruct Hy]. destruct Hy as [He|[]]. injection He as <- _.
    apply in_map_iff. now exists (k2, v2).
  Qed.

  Lemma ser_attrs_ext (n1 n2 : node) : dkeys (n_attrs n1) = dkeys (n_attrs n2) -> NoDup (dkeys (n_attrs n1)) ->
    (forall k v w, dget k (n_attrs n1) = Some v -> dget k (n_attrs n2) = Some w -> ser v = ser w) ->
    ser_attrs ser n1 = ser_attrs ser n2.
  Proof.
    unfold ser_attrs. generalize (n_attrs n2) as d2. induction (n_attrs n1) as [|[k v] d1 IH]; intros [|[k2 w] d2] Hk Hnd Hs;
      try discriminate; [reflexivity|].
    cbn [dkeys map fst] in Hk, Hnd. injection Hk as <- Hk. inversion Hnd as [|? ? Hn Hnd']; subst.
    cbn [flat_map fst snd]. rewrite (Hs k v w); cbn [dget]; try apply eqd_refl. f_equal.
    apply IH; [exact Hk|exact Hnd'|]. intros k' v' w' H1 H2.
    assert (Hne : k' <> k). { intros ->. apply Hn. now apply dget_some_key in H1. }
    apply (Hs k'); cbn [dget]; now rewrite eqd_neq.
  Qed.

  Lemma fold_shim l : forall v y, l <> [] -> (forall z, In z l -> z = y) -> (forall v, shim_to (shim_from v y) = y) ->
    shim_to (fold_left shim_from l v) = y.
  Proof.
    intros v y Hne Hall Hlaw.
    induction l as [|z l IH] using rev_ind; [congruence|]. rewrite fold_left_app. cbn.
    rewrite (Hall z) by (apply in_or_app; right; now left). apply Hlaw.
  Qed.

  Lemma combine_flat_singletons {X Z} (F : X -> list Z) own :
    (forall x, In x own -> exists y, F x = [y]) ->
    length (flat_map F own) = length own /\
    (forall x y, In (x, y) (combine own (flat_map F own)) -> F x = [y]) /\
    (forall x, In x own -> exists y, In (x, y) (combine own (flat_map F own))).
  Proof.
    induction own as [|x own IH]; intros Hall; [repeat split; cbn; tauto|].
    destruct (Hall x (or_introl eq_refl)) as [y Hy].
    destruct IH as (I1 & I2 & I3); [intros z Hz; apply Hall; now right|].
    cbn [flat_map]. rewrite Hy. cbn [app combine length]. split; [congruence|]. split.
    - intros x' y' [He|Hin]; [injection He as <- <-; exact Hy|now apply I2].
    - intros x' [<-|Hin]; [exists y; now left|]. destruct (I3 x' Hin) as [y' Hy']. exists y'. now right.
  Qed.

  Variables (s1 s2 : sstate) (r1 r2 : addr) (f gs : addr -> addr).
  Hypothesis W1 : wf_model s1 r1.
  Hypothesis W2 : wf_model s2 r2.
  Hypothesis Hiso : iso (graph_of (s_nodes s1)) r1 (graph_of (s_nodes s2)) r2 f.
  Hypothesis Hcomp : forall a n1 n2, reach (graph_of (s_nodes s1)) r1 a ->
    nth_error (s_nodes s1) a = Some n1 -> nth_error (s_nodes s2) (f a) = Some n2 -> compatible ser deser gs n1 n2.
  Hypothesis Hlaw : forall v w, shim_to (shim_from v (shim_to w)) = shim_to w.

  Let g1 := graph_of (s_nodes s1).
  Let g2 := graph_of (s_nodes s2).
  Let nodes1 := walk g1 Bfs r1.
  Let nodes2 := walk g2 Bfs r2.

  Lemma rt_nodes : nodes2 = map f nodes1.
  Proof. exact (walk_iso g1 g2 r1 r2 f Hiso). Qed.

  Lemma rt_in_heap1 a : reach g1 r1 a -> exists n, nth_error (s_nodes s1) a = Some n.
  Proof.
    intros Ha. assert (a < length (s_nodes s1)) as Hlt.
    { apply (reach_in_heap (s_nodes s1) r1 a); [|apply W1|exact Ha]. intros y m l. apply (ws_closed _ _ W1). }
    destruct (nth_error (s_nodes s1) a) as [n|] eqn:E; [now exists n|apply nth_error_None in E; lia].
  Qed.
  Lemma rt_reach2 a : reach g1 r1 a -> reach g2 r2 (f a).
  Proof.
    intros Ha. rewrite <- (iso_root _ _ _ _ _ Hiso). apply (reach_iso g1 g2 r1 r2 f Hiso); [exists 0; constructor|exact Ha].
  Qed.
  Lemma rt_in_heap2 a : reach g1 r1 a -> exists n, nth_error (s_nodes s2) (f a) = Some n.
  Proof.
    intros Ha. assert (f a < length (s_nodes s2)) as Hlt.
    { apply (reach_in_heap (s_nodes s2) r2 (f a)); [|apply W2|now apply rt_reach2]. intros y m l. apply (ws_closed _ _ W2). }
    destruct (nth_error (s_nodes s2) (f a)) as [n|] eqn:E; [now exists n|apply nth_error_None in E; lia].
  Qed.
  Lemma rt_walk1 a : In a nodes1 <-> reach g1 r1 a.
  Proof. apply walk_exact. Qed.
  Lemma rt_nodup1 : NoDup nodes1.
  Proof. apply walk_exact. Qed.
  Lemma rt_nodup2 : NoDup nodes2.
  Proof. apply walk_exact. Qed.

  Let shimY (x : addr) : list Y := match nth_error (s_shims s1) x with Some v => [shim_to v] | None => [] end.
  Let data_of (n1 : node) : list Y := flat_map shimY (n_shims n1).
  Let params_of (n1 : node) : dict string (option V) := map (fun nm => (nm, pval n1 nm)) (param_names n1).

  Lemma rt_single n1 a x : nth_error (s_nodes s1) a = Some n1 -> In x (n_shims n1) -> exists y, shimY x = [y].
  Proof.
    intros Hn Hx. pose proof (ws_shims _ _ W1 a n1 x Hn Hx) as Hlt. unfold shimY.
    destruct (nth_error (s_shims s1) x) as [v|] eqn:E; [now exists (shim_to v)|apply nth_error_None in E; lia].
  Qed.

  Lemma rt_data n1 n2 a : reach g1 r1 a -> nth_error (s_nodes s1) a = Some n1 -> nth_error (s_nodes s2) (f a) = Some n2 ->
    data_of n1 = flat_map (fun x => shimY (gs x)) (n_shims n2) /\
    forall x, In x (n_shims n2) -> exists y, shimY (gs x) = [y].
  Proof.
    intros Ha H1 H2. pose proof (cm_shims _ _ _ _ _ (Hcomp a n1 n2 Ha H1 H2)) as Hs. split.
    - unfold data_of. rewrite Hs. rewrite flat_map_concat_map, map_map, <- flat_map_concat_map. reflexivity.
    - intros x Hx. apply (rt_single n1 a (gs x) H1). rewrite Hs. now apply in_map.
  Qed.

  Lemma rt_loadable msg i a n1 n2 :
    nth_error nodes1 i = Some a -> reach g1 r1 a ->
    nth_error (s_nodes s1) a = Some n1 -> nth_error (s_nodes s2) (f a) = Some n2 ->
    nth_error (m_nodes msg) i = Some (info_of nodes1 n1) -> nth_error (m_attrs msg) i = Some (ser_attrs ser n1) ->
    nth_error (m_params msg) i = Some (params_of n1) -> nth_error (m_shims msg) i = Some (data_of n1) ->
    loadable s2 nodes2 msg i (f a) n2 (info_of nodes1 n1) (ser_attrs ser n1) (params_of n1) (data_of n1).
  Proof.
    intros Hi Ha H1 H2 M1 M2 M3 M4. pose proof (Hcomp a n1 n2 Ha H1 H2) as C.
    destruct (ws_keys _ _ W1 a n1 H1) as (K1 & K2 & K3 & K4). split; try assumption.
    - split; [exact K1|]. split; [|split].
      + unfold info_of. cbn [i_refs]. rewrite (dkeys_map_val (fun p => match snd p with Some b => pos nodes1 b | None => None end)). exact K2.
      + now apply ser_attrs_nodup.
      + unfold params_of, dkeys. rewrite map_map. cbn [fst]. rewrite map_id. exact K4.
    - cbn [info_of i_dims]. intros d v Hd. destruct (cm_dims _ _ _ _ _ C) as [_ Hc]. destruct (Hc d) as [->| ->]; [now left|now right].
    - cbn [info_of i_refs]. intros nm j Hj.
      rewrite (dget_map_val (fun o => match o with Some b => pos nodes1 b | None => None end)) in Hj.
      destruct (dget nm (n_refs n1)) as [[b|]|] eqn:Eb; try discriminate.
      destruct (ser_info_ok s1 r1 a n1 W1 Ha H1) as [_ Hp]. destruct (Hp nm b Eb) as (k & Hk & Hnk).
      fold g1 in Hk, Hnk. fold nodes1 in Hk, Hnk. cbn in Hj. rewrite Hk in Hj. injection Hj as <-.
      exists (f b). split; [rewrite rt_nodes, nth_error_map, Hnk; reflexivity|].
      apply (reach_iso g1 g2 r1 r2 f Hiso a b Ha). exact (ws_refs _ _ W1 a n1 nm b H1 Eb).
    - destruct (rt_data n1 n2 a Ha H1 H2) as [-> Hsing].
      destruct (combine_flat_singletons (fun x => shimY (gs x)) (n_shims n2) Hsing) as [-> _]. lia.
    - intros x Hx. exact (ws_shims _ _ W2 _ n2 x H2 Hx).
  Qed.

  Lemma rt_same a n1 n2 n' : reach g1 r1 a ->
    nth_error (s_nodes s1) a = Some n1 -> nth_error (s_nodes s2) (f a) = Some n2 ->
    loaded deser nodes2 (info_of nodes1 n1) (ser_attrs ser n1) (params_of n1) n2 n' ->
    same_data ser f n1 n' /\ info_of nodes2 n' = info_of nodes1 n1 /\ ser_attrs ser n' = ser_attrs ser n1 /\
    params_of n' = params_of n1 /\
    NoDup (dkeys (n_dims n')) /\ NoDup (dkeys (n_refs n')) /\ NoDup (dkeys (n_attrs n')) /\ NoDup (dkeys (n_has n')) /\
    (forall nm, dget nm (n_has n') = Some true -> exists v, dget nm (n_params n') = Some v) /\
    (forall nm b', dget nm (n_refs n') = Some (Some b') -> reach g2 (f a) b').
  Proof.
    intros Ha H1 H2 L. pose proof (Hcomp a n1 n2 Ha H1 H2) as C.
    destruct (ws_keys _ _ W1 a n1 H1) as (K1 & K2 & K3 & K4).
    destruct (ws_keys _ _ W2 _ n2 H2) as (J1 & J2 & J3 & J4).
    destruct (ser_info_ok s1 r1 a n1 W1 Ha H1) as [_ Hp]. fold g1 in Hp. fold nodes1 in Hp.
    assert (Edims : n_dims n' = n_dims n1).
    { destruct (cm_dims _ _ _ _ _ C) as [Hk Hc].
      apply dict_ext; [rewrite (ld_dim_names _ _ _ _ _ _ _ L); exact J1|rewrite (ld_dim_names _ _ _ _ _ _ _ L); exact Hk|].
      intros d. rewrite (ld_dims _ _ _ _ _ _ _ L). cbn [info_of i_dims].
      destruct (dget d (n_dims n1)) as [[v|]|] eqn:E; [reflexivity| |].
      - destruct (Hc d) as [->|Hd]; [reflexivity|]. congruence.
      - destruct (Hc d) as [Hd|Hd]; [|congruence]. exfalso. apply dget_some_key in Hd. rewrite Hk in Hd.
        apply dget_key in Hd. destruct Hd as [x Hx]. congruence. }
    assert (Hrk : dkeys (n_refs n') = dkeys (n_refs n1)).
    { rewrite (ld_ref_names _ _ _ _ _ _ _ L); [exact (cm_refs _ _ _ _ _ C)|].
      unfold info_of. cbn [i_refs]. rewrite (dkeys_map_val (fun p => match snd p with Some b => pos nodes1 b | None => None end)).
      rewrite (cm_refs _ _ _ _ _ C). apply incl_refl. }
    assert (Erefs : n_refs n' = map (fun p => (fst p, option_map f (snd p))) (n_refs n1)).
    { apply dict_ext; [rewrite Hrk; exact K2|rewrite Hrk; symmetry; apply (dkeys_map_val (fun p => option_map f (snd p)))|].
      intros nm. rewrite (ld_refs _ _ _ _ _ _ _ L). cbn [info_of i_refs].
      rewrite (dget_map_val (fun o => match o with Some b => pos nodes1 b | None => None end)), (dget_map_val (option_map f)).
      destruct (dget nm (n_refs n1)) as [[b|]|] eqn:E; cbn [option_map].
      - destruct (Hp nm b E) as (k & -> & Hk). rewrite rt_nodes, nth_error_map, Hk. reflexivity.
      - reflexivity.
      - apply dget_none. rewrite (cm_refs _ _ _ _ _ C). now apply dget_none. }
    assert (Hak : dkeys (n_attrs n') = dkeys (n_attrs n1)).
    { rewrite (ld_attr_names _ _ _ _ _ _ _ L); [exact (proj1 (cm_attrs _ _ _ _ _ C))|].
      rewrite (proj1 (cm_attrs _ _ _ _ _ C)). apply ser_attrs_keys. }
    assert (Eat : forall k v, dget k (n_attrs n1) = Some v -> exists w, dget k (n_attrs n') = Some w /\ (ser v <> None -> w = v) /\ ser w = ser v).
    { intros k v Hv. assert (Hw : exists w, dget k (n_attrs n2) = Some w).
      { apply dget_key. rewrite (proj1 (cm_attrs _ _ _ _ _ C)). now apply dget_some_key in Hv. }
      destruct Hw as [w Hw]. pose proof (proj2 (cm_attrs _ _ _ _ _ C) k v w Hv Hw) as Hm.
      rewrite (ld_attrs _ _ _ _ _ _ _ L), dget_ser_attrs by exact K3. rewrite Hv.
      destruct (ser v) as [y|] eqn:Ey.
      - rewrite Hw. exists v. rewrite Hm. split; [reflexivity|]. split; [reflexivity|exact Ey].
      - exists w. split; [exact Hw|]. split; [congruence|exact Hm]. }
    assert (Hpk : dkeys (n_has n') = dkeys (n_has n1)).
    { rewrite (ld_param_names _ _ _ _ _ _ _ L); [exact (cm_params _ _ _ _ _ C)|].
      unfold params_of, dkeys at 1. rewrite map_map. cbn [fst]. rewrite map_id. rewrite <- (cm_params _ _ _ _ _ C). apply incl_refl. }
    assert (Hpar : forall nm, dget nm (params_of n1) = if in_dec string_dec nm (param_names n1) then Some (pval n1 nm) else None).
    { intros nm. apply dget_tabulate. }
    assert (Hhas : forall nm, dget nm (n_has n') = dget nm (n_has n1)).
    { intros nm. rewrite (ld_has _ _ _ _ _ _ _ L), Hpar.
      destruct (in_dec string_dec nm (param_names n1)) as [Hi|Hi].
      - apply dget_key in Hi. destruct Hi as [b Hb]. unfold pval, has_param, get_param. rewrite Hb. destruct b; [|reflexivity].
        destruct (ws_alloc _ _ W1 a n1 nm H1 Hb) as [v ->]. reflexivity.
      - assert (dget nm (n_has n1) = None) as -> by now apply dget_none. apply dget_none.
        change (dkeys (n_has n2)) with (param_names n2). rewrite (cm_params _ _ _ _ _ C). exact Hi. }
    assert (Hval : forall nm, dget nm (n_has n1) = Some true -> dget nm (n_params n') = dget nm (n_params n1)).
    { intros nm Hb. rewrite (ld_params _ _ _ _ _ _ _ L), Hpar.
      destruct (in_dec string_dec nm (param_names n1)) as [Hi|Hi].
      - unfold pval, has_param, get_param. rewrite Hb. destruct (ws_alloc _ _ W1 a n1 nm H1 Hb) as [v ->]. reflexivity.
      - exfalso. apply Hi. unfold param_names. now apply dget_some_key in Hb. }
    assert (Hpv : forall nm, pval n' nm = pval n1 nm).
    { intros nm. unfold pval, has_param, get_param. rewrite Hhas. destruct (dget nm (n_has n1)) as [[|]|] eqn:E; try reflexivity.
      now rewrite Hval. }
    split; [split|].
    - exact (ld_name _ _ _ _ _ _ _ L).
    - exact Edims.
    - exact Erefs.
    - intros k v Hv Hs. destruct (Eat k v Hv) as (w & Hw & Hwv & _). now rewrite <- (Hwv Hs).
    - intros nm. unfold has_param. now rewrite Hhas.
    - intros nm Hh. unfold has_param in Hh. unfold get_param. rewrite Hhas.
      destruct (dget nm (n_has n1)) as [[|]|] eqn:E; try discriminate. now rewrite Hval.
    - split; [|split; [|split]].
      + unfold info_of. rewrite Edims, (ld_name _ _ _ _ _ _ _ L). cbn [info_of i_name]. f_equal.
        rewrite Erefs, map_map. apply map_ext_in. intros [nm o] Hin. cbn [fst snd]. f_equal.
        destruct o as [b|]; [|reflexivity]. cbn [option_map].
        destruct (Hp nm b (dget_nodup_in nm _ _ K2 Hin)) as (k & Hk & Hnk). rewrite Hk.
        apply (in_nodes_pos nodes2 (f b) rt_nodup2). rewrite rt_nodes, nth_error_map, Hnk. reflexivity.
      + symmetry. apply ser_attrs_ext; [now symmetry|exact K3|]. intros k v w Hv Hw.
        destruct (Eat k v Hv) as (w' & Hw' & _ & Hs). congruence.
      + unfold params_of, param_names. rewrite Hpk. apply map_ext. intros nm. now rewrite Hpv.
      + rewrite Edims, Hrk, Hak, Hpk. repeat split; try assumption.
        * intros nm Hb. rewrite Hhas in Hb. rewrite Hval by exact Hb. exact (ws_alloc _ _ W1 a n1 nm H1 Hb).
        * intros nm b' Hb. rewrite Erefs, (dget_map_val (option_map f)) in Hb.
          destruct (dget nm (n_refs n1)) as [[b|]|] eqn:E; try discriminate. injection Hb as <-.
          apply (reach_iso g1 g2 r1 r2 f Hiso a b Ha). exact (ws_refs _ _ W1 a n1 nm b H1 E).
  Qed.

  Lemma round_trip :
    exists msg s2', to_dict ser shim_to s1 r1 = Ok msg /\ from_dict deser shim_from s2 r2 msg = (s2', Ok tt) /\
      to_dict ser shim_to s2' r2 = Ok msg /\
      (forall a n1 n2, reach g1 r1 a -> nth_error (s_nodes s1) a = Some n1 -> nth_error (s_nodes s2) (f a) = Some n2 ->
         exists n', nth_error (s_nodes s2') (f a) = Some n' /\ same_data ser f n1 n' /\
           n_id n' = n_id n2 /\ n_func n' = n_func n2 /\ n_layers n' = n_layers n2 /\ n_shims n' = n_shims n2 /\ n_grads n' = n_grads n2 /\
           forall x, In x (n_shims n2) -> exists v v', nth_error (s_shims s1) (gs x) = Some v /\ nth_error (s_shims s2') x = Some v' /\ shim_to v' = shim_to v) /\
      (forall b, ~ reach g2 r2 b -> nth_error (s_nodes s2') b = nth_error (s_nodes s2) b).
  Proof.
    destruct (collect (s_nodes s1) (s_nodes s2) f (fun _ _ => True) nodes1) as (ns1 & ns2 & C1 & C2 & _).
    { intros a Ha. apply rt_walk1 in Ha. destruct (rt_in_heap1 a Ha) as [n1 H1]. destruct (rt_in_heap2 a Ha) as [n2 H2].
      now exists n1, n2. }
    set (msg := mkMsg (map (info_of nodes1) ns1) (map (ser_attrs ser) ns1) (map params_of ns1) (map data_of ns1)).
    assert (Etd : to_dict ser shim_to s1 r1 = Ok msg) by exact (to_dict_ok ser shim_to s1 r1 ns1 W1 C1).
    assert (Hlen : length ns1 = length nodes1) by (rewrite <- (map_length Some), C1; apply map_length).
    assert (Hent : forall i a n1, nth_error nodes1 i = Some a -> nth_error (s_nodes s1) a = Some n1 ->
       nth_error (m_nodes msg) i = Some (info_of nodes1 n1) /\ nth_error (m_attrs msg) i = Some (ser_attrs ser n1) /\
       nth_error (m_params msg) i = Some (params_of n1) /\ nth_error (m_shims msg) i = Some (data_of n1)).
    { intros i a n1 Hi H1. pose proof (map_some_nth _ _ _ C1 i a Hi) as Hn. rewrite H1 in Hn.
      cbn [msg m_nodes m_attrs m_params m_shims]. rewrite !nth_error_map, Hn. repeat split; reflexivity. }
    assert (Hload : forall i a n1 n2, nth_error nodes1 i = Some a -> nth_error (s_nodes s1) a = Some n1 -> nth_error (s_nodes s2) (f a) = Some n2 ->
       loadable s2 nodes2 msg i (f a) n2 (info_of nodes1 n1) (ser_attrs ser n1) (params_of n1) (data_of n1)).
    { intros i a n1 n2 Hi H1 H2. destruct (Hent i a n1 Hi H1) as (M1 & M2 & M3 & M4).
      apply rt_loadable; try assumption. apply rt_walk1. now apply nth_error_In in Hi. }
    destruct (from_dict_ok deser shim_to shim_from s2 r2 msg) as (s2' & F1 & F2 & F3 & F4 & F5 & F6 & F7).
    { fold g2. fold nodes2. rewrite rt_nodes, map_length. cbn. rewrite map_length. exact Hlen. }
    { fold g2. fold nodes2. intros i b Hi. rewrite rt_nodes, nth_error_map in Hi.
      destruct (nth_error nodes1 i) as [a|] eqn:Ea; [|discriminate]. injection Hi as <-.
      assert (Ha : reach g1 r1 a) by (apply rt_walk1; now apply nth_error_In in Ea).
      destruct (rt_in_heap1 a Ha) as [n1 H1]. destruct (rt_in_heap2 a Ha) as [n2 H2].
      exists n2, (info_of nodes1 n1), (ser_attrs ser n1), (params_of n1), (data_of n1). split; [exact H2|]. now apply Hload. }
    fold g2 in F3, F5, F6, F7. fold nodes2 in F6, F7.
    assert (Hnode : forall a n1 n2, reach g1 r1 a -> nth_error (s_nodes s1) a = Some n1 -> nth_error (s_nodes s2) (f a) = Some n2 ->
       exists n', nth_error (s_nodes s2') (f a) = Some n' /\
         loaded deser nodes2 (info_of nodes1 n1) (ser_attrs ser n1) (params_of n1) n2 n').
    { intros a n1 n2 Ha H1 H2. apply rt_walk1, In_nth_error in Ha. destruct Ha as [i Hi].
      apply (F6 i (f a) n2 _ _ _ (data_of n1)); [rewrite rt_nodes, nth_error_map, Hi; reflexivity|exact H2|now apply Hload]. }
    assert (Hshim : forall a n1 n2 x, reach g1 r1 a -> nth_error (s_nodes s1) a = Some n1 -> nth_error (s_nodes s2) (f a) = Some n2 ->
       In x (n_shims n2) -> exists v v', nth_error (s_shims s1) (gs x) = Some v /\ nth_error (s_shims s2') x = Some v' /\ shim_to v' = shim_to v).
    { intros a n1 n2 x Ha H1 H2 Hx.
      destruct (rt_data n1 n2 a Ha H1 H2) as [Ed Hsing]. destruct (Hsing x Hx) as [y Hy].
      unfold shimY in Hy. destruct (nth_error (s_shims s1) (gs x)) as [v|] eqn:Ev; [|discriminate]. injection Hy as Hy.
      pose proof (ws_shims _ _ W2 _ n2 x H2 Hx) as Hlt.
      destruct (nth_error (s_shims s2) x) as [w|] eqn:Ew; [|apply nth_error_None in Ew; lia].
      exists v. eexists. split; [reflexivity|]. rewrite F7, Ew. split; [reflexivity|].
      apply fold_shim; [| |intros u; apply Hlaw].
      - apply rt_walk1, In_nth_error in Ha. destruct Ha as [i Hi].
        destruct (combine_flat_singletons (fun x => shimY (gs x)) (n_shims n2) Hsing) as (_ & _ & Hex).
        destruct (Hex x Hx) as [y' Hy']. intros Hnil.
        assert (Hin : In y' (msg_writes s2 nodes2 msg x)); [|rewrite Hnil in Hin; destruct Hin].
        unfold msg_writes. apply in_flat_map. exists (f a, data_of n1). split.
        + apply nth_error_In with i. 
          assert (Hc : forall {P Q} (l : list P) (l' : list Q) k p q, nth_error l k = Some p -> nth_error l' k = Some q -> nth_error (combine l l') k = Some (p, q)).
          { clear. intros P Q. induction l as [|p0 l IH]; intros [|q0 l'] [|k] p q Hp Hq; try discriminate; cbn in *; [congruence|now apply IH]. }
          apply Hc; [rewrite rt_nodes, nth_error_map, Hi; reflexivity|now apply (Hent i a n1)].
        + cbn [fst snd]. rewrite H2. unfold shim_writes. apply in_map_iff. exists (x, y'). split; [reflexivity|].
          apply filter_In. split; [now rewrite Ed|cbn; apply Nat.eqb_refl].
      - intros z Hz. unfold msg_writes in Hz. apply in_flat_map in Hz. destruct Hz as ([b data] & Hbd & Hz). cbn [fst snd] in Hz.
        apply In_nth_error in Hbd. destruct Hbd as [k Hk].
        assert (Hc : forall {P Q} (l : list P) (l' : list Q) k p q, nth_error (combine l l') k = Some (p, q) -> nth_error l k = Some p /\ nth_error l' k = Some q).
        { clear. intros P Q. induction l as [|p0 l IH]; intros [|q0 l'] [|k] p q Hp; try discriminate; cbn in *; [split; congruence|now apply IH]. }
        apply Hc in Hk. destruct Hk as [Hkb Hkd]. rewrite rt_nodes, nth_error_map in Hkb.
        destruct (nth_error nodes1 k) as [a'|] eqn:Ea'; [|discriminate]. injection Hkb as <-.
        assert (Ha' : reach g1 r1 a') by (apply rt_walk1; now apply nth_error_In in Ea').
        destruct (rt_in_heap1 a' Ha') as [m1 Hm1]. destruct (rt_in_heap2 a' Ha') as [m2 Hm2]. rewrite Hm2 in Hz.
        destruct (Hent k a' m1 Ea' Hm1) as (_ & _ & _ & Hd). rewrite Hkd in Hd. injection Hd as ->.
        unfold shim_writes in Hz. apply in_map_iff in Hz. destruct Hz as ([x' z'] & Hzz & Hz). cbn in Hzz. subst z'.
        apply filter_In in Hz. destruct Hz as [Hz Hxx]. cbn in Hxx. apply Nat.eqb_eq in Hxx. subst x'.
        destruct (rt_data m1 m2 a' Ha' Hm1 Hm2) as [Ed' Hsing']. rewrite Ed' in Hz.
        destruct (combine_flat_singletons (fun x => shimY (gs x)) (n_shims m2) Hsing') as (_ & Hall & _).
        specialize (Hall x z Hz). unfold shimY in Hall. rewrite Ev in Hall. now injection Hall. }
    assert (W' : wf_model s2' r2).
    { assert (Hold : forall b n', nth_error (s_nodes s2') b = Some n' ->
         (exists a n1 n2, reach g1 r1 a /\ b = f a /\ nth_error (s_nodes s1) a = Some n1 /\ nth_error (s_nodes s2) b = Some n2 /\
            loaded deser nodes2 (info_of nodes1 n1) (ser_attrs ser n1) (params_of n1) n2 n') \/
         nth_error (s_nodes s2) b = Some n').
      { intros b n' Hb. destruct (in_dec Nat.eq_dec b nodes2) as [Hi|Hi].
        - left. rewrite rt_nodes in Hi. apply in_map_iff in Hi. destruct Hi as (a & <- & Hi). apply rt_walk1 in Hi.
          destruct (rt_in_heap1 a Hi) as [n1 H1]. destruct (rt_in_heap2 a Hi) as [n2 H2].
          destruct (Hnode a n1 n2 Hi H1 H2) as (n'' & Hn'' & L). exists a, n1, n2. rewrite Hb in Hn''. injection Hn'' as <-. auto.
        - right. rewrite <- Hb. symmetry. apply F5. intros Hr. apply Hi. now apply walk_exact. }
      assert (Hrest : forall b n', nth_error (s_nodes s2') b = Some n' -> exists n2, nth_error (s_nodes s2) b = Some n2 /\
          n_id n' = n_id n2 /\ n_layers n' = n_layers n2 /\ n_shims n' = n_shims n2).
      { intros b n' Hb. destruct (Hold b n' Hb) as [(a & n1 & n2 & Ha & -> & H1 & H2 & L)|H2].
        - destruct (ld_rest _ _ _ _ _ _ _ L) as (L1 & _ & L2 & L3 & _). now exists n2.
        - now exists n'. }
      split.
      - rewrite F2. apply W2.
      - intros b n' l Hb Hl. destruct (Hrest b n' Hb) as (n2 & H2 & _ & E & _). rewrite E in Hl. rewrite F2.
        exact (ws_closed _ _ W2 b n2 l H2 Hl).
      - intros b n' Hb. destruct (Hold b n' Hb) as [(a & n1 & n2 & Ha & -> & H1 & H2 & L)|H2].
        + destruct (rt_same a n1 n2 n' Ha H1 H2 L) as (_ & _ & _ & _ & Q1 & Q2 & Q3 & Q4 & _). auto.
        + exact (ws_keys _ _ W2 b n' H2).
      - intros b n' nm Hb. destruct (Hold b n' Hb) as [(a & n1 & n2 & Ha & -> & H1 & H2 & L)|H2].
        + destruct (rt_same a n1 n2 n' Ha H1 H2 L) as (_ & _ & _ & _ & _ & _ & _ & _ & Q & _). apply Q.
        + exact (ws_alloc _ _ W2 b n' nm H2).
      - intros b n' nm c Hb. fold g2. rewrite F3. fold g2. destruct (Hold b n' Hb) as [(a & n1 & n2 & Ha & -> & H1 & H2 & L)|H2].
        + destruct (rt_same a n1 n2 n' Ha H1 H2 L) as (_ & _ & _ & _ & _ & _ & _ & _ & _ & Q). apply Q.
        + exact (ws_refs _ _ W2 b n' nm c H2).
      - intros a b na nb Ha Hb He. destruct (Hrest a na Ha) as (ma & Hma & Ea & _). destruct (Hrest b nb Hb) as (mb & Hmb & Eb & _).
        apply (ws_ids _ _ W2 a b ma mb Hma Hmb). congruence.
      - intros b n' x Hb Hx. rewrite F4. destruct (Hrest b n' Hb) as (n2 & H2 & _ & _ & E). rewrite E in Hx.
        exact (ws_shims _ _ W2 b n2 x H2 Hx). }
    exists msg, s2'. split; [exact Etd|]. split; [exact F1|]. split; [|split; [|exact F5]].
    - destruct (collect (s_nodes s1) (s_nodes s2') f (fun n1 n' => info_of nodes2 n' = info_of nodes1 n1 /\ ser_attrs ser n' = ser_attrs ser n1 /\
          params_of n' = params_of n1 /\
          flat_map (fun x => match nth_error (s_shims s2') x with Some v => [shim_to v] | None => [] end) (n_shims n') = data_of n1) nodes1)
        as (ns1' & ns2' & D1 & D2 & D3).
      { intros a Ha. apply rt_walk1 in Ha. destruct (rt_in_heap1 a Ha) as [n1 H1]. destruct (rt_in_heap2 a Ha) as [n2 H2].
        destruct (Hnode a n1 n2 Ha H1 H2) as (n' & Hn' & L). exists n1, n'. split; [exact H1|]. split; [exact Hn'|].
        destruct (rt_same a n1 n2 n' Ha H1 H2 L) as (_ & Q1 & Q2 & Q3 & _). split; [exact Q1|]. split; [exact Q2|]. split; [exact Q3|].
        destruct (rt_data n1 n2 a Ha H1 H2) as [-> _]. destruct (ld_rest _ _ _ _ _ _ _ L) as (_ & _ & _ & Es & _). rewrite Es.
        assert (Hall : forall x, In x (n_shims n2) -> exists v v', nth_error (s_shims s1) (gs x) = Some v /\ nth_error (s_shims s2') x = Some v' /\ shim_to v' = shim_to v).
        { intros x. exact (Hshim a n1 n2 x Ha H1 H2). }
        revert Hall. generalize (n_shims n2). induction l as [|x l IH]; intros Hall; [reflexivity|]. cbn [flat_map].
        rewrite IH by (intros z Hz; apply Hall; now right). f_equal.
        destruct (Hall x (or_introl eq_refl)) as (v & v' & Hv & Hv' & E). unfold shimY. rewrite Hv, Hv', E. reflexivity. }
      assert (ns1' = ns1) as ->.
      { rewrite <- C1 in D1. clear - D1. revert ns1 D1. induction ns1' as [|n l IH]; intros [|m l'] D1; try discriminate; [reflexivity|].
        injection D1 as -> D1. f_equal. now apply IH. }
      assert (Hg' : graph_of (s_nodes s2') = g2) by exact F3.
      rewrite (to_dict_ok ser shim_to s2' r2 ns2' W'); rewrite Hg'; fold nodes2.
      + unfold msg. f_equal. f_equal; symmetry; apply (forall2_map _ _ _ _ _ D3); intros n1 n' (Q1 & Q2 & Q3 & Q4); now symmetry.
      + rewrite rt_nodes. exact D2.
    - intros a n1 n2 Ha H1 H2. destruct (Hnode a n1 n2 Ha H1 H2) as (n' & Hn' & L). exists n'. split; [exact Hn'|].
      destruct (rt_same a n1 n2 n' Ha H1 H2 L) as (Q & _). split; [exact Q|].
      destruct (ld_rest _ _ _ _ _ _ _ L) as (L1 & L2 & L3 & L4 & L5). repeat (split; [assumption|]).
      intros x. exact (Hshim a n1 n2 x Ha H1 H2).
  Qed.
End RoundTrip.
