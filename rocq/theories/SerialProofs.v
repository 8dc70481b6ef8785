From Coq Require Import String.
From Verif Require Import BaseFacts DictFacts GraphModel GraphSpec GraphProofs NodeModel NodeSpec NodeProofs
  EditSpec EditProofs SerialModel SerialSpec.

Set Default Goal Selector "!".

(** Traversals commute with isomorphisms. *)
Section Iso.
  Variables (g1 g2 : graph) (r1 r2 : addr) (f : addr -> addr).
  Hypothesis Hiso : iso g1 r1 g2 r2 f.

  Lemma first_new_map l : forall seen,
    (forall a, In a seen \/ In a l -> reach g1 r1 a) ->
    first_new (map f seen) (map f l) = map f (first_new seen l).
  Proof.
    induction l as [|a l IH]; intros seen Hr; cbn [first_new map]; [reflexivity|].
    assert (Ha : reach g1 r1 a) by (apply Hr; right; now left).
    destruct (in_dec Nat.eq_dec a seen) as [Hi|Hi].
    - destruct (in_dec Nat.eq_dec (f a) (map f seen)) as [_|Hn].
      + apply IH. intros b [Hb|Hb]; apply Hr; [now left|right; now right].
      + exfalso. apply Hn. now apply in_map.
    - destruct (in_dec Nat.eq_dec (f a) (map f seen)) as [Hn|_].
      + exfalso. apply in_map_iff in Hn. destruct Hn as (b & Hb & Hin). apply Hi.
        rewrite <- (iso_inj _ _ _ _ _ Hiso b a); [exact Hin|apply Hr; now left|exact Ha|exact Hb].
      + cbn [map]. f_equal. apply (IH (a :: seen)). intros b [[<-|Hb]|Hb]; [exact Ha|apply Hr; now left|apply Hr; right; now right].
  Qed.

  Lemma first_new_in l : forall seen a, In a (first_new seen l) -> In a l.
  Proof.
    induction l as [|b l IH]; intros seen a; cbn [first_new]; [tauto|].
    destruct (in_dec Nat.eq_dec b seen); [intros Hi; right; now apply (IH seen)|].
    intros [<-|Hi]; [now left|right; now apply (IH (b :: seen))].
  Qed.

  Lemma levels_map seen cands out : bfs_levels g1 seen cands out ->
    (forall a, In a seen \/ In a cands -> reach g1 r1 a) ->
    bfs_levels g2 (map f seen) (map f cands) (map f out).
  Proof.
    induction 1 as [seen|seen cands rest Hne Hlev IH]; intros Hr; [constructor|].
    rewrite map_app. rewrite <- (first_new_map cands seen) by exact Hr. constructor.
    - intros Hm. apply Hne. destruct cands; [reflexivity|discriminate].
    - rewrite first_new_map by exact Hr.
      assert (Hl : flat_map (layers g2) (map f (first_new seen cands)) = map f (flat_map (layers g1) (first_new seen cands))).
      { assert (Hall : forall a, In a (first_new seen cands) -> reach g1 r1 a).
        { intros a Ha. apply Hr. right. now apply first_new_in in Ha. }
        revert Hall. generalize (first_new seen cands). induction l as [|a l IHl]; intros Hall; [reflexivity|].
        cbn [map flat_map]. rewrite map_app, IHl by (intros b Hb; apply Hall; now right).
        now rewrite (iso_layers _ _ _ _ _ Hiso a) by (apply Hall; now left). }
      rewrite Hl, <- map_app. apply IH. intros a [Ha|Ha].
      + apply in_app_or in Ha. destruct Ha as [Ha|Ha]; [apply first_new_in in Ha; apply Hr; now right|apply Hr; now left].
      + apply in_flat_map in Ha. destruct Ha as (b & Hb & Ha). apply first_new_in in Hb.
        apply reach_step with b; [apply Hr; now right|exact Ha].
  Qed.

  Lemma walk_iso : walk g2 Bfs r2 = map f (walk g1 Bfs r1).
  Proof.
    apply walk_bfs_unique. rewrite <- (iso_root _ _ _ _ _ Hiso). change [f r1] with (map f [r1]).
    change (@nil addr) with (map f []). apply levels_map; [apply walk_bfs_levels|].
    intros a [[]|[<-|[]]]. exists 0. constructor.
  Qed.

  Lemma reach_iso a b : reach g1 r1 a -> reach g1 a b -> reach g2 (f a) (f b).
  Proof.
    intros Ha [k Hk]. induction Hk as [|k a b c Hk IH Hc]; [exists 0; constructor|].
    apply reach_step with (f b); [now apply IH|].
    rewrite (iso_layers _ _ _ _ _ Hiso b); [now apply in_map|].
    apply reach_trans with a; [exact Ha|now exists k].
  Qed.
End Iso.

Section Lists.
  Lemma skipn_nth {X} (l : list X) i x : nth_error l i = Some x -> skipn i l = x :: skipn (i + 1) l.
  Proof.
    revert i. induction l as [|o l IH]; intros [|i] Ez; try discriminate.
    - injection Ez as ->. reflexivity.
    - cbn in Ez |- *. now apply IH.
  Qed.
  Lemma set_nth_id {X} i (x : X) l : nth_error l i = Some x -> set_nth i x l = l.
  Proof.
    revert i. induction l as [|a l IH]; intros [|i] Hx; try discriminate.
    - injection Hx as ->. reflexivity.
    - cbn in *. now rewrite IH.
  Qed.
  Lemma set_nth_twice {X} i (x y : X) l : set_nth i x (set_nth i y l) = set_nth i x l.
  Proof. revert i. induction l as [|a l IH]; intros [|i]; cbn; [reflexivity|reflexivity|reflexivity|]. now rewrite IH. Qed.
  Lemma set_nth_at {X} i (x : X) l : i < length l -> nth_error (set_nth i x l) i = Some x.
  Proof. apply nth_error_set_nth_eq. Qed.

  Lemma dict_ext {W} (d1 d2 : dict string W) :
    NoDup (dkeys d1) -> dkeys d1 = dkeys d2 -> (forall k, dget k d1 = dget k d2) -> d1 = d2.
  Proof.
    revert d2. induction d1 as [|[k v] d1 IH]; intros [|[k2 v2] d2] Hnd Hk Hg; try discriminate; [reflexivity|].
    cbn [dkeys map fst] in Hk, Hnd. injection Hk as -> Hk. inversion Hnd as [|? ? Hn Hnd']; subst.
    pose proof (Hg k2) as Hh. cbn [dget] in Hh. rewrite !eqd_refl in Hh. injection Hh as ->. f_equal.
    apply IH; [exact Hnd'|exact Hk|]. intros k. specialize (Hg k). cbn [dget] in Hg.
    destruct (eqd k k2) as [->|Hne]; [|exact Hg].
    assert (dget k2 d1 = None) as -> by now apply dget_none.
    assert (dget k2 d2 = None) as -> by (apply dget_none; unfold dkeys; now rewrite <- Hk). reflexivity.
  Qed.
End Lists.

Section SerialProofs.
  Context {V A Y S : Type} `{EqD Y}.
  Notation node := (node V A).
  Notation heap := (heap V A).
  Notation sstate := (sstate V A S).
  Notation message := (message V Y).
  Variable ser : A -> option Y.
  Variable deser : option A -> Y -> A.
  Variable shim_to : S -> Y.
  Variable shim_from : S -> Y -> S.
  Implicit Types (h : heap).

  Lemma upd_set h a (n : node) f : a < length h -> upd (set_nth a n h) a f = set_nth a (f n) h.
  Proof. intros Ha. unfold upd. rewrite set_nth_at by exact Ha. apply set_nth_twice. Qed.

  Lemma graph_set h a (n0 n : node) : nth_error h a = Some n0 -> n_layers n = n_layers n0 ->
    graph_of (set_nth a n h) = graph_of h.
  Proof.
    intros Hn Hl. unfold graph_of. apply nth_error_ext. intros i. rewrite !nth_error_map.
    destruct (Nat.eq_dec i a) as [->|Hne].
    - rewrite (set_nth_same _ _ _ _ Hn), Hn. cbn. now rewrite Hl.
    - rewrite set_nth_other by congruence. reflexivity.
  Qed.

  Lemma load_dims_ok dims : forall h a (n : node), a < length h -> NoDup (dkeys dims) ->
    (forall d v, dget d dims = Some (Some v) -> dget d (n_dims n) = Some None \/ dget d (n_dims n) = Some (Some v)) ->
    exists dd, load_dims (set_nth a n h) a dims = (set_nth a (with_dims n dd) h, Ok tt) /\
      dkeys dd = dkeys (n_dims n) /\
      forall d, dget d dd = match dget d dims with Some (Some v) => Some (Some v) | _ => dget d (n_dims n) end.
  Proof.
    induction dims as [|[d [v|]] dims IH]; intros h a n Ha Hnd Hok; cbn [load_dims].
    - exists (n_dims n). split; [destruct n; reflexivity|]. split; [reflexivity|]. intros d. reflexivity.
    - cbn [dkeys map fst] in Hnd. inversion Hnd as [|? ? Hd Hnd']; subst.
      assert (Hget : dget d ((d, Some v) :: dims) = Some (Some v)) by (cbn [dget]; apply eqd_refl).
      pose proof (Hok d v Hget) as Hcase.
      assert (Es : set_dim n d v false = (with_dims n (dset d (Some v) (n_dims n)), Ok tt)).
      { unfold set_dim. destruct Hcase as [-> | ->]; cbn; [reflexivity|]. now rewrite Z.eqb_refl. }
      unfold on_node. rewrite set_nth_at by exact Ha. rewrite Es. cbn [andthen]. rewrite set_nth_twice.
      destruct (IH h a (with_dims n (dset d (Some v) (n_dims n))) Ha Hnd') as (dd & I1 & I2 & I3).
      { intros d' v' Hg'. cbn [n_dims with_dims]. rewrite dget_dset_other.
        - apply Hok. cbn [dget]. destruct (eqd d' d) as [->|_]; [|exact Hg'].
          exfalso. apply Hd. now apply dget_some_key in Hg'.
        - intros ->. apply Hd. now apply dget_some_key in Hg'. }
      exists dd. split; [exact I1|]. split.
      + rewrite I2. cbn. apply dkeys_dset_mem. apply dget_key. destruct Hcase as [-> | ->]; eauto.
      + intros d'. rewrite I3. cbn [dget n_dims with_dims]. destruct (eqd d' d) as [->|Hne].
        * assert (dget d dims = None) as -> by now apply dget_none. apply dget_dset_same.
        * destruct (dget d' dims) as [[|]|]; try reflexivity; now apply dget_dset_other.
    - cbn [dkeys map fst] in Hnd. inversion Hnd as [|? ? Hd Hnd']; subst.
      destruct (IH h a n Ha Hnd') as (dd & I1 & I2 & I3).
      { intros d' v' Hg'. apply Hok. cbn [dget]. destruct (eqd d' d) as [->|_]; [|exact Hg'].
        exfalso. apply Hd. now apply dget_some_key in Hg'. }
      exists dd. split; [exact I1|]. split; [exact I2|]. intros d'. rewrite I3. cbn [dget].
      destruct (eqd d' d) as [->|Hne]; [|reflexivity].
      assert (dget d dims = None) as -> by now apply dget_none. reflexivity.
  Qed.

  Lemma set_ref_at h a (n0 n : node) nm v :
    nth_error h a = Some n0 -> n_layers n = n_layers n0 ->
    (forall b, v = Some b -> reach (graph_of h) a b) ->
    set_ref (set_nth a n h) a nm v = (set_nth a (with_refs n (dset nm v (n_refs n))) h, Ok tt).
  Proof.
    intros Hn Hl Hr. assert (Ha : a < length h) by (apply nth_error_Some; congruence).
    unfold set_ref. destruct v as [b|].
    - rewrite (graph_set _ _ _ _ Hn Hl).
      assert (Hm : memb b (walk (graph_of h) Bfs a) = true) by (apply memb_true, walk_exact; now apply Hr).
      rewrite Hm. now rewrite upd_set.
    - now rewrite upd_set.
  Qed.

  Lemma load_refs_ok nodes refs : forall h a (n0 n : node),
    nth_error h a = Some n0 -> n_layers n = n_layers n0 -> NoDup (dkeys refs) ->
    (forall nm j, dget nm refs = Some (Some j) -> exists b, nth_error nodes j = Some b /\ reach (graph_of h) a b) ->
    exists dd, load_refs (set_nth a n h) a nodes refs = (set_nth a (with_refs n dd) h, Ok tt) /\
      (incl (dkeys refs) (dkeys (n_refs n)) -> dkeys dd = dkeys (n_refs n)) /\
      forall nm, dget nm dd = match dget nm refs with
                              | None => dget nm (n_refs n)
                              | Some None => Some None
                              | Some (Some i) => Some (nth_error nodes i) end.
  Proof.
    induction refs as [|[nm o] refs IH]; intros h a n0 n Hn Hl Hnd Hok.
    - exists (n_refs n). split; [destruct n; reflexivity|]. split; [reflexivity|]. intros nm. reflexivity.
    - cbn [dkeys map fst] in Hnd. inversion Hnd as [|? ? Hd Hnd']; subst.
      assert (Hv : exists v, load_refs (set_nth a n h) a nodes ((nm, o) :: refs) =
                  load_refs (set_nth a (with_refs n (dset nm v (n_refs n))) h) a nodes refs /\
                  v = match o with Some i => nth_error nodes i | None => None end).
      { destruct o as [j|]; cbn [load_refs].
        - destruct (Hok nm j) as (b & Hb & Hr); [cbn [dget]; apply eqd_refl|]. rewrite Hb.
          rewrite (set_ref_at h a n0 n nm (Some b) Hn Hl) by (intros b' Hb'; injection Hb' as <-; exact Hr).
          cbn [andthen]. exists (Some b). split; reflexivity.
        - rewrite (set_ref_at h a n0 n nm None Hn Hl) by discriminate. cbn [andthen]. exists None. split; reflexivity. }
      destruct Hv as (v & -> & Ev).
      destruct (IH h a n0 (with_refs n (dset nm v (n_refs n))) Hn Hl Hnd') as (dd & I1 & I2 & I3).
      { intros nm' j Hg. apply (Hok nm'). cbn [dget]. destruct (eqd nm' nm) as [->|_]; [|exact Hg].
        exfalso. apply Hd. now apply dget_some_key in Hg. }
      exists dd. split; [rewrite I1; reflexivity|]. split.
      + intros Hincl. cbn [n_refs with_refs] in I2. assert (Hin : In nm (dkeys (n_refs n))) by (apply Hincl; now left).
        rewrite dkeys_dset_mem in I2 by exact Hin. apply I2. intros x Hx. apply Hincl. now right.
      + intros nm'. rewrite I3. cbn [dget n_refs with_refs]. destruct (eqd nm' nm) as [->|Hne].
        * assert (dget nm refs = None) as -> by now apply dget_none. rewrite dget_dset_same, Ev. now destruct o.
        * now rewrite dget_dset_other.
  Qed.

  Lemma load_attrs_ok attrs : forall (n : node), NoDup (dkeys attrs) ->
    exists dd, load_attrs deser n attrs = with_attrs n dd /\
      (incl (dkeys attrs) (dkeys (n_attrs n)) -> dkeys dd = dkeys (n_attrs n)) /\
      forall k, dget k dd = match dget k attrs with None => dget k (n_attrs n) | Some y => Some (deser (dget k (n_attrs n)) y) end.
  Proof.
    induction attrs as [|[k y] attrs IH]; intros n Hnd.
    - exists (n_attrs n). split; [destruct n; reflexivity|]. split; [reflexivity|]. intros k. reflexivity.
    - cbn [dkeys map fst] in Hnd. inversion Hnd as [|? ? Hd Hnd']; subst.
      change (load_attrs deser n ((k, y) :: attrs)) with (load_attrs deser (with_attrs n (dset k (deser (dget k (n_attrs n)) y) (n_attrs n))) attrs).
      destruct (IH (with_attrs n (dset k (deser (dget k (n_attrs n)) y) (n_attrs n))) Hnd') as (dd & I1 & I2 & I3).
      exists dd. split; [exact I1|]. split.
      + intros Hincl. cbn [n_attrs with_attrs] in I2. assert (Hin : In k (dkeys (n_attrs n))) by (apply Hincl; now left).
        rewrite dkeys_dset_mem in I2 by exact Hin. apply I2. intros x Hx. apply Hincl. now right.
      + intros k'. rewrite I3. cbn [dget n_attrs with_attrs]. destruct (eqd k' k) as [->|Hne].
        * assert (dget k attrs = None) as -> by now apply dget_none. apply dget_dset_same.
        * rewrite dget_dset_other by exact Hne. reflexivity.
  Qed.

  Lemma load_params_ok params : forall (n : node), NoDup (dkeys params) ->
    exists hh pp, load_params n params = with_params n hh pp /\
      (incl (dkeys params) (dkeys (n_has n)) -> dkeys hh = dkeys (n_has n)) /\
      (forall nm, dget nm pp = match dget nm params with Some (Some v) => Some v | _ => dget nm (n_params n) end) /\
      (forall nm, dget nm hh = match dget nm params with Some (Some _) => Some true | Some None => Some false | None => dget nm (n_has n) end).
  Proof.
    induction params as [|[k o] params IH]; intros n Hnd.
    - exists (n_has n), (n_params n). split; [destruct n; reflexivity|]. split; [reflexivity|]. split; intros nm; reflexivity.
    - cbn [dkeys map fst] in Hnd. inversion Hnd as [|? ? Hd Hnd']; subst.
      change (load_params n ((k, o) :: params)) with (load_params (set_param n k o) params).
      destruct (IH (set_param n k o) Hnd') as (hh & pp & I1 & I2 & I3 & I4).
      exists hh, pp. split; [rewrite I1; destruct o; reflexivity|].
      assert (Hnone : dget k params = None) by now apply dget_none. split; [|split].
      + intros Hincl. assert (Hin : In k (dkeys (n_has n))) by (apply Hincl; now left).
        assert (E : dkeys (n_has (set_param n k o)) = dkeys (n_has n)) by (destruct o; cbn; now apply dkeys_dset_mem).
        rewrite E in I2. apply I2. intros x Hx. apply Hincl. now right.
      + intros k'. rewrite I3. cbn [dget]. destruct (eqd k' k) as [->|Hne].
        * rewrite Hnone. destruct o; cbn; [apply dget_dset_same|reflexivity].
        * destruct (dget k' params) as [[|]|]; try reflexivity; (destruct o; cbn; [now apply dget_dset_other|reflexivity]).
      + intros k'. rewrite I4. cbn [dget]. destruct (eqd k' k) as [->|Hne].
        * rewrite Hnone. destruct o; cbn; apply dget_dset_same.
        * destruct (dget k' params) as [[|]|]; try reflexivity; (destruct o; cbn; now apply dget_dset_other).
  Qed.

  Lemma load_shims_ok own : forall data i (shims : list S),
    length data + i <= length own -> (forall x, In x own -> x < length shims) ->
    exists shims', load_shims shim_from shims own i data = (shims', Ok tt) /\ length shims' = length shims /\
      forall x, nth_error shims' x = option_map (fun v => fold_left shim_from (shim_writes (skipn i own) data x) v) (nth_error shims x).
  Proof.
    induction data as [|y data IH]; intros i shims Hlen Hown; cbn [load_shims].
    - exists shims. split; [reflexivity|]. split; [reflexivity|]. intros x. unfold shim_writes.
      rewrite combine_nil. cbn. now destruct (nth_error shims x).
    - cbn [length] in Hlen. destruct (nth_error own i) as [z|] eqn:Ez; [|apply nth_error_None in Ez; lia].
      assert (Hz : z < length shims) by (apply Hown; now apply nth_error_In in Ez).
      destruct (nth_error shims z) as [v|] eqn:Ev; [|apply nth_error_None in Ev; lia].
      destruct (IH (i + 1) (set_nth z (shim_from v y) shims)) as (s' & I1 & I2 & I3).
      { lia. }
      { intros x Hx. rewrite set_nth_length. now apply Hown. }
      exists s'. split; [exact I1|]. split; [rewrite I2; apply set_nth_length|].
      intros x. rewrite I3.
      assert (Hsk : skipn i own = z :: skipn (i + 1) own).
      { now apply skipn_nth. }
      rewrite Hsk. unfold shim_writes at 2. cbn [combine filter fst]. destruct (Nat.eqb_spec z x) as [->|Hne].
      + cbn [map snd fold_left]. rewrite set_nth_at by exact Hz. rewrite Ev. reflexivity.
      + rewrite set_nth_other by exact Hne. reflexivity.
  Qed.

  Lemma load_node_ok (s : sstate) nodes msg i a n inf attrs params data :
    nth_error (s_nodes s) a = Some n -> loadable s nodes msg i a n inf attrs params data ->
    exists n' shims', load_node deser shim_from s nodes msg i a = (mkS (set_nth a n' (s_nodes s)) shims', Ok tt) /\
      loaded deser nodes inf attrs params n n' /\ length shims' = length (s_shims s) /\
      forall x, nth_error shims' x = option_map (fun v => fold_left shim_from (shim_writes (n_shims n) data x) v) (nth_error (s_shims s) x).
  Proof.
    intros Hn [L1 L2 L3 L4 (K1 & K2 & K3 & K4) L6 L7 L8 L9].
    assert (Ha : a < length (s_nodes s)) by (apply nth_error_Some; congruence).
    unfold load_node. rewrite L1.
    assert (E0 : upd (s_nodes s) a (fun n => with_name n (i_name inf)) = set_nth a (with_name n (i_name inf)) (s_nodes s)).
    { unfold upd. now rewrite Hn. }
    rewrite E0.
    destruct (load_dims_ok (i_dims inf) (s_nodes s) a (with_name n (i_name inf)) Ha K1 L6) as (dd & D1 & D2 & D3).
    rewrite D1. cbn [andthen].
    destruct (load_refs_ok nodes (i_refs inf) (s_nodes s) a n (with_dims (with_name n (i_name inf)) dd) Hn eq_refl K2 L7)
      as (rr & R1 & R2 & R3).
    rewrite R1, L2.
    rewrite (upd_set (s_nodes s)) by exact Ha. rewrite L3. rewrite (upd_set (s_nodes s)) by exact Ha. rewrite L4.
    rewrite set_nth_at by exact Ha.
    destruct (load_attrs_ok attrs (with_refs (with_dims (with_name n (i_name inf)) dd) rr) K3) as (aa & A1 & A2 & A3).
    rewrite A1.
    destruct (load_params_ok params (with_attrs (with_refs (with_dims (with_name n (i_name inf)) dd) rr) aa) K4) as (hh & pp & P1 & P2 & P3 & P4).
    rewrite P1. cbn [n_shims with_params with_attrs with_refs with_dims with_name].
    destruct (load_shims_ok (n_shims n) data 0 (s_shims s)) as (shims' & S1 & S2 & S3); [lia|exact L9|].
    rewrite S1. eexists. exists shims'. split; [reflexivity|]. split; [|split; [exact S2|exact S3]].
    split; cbn; try assumption; try reflexivity. repeat split; reflexivity.
  Qed.

  Definition lenv (msg : message) k := nth_error (m_nodes msg) k <> None.

  (** The whole loop; [todo] starts at position [i] of [nodes]. *)
  Lemma load_nodes_ok nodes msg todo : forall i (s : sstate),
    NoDup todo ->
    (forall k a, nth_error todo k = Some a -> exists n inf attrs params data,
       nth_error (s_nodes s) a = Some n /\ loadable s nodes msg (i + k) a n inf attrs params data) ->
    exists s', load_nodes deser shim_from s nodes msg i todo = (s', Ok tt) /\
      length (s_nodes s') = length (s_nodes s) /\ graph_of (s_nodes s') = graph_of (s_nodes s) /\
      length (s_shims s') = length (s_shims s) /\
      (forall a, ~ In a todo -> nth_error (s_nodes s') a = nth_error (s_nodes s) a) /\
      (forall k a n inf attrs params data, nth_error todo k = Some a -> nth_error (s_nodes s) a = Some n ->
         loadable s nodes msg (i + k) a n inf attrs params data ->
         exists n', nth_error (s_nodes s') a = Some n' /\ loaded deser nodes inf attrs params n n') /\
      (forall x, nth_error (s_shims s') x =
         option_map (fun v => fold_left shim_from
           (flat_map (fun p => match nth_error (s_nodes s) (fst p) with
                       | Some n => shim_writes (n_shims n) (snd p) x
                       | None => []
                       end) (combine todo (skipn i (m_shims msg)))) v) (nth_error (s_shims s) x)).
  Proof.
    induction todo as [|a todo IH]; intros i s Hnd Hall; cbn [load_nodes].
    - exists s. split; [reflexivity|]. split; [reflexivity|]. split; [reflexivity|]. split; [reflexivity|].
      split; [reflexivity|]. split; [intros [|k]; discriminate|]. intros x. cbn. now destruct (nth_error (s_shims s) x).
    - inversion Hnd as [|? ? Hna Hnd']; subst.
      destruct (Hall 0 a eq_refl) as (n & inf & attrs & params & data & Hn & Hl). rewrite Nat.add_0_r in Hl.
      destruct (load_node_ok s nodes msg i a n inf attrs params data Hn Hl) as (n' & shims' & E1 & Ld & Ls & Sh).
      rewrite E1. cbn [andthen].
      set (s1 := mkS (set_nth a n' (s_nodes s)) shims').
      assert (Hg1 : graph_of (s_nodes s1) = graph_of (s_nodes s)).
      { apply (graph_set _ _ _ _ Hn). destruct (ld_rest _ _ _ _ _ _ _ Ld) as (_ & _ & Hlay & _). exact Hlay. }
      assert (Hkeep : forall k b m inf' attrs' params' data', loadable s nodes msg k b m inf' attrs' params' data' ->
                loadable s1 nodes msg k b m inf' attrs' params' data').
      { intros k b m inf' attrs' params' data' [M1 M2 M3 M4 M5 M6 M7 M8 M9]. split; try assumption.
        - rewrite Hg1. exact M7.
        - cbn. rewrite Ls. exact M9. }
      assert (Hback : forall b, In b todo -> nth_error (s_nodes s1) b = nth_error (s_nodes s) b).
      { intros b Hb. cbn. apply set_nth_other. intros <-. contradiction. }
      destruct (IH (i + 1) s1 Hnd') as (s' & I1 & I2 & I3 & I4 & I5 & I6 & I7).
      { intros k b Hk. destruct (Hall (Datatypes.S k) b Hk) as (m & inf' & attrs' & params' & data' & Hm & Hlm).
        exists m, inf', attrs', params', data'. split.
        - rewrite Hback; [exact Hm|]. now apply nth_error_In in Hk.
        - apply Hkeep. replace (i + 1 + k) with (i + Datatypes.S k) by lia. exact Hlm. }
      exists s'. split; [exact I1|]. split; [rewrite I2; apply set_nth_length|]. split; [congruence|].
      split; [rewrite I4; exact Ls|]. split; [|split].
      + intros b Hb. rewrite I5 by (intros Hi; apply Hb; now right). cbn. apply set_nth_other.
        intros <-. apply Hb. now left.
      + intros [|k] b m inf' attrs' params' data' Hk Hm Hlm.
        * injection Hk as <-. rewrite Hn in Hm. injection Hm as <-. rewrite Nat.add_0_r in Hlm.
          assert (inf' = inf /\ attrs' = attrs /\ params' = params) as (-> & -> & ->).
          { destruct Hl as [A1 A2 A3 _ _ _ _ _ _]. destruct Hlm as [B1 B2 B3 _ _ _ _ _ _]. repeat split; congruence. }
          exists n'. split; [|exact Ld]. rewrite I5 by exact Hna. cbn. apply (set_nth_same _ _ _ _ Hn).
        * cbn in Hk. apply (I6 k b m inf' attrs' params' data' Hk).
          -- rewrite Hback; [exact Hm|]. now apply nth_error_In in Hk.
          -- apply Hkeep. replace (i + 1 + k) with (i + Datatypes.S k) by lia. exact Hlm.
      + intros x. rewrite I7. cbn [s_shims s1]. rewrite Sh. destruct (nth_error (s_shims s) x) as [v|]; [|reflexivity].
        cbn [option_map]. f_equal.
        assert (Hsk : skipn i (m_shims msg) = data :: skipn (i + 1) (m_shims msg)).
        { apply skipn_nth. exact (lb_shims _ _ _ _ _ _ _ _ _ _ Hl). }
        rewrite Hsk. cbn [combine flat_map fst snd]. rewrite Hn, fold_left_app. f_equal.
        assert (Hc : forall p, In p (combine todo (skipn (i + 1) (m_shims msg))) -> In (fst p) todo).
        { intros [b d] Hp. apply in_combine_l in Hp. exact Hp. }
        revert Hc. generalize (combine todo (skipn (i + 1) (m_shims msg))) as l. clear - Hback.
        induction l as [|p l IHl]; intros Hc; cbn [flat_map]; [reflexivity|].
        rewrite IHl by (intros q Hq; apply Hc; now right).
        rewrite (Hback (fst p)) by (apply Hc; now left). reflexivity.
  Qed.

  Lemma from_dict_ok (s : sstate) root msg :
    let nodes := walk (graph_of (s_nodes s)) Bfs root in
    length (m_nodes msg) = length nodes ->
    (forall i a, nth_error nodes i = Some a -> exists n inf attrs params data,
       nth_error (s_nodes s) a = Some n /\ loadable s nodes msg i a n inf attrs params data) ->
    exists s', from_dict deser shim_from s root msg = (s', Ok tt) /\
      length (s_nodes s') = length (s_nodes s) /\ graph_of (s_nodes s') = graph_of (s_nodes s) /\
      length (s_shims s') = length (s_shims s) /\
      (forall a, ~ reach (graph_of (s_nodes s)) root a -> nth_error (s_nodes s') a = nth_error (s_nodes s) a) /\
      (forall i a n inf attrs params data, nth_error nodes i = Some a -> nth_error (s_nodes s) a = Some n ->
         loadable s nodes msg i a n inf attrs params data ->
         exists n', nth_error (s_nodes s') a = Some n' /\ loaded deser nodes inf attrs params n n') /\
      (forall x, nth_error (s_shims s') x =
         option_map (fun v => fold_left shim_from (msg_writes s nodes msg x) v) (nth_error (s_shims s) x)).
  Proof.
    cbn zeta. intros Hlen Hall. destruct (walk_exact (graph_of (s_nodes s)) Bfs root) as [Hnd Hiff].
    destruct (load_nodes_ok (walk (graph_of (s_nodes s)) Bfs root) msg (walk (graph_of (s_nodes s)) Bfs root) 0 s Hnd Hall)
      as (s' & I1 & I2 & I3 & I4 & I5 & I6 & I7).
    exists s'. unfold from_dict. rewrite Hlen, Nat.eqb_refl. split; [exact I1|]. split; [exact I2|]. split; [exact I3|].
    split; [exact I4|]. split; [|split; [exact I6|exact I7]].
    intros a Ha. apply I5. intros Hi. apply Ha, Hiff, Hi.
  Qed.

  (** ** [to_dict] *)
  Lemma node_index_get h nodes :
    NoDup nodes -> (forall a, In a nodes -> a < length h) ->
    (forall a b na nb, nth_error h a = Some na -> nth_error h b = Some nb -> n_id na = n_id nb -> a = b) ->
    forall i a n, nth_error nodes i = Some a -> nth_error h a = Some n -> dget (n_id n) (node_index h nodes) = Some i.
  Proof.
    intros Hnd Hlt Hids. unfold node_index.
    assert (G : forall todo k d, NoDup todo -> (forall a, In a todo -> a < length h) ->
      (forall i a n, nth_error todo i = Some a -> nth_error h a = Some n ->
        dget (n_id n) (fold_left (fun d p => match nth_error h (snd p) with
                          | Some n => dset (n_id n) (fst p) d
                          | None => d
                          end) (combine (seq k (length todo)) todo) d) = Some (k + i)) /\
      (forall n a, nth_error h a = Some n -> ~ In a todo ->
        dget (n_id n) (fold_left (fun d p => match nth_error h (snd p) with
                          | Some n => dset (n_id n) (fst p) d
                          | None => d
                          end) (combine (seq k (length todo)) todo) d) = dget (n_id n) d)).
    { induction todo as [|b todo IH]; intros k d Hndt Hltt.
      - split; [intros [|i]; discriminate|reflexivity].
      - inversion Hndt as [|? ? Hb Hndt']; subst. cbn [length seq combine fold_left fst snd].
        destruct (nth_error h b) as [nb|] eqn:Eb; [|apply nth_error_None in Eb; specialize (Hltt b (or_introl eq_refl)); lia].
        destruct (IH (Datatypes.S k) (dset (n_id nb) k d) Hndt') as [J1 J2].
        { intros a Ha. apply Hltt. now right. }
        split.
        + intros [|i] a n Hi Hn.
          * injection Hi as <-. rewrite Eb in Hn. injection Hn as <-. rewrite (J2 nb b Eb Hb), dget_dset_same. f_equal. lia.
          * cbn in Hi. rewrite (J1 i a n Hi Hn). f_equal. lia.
        + intros n a Hn Hna. rewrite (J2 n a Hn) by (intros Hi; apply Hna; now right). apply dget_dset_other.
          intros Heq. apply Hna. left. exact (Hids _ _ _ _ Eb Hn (eq_sym Heq)). }
    intros i a n Hi Hn. exact (proj1 (G nodes 0 [] Hnd Hlt) i a n Hi Hn).
  Qed.

  Definition pval (n : node) nm : option V :=
    match has_param n nm with Some true => match get_param n nm with Ok v => Some v | Err _ => None end | _ => None end.

  Lemma ser_params_ok (n : node) :
    (forall nm, dget nm (n_has n) = Some true -> exists v, dget nm (n_params n) = Some v) ->
    ser_params n = Ok (map (fun nm => (nm, pval n nm)) (param_names n)).
  Proof.
    intros Hal. unfold ser_params. apply mapM_ok_map. intros nm _. unfold pval, has_param, get_param.
    destruct (dget nm (n_has n)) as [[|]|] eqn:E; try reflexivity. destruct (Hal nm E) as [v ->]. reflexivity.
  Qed.

  Lemma ser_dims (n : node) : NoDup (dkeys (n_dims n)) ->
    map (fun d => (d, match has_dim n d with
                      | Some true => match get_dim n d with Ok v => Some v | Err _ => None end
                      | _ => None end)) (dkeys (n_dims n)) = n_dims n.
  Proof.
    intros Hnd. unfold has_dim, get_dim.
    apply dict_ext.
    - unfold dkeys at 1. rewrite map_map. cbn [fst]. now rewrite map_id.
    - unfold dkeys at 1. rewrite map_map. cbn [fst]. now rewrite map_id.
    - intros k. assert (G : forall l, dget k (map (fun d => (d, match
          match dget d (n_dims n) with Some (Some _) => Some true | Some None => None | None => Some false end with
          | Some true => match match dget d (n_dims n) with Some (Some v) => Ok v | Some None => Err ValueError | None => Err KeyError end with Ok v => Some v | Err _ => None end
          | _ => None end)) l) = if in_dec string_dec k l then (match dget k (n_dims n) with Some (Some v) => Some (Some v) | _ => Some None end) else None).
      { induction l as [|d l IH]; [reflexivity|]. cbn [map dget]. destruct (eqd k d) as [->|Hne].
        - destruct (in_dec string_dec d (d :: l)) as [_|Hi]; [|exfalso; apply Hi; now left].
          destruct (dget d (n_dims n)) as [[|]|]; reflexivity.
        - rewrite IH. destruct (in_dec string_dec k l) as [Hi|Hi]; destruct (in_dec string_dec k (d :: l)) as [Hi'|Hi']; try reflexivity.
          + exfalso. apply Hi'. now right.
          + exfalso. destruct Hi' as [He|Hi']; [congruence|contradiction]. }
      rewrite G. destruct (in_dec string_dec k (dkeys (n_dims n))) as [Hi|Hi].
      + apply dget_key in Hi. destruct Hi as [[v|] Hv]; rewrite Hv; reflexivity.
      + symmetry. now apply dget_none.
  Qed.

  (** The entry [to_dict] writes for a reference. *)
  Definition pos (nodes : list addr) (b : addr) : option nat :=
    match find (fun p => Nat.eqb (snd p) b) (combine (seq 0 (length nodes)) nodes) with Some p => Some (fst p) | None => None end.

  Lemma in_nodes_pos nodes b : NoDup nodes -> forall i, nth_error nodes i = Some b -> pos nodes b = Some i.
  Proof.
    intros Hnd i Hi. unfold pos.
    assert (G : forall l k j, NoDup l -> nth_error l j = Some b ->
       match find (fun p => Nat.eqb (snd p) b) (combine (seq k (length l)) l) with Some p => Some (fst p) | None => None end = Some (k + j)).
    { induction l as [|x l IH]; intros k j Hl Hj; [destruct j; discriminate|]. cbn [length seq combine find snd].
      inversion Hl as [|? ? Hx Hl']; subst. destruct (Nat.eqb_spec x b) as [He|Hne]; [subst x|].
      - destruct j as [|j]; [cbn; f_equal; lia|]. exfalso. apply Hx. exact (nth_error_In l j Hj).
      - destruct j as [|j]; [injection Hj; congruence|]. cbn in Hj. rewrite (IH (Datatypes.S k) j Hl' Hj). f_equal. lia. }
    rewrite (G nodes 0 i Hnd Hi). reflexivity.
  Qed.

  Definition info_of (nodes : list addr) (n : node) : info :=
    mkInfo (n_name n) (n_dims n)
      (map (fun p => (fst p, match snd p with Some b => pos nodes b | None => None end)) (n_refs n)).

  Lemma ser_info_ok (s : sstate) root a n : wf_model s root ->
    reach (graph_of (s_nodes s)) root a -> nth_error (s_nodes s) a = Some n ->
    let nodes := walk (graph_of (s_nodes s)) Bfs root in
    ser_info (s_nodes s) (node_index (s_nodes s) nodes) n = Ok (info_of nodes n) /\
    forall nm b, dget nm (n_refs n) = Some (Some b) -> exists i, pos nodes b = Some i /\ nth_error nodes i = Some b.
  Proof.
    intros W Ha Hn. cbn zeta. set (nodes := walk (graph_of (s_nodes s)) Bfs root).
    destruct (walk_exact (graph_of (s_nodes s)) Bfs root) as [Hnd Hiff]. fold nodes in Hnd, Hiff.
    destruct (ws_keys _ _ W a n Hn) as (K1 & K2 & _ & _).
    assert (Hlt : forall x, In x nodes -> x < length (s_nodes s)).
    { intros x Hx. apply Hiff in Hx. apply (reach_in_heap (s_nodes s) root x); [|apply W|exact Hx].
      intros y m l. apply (ws_closed _ _ W). }
    assert (Href : forall nm b, dget nm (n_refs n) = Some (Some b) ->
              exists i, nth_error nodes i = Some b /\ pos nodes b = Some i /\ ser_ref (s_nodes s) (node_index (s_nodes s) nodes) n nm = Some (Some i)).
    { intros nm b Hb. pose proof (ws_refs _ _ W a n nm b Hn Hb) as Hr.
      assert (Hin : In b nodes) by (apply Hiff; exact (reach_trans _ _ _ _ Ha Hr)).
      pose proof (Hlt b Hin) as Hbl. apply In_nth_error in Hin. destruct Hin as [i Hi]. exists i.
      split; [exact Hi|]. split; [exact (in_nodes_pos nodes b Hnd i Hi)|].
      unfold ser_ref, get_ref. rewrite Hb.
      destruct (nth_error (s_nodes s) b) as [nb|] eqn:Eb; [|apply nth_error_None in Eb; lia].
      rewrite (node_index_get (s_nodes s) nodes Hnd Hlt (ws_ids _ _ W) i b nb Hi Eb). reflexivity. }
    split.
    - unfold ser_info. rewrite ser_dims by exact K1.
      assert (Hex : existsb (fun p : string * option (option nat) => match snd p with None => true | Some _ => false end)
                 (map (fun nm => (nm, ser_ref (s_nodes s) (node_index (s_nodes s) nodes) n nm)) (dkeys (n_refs n))) = false).
      { apply not_true_is_false. intros He. apply existsb_exists in He. destruct He as (p & Hp & Hnone).
        apply in_map_iff in Hp. destruct Hp as (nm & <- & Hnm). cbn [snd] in Hnone.
        apply dget_key in Hnm. destruct Hnm as [[b|] Hb].
        - destruct (Href nm b Hb) as (i & _ & _ & E). rewrite E in Hnone. discriminate.
        - unfold ser_ref, get_ref in Hnone. rewrite Hb in Hnone. discriminate. }
      rewrite Hex. unfold info_of. do 2 f_equal. rewrite map_map. cbn [fst snd]. unfold dkeys. rewrite map_map.
      apply map_ext_in. intros [nm o] Hin. cbn [fst snd]. f_equal.
      pose proof (dget_nodup_in nm o _ K2 Hin) as Hg. destruct o as [b|].
      + destruct (Href nm b Hg) as (i & _ & -> & ->). reflexivity.
      + unfold ser_ref, get_ref. rewrite Hg. reflexivity.
    - intros nm b Hb. destruct (Href nm b Hb) as (i & H1 & H2 & _). now exists i.
  Qed.

  Lemma to_dict_ok (s : sstate) root ns : wf_model s root ->
    let nodes := walk (graph_of (s_nodes s)) Bfs root in
    map Some ns = map (nth_error (s_nodes s)) nodes ->
    to_dict ser shim_to s root =
      Ok (mkMsg (map (info_of nodes) ns) (map (ser_attrs ser) ns)
           (map (fun n => map (fun nm => (nm, pval n nm)) (param_names n)) ns)
           (map (fun n => flat_map (fun x => match nth_error (s_shims s) x with Some v => [shim_to v] | None => [] end) (n_shims n)) ns)).
  Proof.
    intros W. cbn zeta. set (nodes := walk (graph_of (s_nodes s)) Bfs root). intros Hns.
    destruct (walk_exact (graph_of (s_nodes s)) Bfs root) as [Hnd Hiff]. fold nodes in Hnd, Hiff.
    unfold to_dict. fold nodes.
    assert (E1 : mapM (fun a => match nth_error (s_nodes s) a with Some n => Ok n | None => Err KeyError end) nodes = Ok ns).
    { revert Hns. clear. revert ns. induction nodes as [|a l IH]; intros [|n ns] Hns; try discriminate; [reflexivity|].
      cbn [map] in Hns. injection Hns as H1 H2. cbn [mapM]. rewrite <- H1. cbn [bind]. now rewrite (IH _ H2). }
    rewrite E1. cbn [bind].
    assert (Hin : forall n, In n ns -> exists a, reach (graph_of (s_nodes s)) root a /\ nth_error (s_nodes s) a = Some n).
    { intros n Hn. apply (in_map Some) in Hn. rewrite Hns in Hn. apply in_map_iff in Hn.
      destruct Hn as (a & Ha & Hi). exists a. split; [now apply Hiff|exact Ha]. }
    rewrite (mapM_ok_map _ (info_of nodes)).
    2:{ intros n Hn. destruct (Hin n Hn) as (a & Ha & Hna). apply (ser_info_ok s root a n W Ha Hna). }
    cbn [bind].
    rewrite (mapM_ok_map _ (fun n => flat_map (fun x => match nth_error (s_shims s) x with Some v => [shim_to v] | None => [] end) (n_shims n))).
    2:{ intros n Hn. destruct (Hin n Hn) as (a & Ha & Hna). unfold ser_shims.
        assert (Hlt : forall x, In x (n_shims n) -> x < length (s_shims s)) by (intros x; exact (ws_shims _ _ W a n x Hna)).
        revert Hlt. generalize (n_shims n). induction l as [|x l IH]; intros Hlt; [reflexivity|]. cbn [mapM flat_map].
        destruct (nth_error (s_shims s) x) as [v|] eqn:Ev; [|apply nth_error_None in Ev; specialize (Hlt x (or_introl eq_refl)); lia].
        cbn [bind]. rewrite IH by (intros y Hy; apply Hlt; now right). reflexivity. }
    cbn [bind].
    rewrite (mapM_ok_map _ (fun n => map (fun nm => (nm, pval n nm)) (param_names n))).
    2:{ intros n Hn. destruct (Hin n Hn) as (a & Ha & Hna). apply ser_params_ok. intros nm. exact (ws_alloc _ _ W a n nm Hna). }
    reflexivity.
  Qed.
End SerialProofs.
Section Dangling.
  Context {V A Y S : Type}.
  Lemma node_index_none (h : list (node V A)) id : forall nodes d, dget id d = None -> (forall a n, In a (map snd nodes) -> nth_error h a = Some n -> n_id n <> id) ->
    dget id (fold_left (fun d p => match nth_error h (snd p) with Some n => dset (n_id n) (fst p) d | None => d end) nodes d : dict Z nat) = None.
  Proof.
    induction nodes as [|[i a] nodes IH]; intros d Hd Hn; [exact Hd|]. cbn [fold_left fst snd]. apply IH; [|intros a' n' Ha'; apply Hn; now right].
    destruct (nth_error h a) as [n|] eqn:E; [|exact Hd]. rewrite dget_dset_other; [exact Hd|]. apply not_eq_sym. apply (Hn a n); [now left|exact E].
  Qed.
  Lemma to_dict_dangling (ser : A -> option Y) (shim_to : S -> Y) (s : sstate V A S) root a n nm b nb :
    (forall x, In x (walk (graph_of (s_nodes s)) Bfs root) -> nth_error (s_nodes s) x <> None) ->
    In a (walk (graph_of (s_nodes s)) Bfs root) -> nth_error (s_nodes s) a = Some n -> In nm (dkeys (n_refs n)) -> get_ref n nm = Ok b -> nth_error (s_nodes s) b = Some nb ->
    (forall x m, In x (walk (graph_of (s_nodes s)) Bfs root) -> nth_error (s_nodes s) x = Some m -> n_id m <> n_id nb) ->
    to_dict ser shim_to s root = Err ValueError.
  Proof.
    intros Hal Ha Hn Hnm Hr Hb Hid. unfold to_dict. set (nodes := walk (graph_of (s_nodes s)) Bfs root) in *. cbv zeta.
    destruct (mapM _ nodes) as [ns|e] eqn:E1.
    2: { exfalso. clear - E1 Hal. induction nodes as [|x nodes IH]; [discriminate|]. cbn [mapM] in E1. destruct (nth_error (s_nodes s) x) eqn:Ex; [|now apply (Hal x (or_introl eq_refl))]. cbn [bind] in E1.
         destruct (mapM _ nodes) as [|e'] eqn:E2; [discriminate|]. apply IH; [intros y Hy; apply Hal; now right|exact E1]. }
    cbn [bind]. assert (Hin : In n ns).
    { clear - E1 Ha Hn. revert ns E1. induction nodes as [|x nodes IH]; intros ns E1; [destruct Ha|]. cbn [mapM] in E1. destruct (nth_error (s_nodes s) x) eqn:Ex; [|discriminate]. cbn [bind] in E1.
      destruct (mapM _ nodes) as [l|]; [|discriminate]. injection E1 as <-. destruct Ha as [->|Ha]; [left; congruence|right; now apply IH]. }
    assert (Hbad : ser_info (s_nodes s) (node_index (s_nodes s) nodes) n = Err ValueError).
    { unfold ser_info. cbv zeta. match goal with |- (if ?c then _ else _) = _ => replace c with true end; [reflexivity|]. symmetry. apply existsb_exists. exists (nm, None). split; [|reflexivity].
      apply in_map_iff. exists nm. split; [|exact Hnm]. f_equal. unfold ser_ref. rewrite Hr, Hb. replace (dget (n_id nb) (node_index (s_nodes s) nodes)) with (@None nat); [reflexivity|]. symmetry.
      unfold node_index. apply node_index_none; [reflexivity|]. intros x m Hx Hm. apply (Hid x m); [|exact Hm]. apply in_map_iff in Hx as ([i y] & <- & Hy). now apply in_combine_r in Hy. }
    assert (HM : mapM (ser_info (s_nodes s) (node_index (s_nodes s) nodes)) ns = Err ValueError); [|now rewrite HM].
    clear - Hin Hbad. induction ns as [|m ns IH]; [destruct Hin|]. cbn [mapM]. destruct Hin as [->|Hin]; [now rewrite Hbad|].
    assert (K : forall m', ser_info (s_nodes s) (node_index (s_nodes s) nodes) m' = Err ValueError \/ exists i, ser_info (s_nodes s) (node_index (s_nodes s) nodes) m' = Ok i) by (intros m'; unfold ser_info; cbv zeta; destruct (existsb _ _); eauto).
    destruct (K m) as [->|(i & ->)]; [reflexivity|]. cbn [bind]. now rewrite IH.
  Qed.
End Dangling.
