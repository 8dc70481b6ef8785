(** Proofs about the traversals. *)
From Coq Require Import Permutation Sorting.Sorted.
From Verif Require Import BaseFacts DictFacts GraphModel GraphSpec.

Set Default Goal Selector "!".

(** * Weighted sums over the nodes not seen yet, used as termination measures *)

Fixpoint usum (w : addr -> nat) (seen : list addr) (dom : list addr) : nat :=
  match dom with
  | [] => 0
  | a :: d => (if memb a seen then 0 else w a) + usum w seen d
  end.

Lemma usum_other w n seen dom : ~ In n dom -> usum w (n :: seen) dom = usum w seen dom.
Proof.
  induction dom as [|a d IH]; cbn [usum In]; intros Hn; [reflexivity|].
  rewrite IH by tauto. f_equal.
  assert (Hm : memb a (n :: seen) = memb a seen).
  { destruct (memb a seen) eqn:E.
    - apply memb_true. apply memb_true in E. now right.
    - apply memb_false. apply memb_false in E. intros [->|Hin]; tauto. }
  now rewrite Hm.
Qed.

Lemma usum_drop w n seen dom :
  NoDup dom -> In n dom -> ~ In n seen -> usum w (n :: seen) dom + w n = usum w seen dom.
Proof.
  induction dom as [|a d IH]; cbn [usum In]; intros Hnd Hin Hns; [tauto|].
  inversion Hnd as [|? ? Hna Hnd']; subst.
  destruct (Nat.eq_dec a n) as [->|Hne].
  - rewrite usum_other by exact Hna.
    assert (E1 : memb n (n :: seen) = true) by (apply memb_true; now left).
    assert (E2 : memb n seen = false) by (apply memb_false; exact Hns).
    rewrite E1, E2. lia.
  - assert (Hm : memb a (n :: seen) = memb a seen).
    { destruct (memb a seen) eqn:E.
      - apply memb_true. apply memb_true in E. now right.
      - apply memb_false. apply memb_false in E. intros [->|Hin']; tauto. }
    rewrite Hm. destruct Hin as [->|Hin]; [contradiction|].
    specialize (IH Hnd' Hin Hns). lia.
Qed.

Definition dom (g : graph) : list addr := seq 0 (length g).

Lemma layers_out g n : ~ In n (dom g) -> layers g n = [].
Proof.
  unfold dom. rewrite in_seq. intros Hn. apply nth_overflow. lia.
Qed.

Lemma usum_total w seen dom : usum w seen dom <= usum w [] dom.
Proof.
  induction dom as [|a d IH]; cbn [usum]; [lia|].
  destruct (memb a seen); cbn; lia.
Qed.

Lemma usum_edges_aux g k :
  usum (fun a => length (nth (a - k) g [])) [] (seq k (length g)) = edge_count g.
Proof.
  revert k. induction g as [|l g IH]; intros k; [reflexivity|].
  unfold edge_count, list_sum_nat in *.
  cbn [length seq usum map fold_right].
  replace (k - k) with 0 by lia. cbn [nth].
  replace (memb k []) with false by reflexivity.
  f_equal. rewrite <- (IH (S k)).
  assert (Hext : forall d, (forall a, In a d -> S k <= a) ->
    usum (fun a => length (nth (a - k) (l :: g) [])) [] d =
    usum (fun a => length (nth (a - S k) g [])) [] d).
  { induction d as [|a d IHd]; cbn [usum]; intros Hd; [reflexivity|].
    rewrite IHd by (intros b Hb; apply Hd; now right).
    specialize (Hd a (or_introl eq_refl)).
    replace (a - k) with (S (a - S k)) by lia. reflexivity. }
  apply Hext. intros a Ha. apply in_seq in Ha. lia.
Qed.

Lemma usum_edges g : usum (fun a => length (layers g a)) [] (dom g) = edge_count g.
Proof.
  rewrite <- (usum_edges_aux g 0). unfold dom, layers.
  induction (seq 0 (length g)) as [|a d IH]; [reflexivity|].
  cbn [usum]. rewrite IH. now rewrite Nat.sub_0_r.
Qed.

Lemma NoDup_dom g : NoDup (dom g).
Proof. apply seq_NoDup. Qed.

(** * Breadth-first termination *)

Lemma bfs_terminates_gen g fuel queue seen :
  length queue + usum (fun a => length (layers g a)) seen (dom g) <= fuel ->
  exists res, bfs_loop g fuel queue seen = Some res.
Proof.
  revert queue seen. induction fuel as [|f IH]; intros queue seen Hf.
  - destruct queue as [|n q]; [now exists []|]. cbn [length] in Hf. lia.
  - destruct queue as [|n q]; [now exists []|]. cbn [bfs_loop].
    destruct (memb n seen) eqn:Em.
    + apply IH. cbn [length] in Hf. lia.
    + apply memb_false in Em.
      destruct (IH (q ++ layers g n) (n :: seen)) as [r Hr].
      * rewrite app_length. cbn [length] in Hf.
        destruct (in_dec Nat.eq_dec n (dom g)) as [Hin|Hout].
        -- pose proof (usum_drop (fun a => length (layers g a)) n seen (dom g)
                         (NoDup_dom g) Hin Em) as Hd. cbn beta in Hd. lia.
        -- rewrite usum_other by exact Hout. rewrite (layers_out g n Hout). cbn [length]. lia.
      * exists (n :: r). now rewrite Hr.
Qed.

Lemma bfs_terminates g root : exists res, bfs_loop g (walk_fuel g) [root] [] = Some res.
Proof.
  apply bfs_terminates_gen. rewrite usum_edges. unfold walk_fuel. cbn [length]. lia.
Qed.

(** * Breadth-first: what is visited *)

Lemma bfs_visits g fuel queue seen res :
  bfs_loop g fuel queue seen = Some res ->
  NoDup res /\
  (forall x, In x res -> ~ In x seen) /\
  (forall x, In x queue -> In x seen \/ In x res) /\
  (forall x y, In x res -> In y (layers g x) -> In y seen \/ In y res) /\
  (forall x, In x res -> exists q, In q queue /\ reach g q x).
Proof.
  revert queue seen res. induction fuel as [|f IH]; intros queue seen res Hb.
  - destruct queue; [|discriminate]. injection Hb as <-.
    split; [constructor|]. cbn. firstorder.
  - destruct queue as [|n q]; cbn [bfs_loop] in Hb.
    { injection Hb as <-. split; [constructor|]. cbn. firstorder. }
    destruct (memb n seen) eqn:Em.
    + destruct (IH _ _ _ Hb) as (H1 & H2 & H3 & H4 & H5).
      apply memb_true in Em.
      split; [exact H1|]. split; [exact H2|]. split; [|split].
      * intros x [->|Hx]; [now left|apply H3, Hx].
      * exact H4.
      * intros x Hx. destruct (H5 x Hx) as (a & Ha & Hr). exists a. split; [now right|exact Hr].
    + apply memb_false in Em.
      destruct (bfs_loop g f (q ++ layers g n) (n :: seen)) as [r|] eqn:Er; [|discriminate].
      cbn in Hb. injection Hb as <-.
      destruct (IH _ _ _ Er) as (H1 & H2 & H3 & H4 & H5).
      split; [|split; [|split; [|split]]].
      * constructor; [|exact H1]. intros Hn. apply (H2 n Hn). now left.
      * intros x [->|Hx]; [exact Em|]. intros Hs. apply (H2 x Hx). now right.
      * intros x [->|Hx]; [right; now left|].
        destruct (H3 x) as [[->|Hs]|Hr]; [apply in_or_app; now left| | |].
        -- right; now left.
        -- now left.
        -- right; now right.
      * intros x y [->|Hx] Hy.
        -- destruct (H3 y) as [[->|Hs]|Hr]; [apply in_or_app; now right| | |].
           ++ right; now left.
           ++ now left.
           ++ right; now right.
        -- destruct (H4 x y Hx Hy) as [[->|Hs]|Hr].
           ++ right; now left.
           ++ now left.
           ++ right; now right.
      * intros x [->|Hx].
        -- exists x. split; [now left|]. exists 0. constructor.
        -- destruct (H5 x Hx) as (a & Ha & k & Hp). apply in_app_or in Ha.
           destruct Ha as [Ha|Ha].
           ++ exists a. split; [now right|]. now exists k.
           ++ exists n. split; [now left|]. exists (S k).
              clear - Ha Hp. induction Hp as [a|k a b c Hp IHp Hc].
              ** apply path_step with n; [constructor|exact Ha].
              ** apply path_step with b; [exact (IHp Ha)|exact Hc].
Qed.

Lemma reach_closed g (S : addr -> Prop) root :
  S root -> (forall x y, S x -> In y (layers g x) -> S y) -> forall x, reach g root x -> S x.
Proof.
  intros H0 Hc x [k Hp]. induction Hp as [a|k a b c Hp IH Hin]; [exact H0|].
  exact (Hc _ _ (IH H0) Hin).
Qed.

Lemma bfs_head g root :
  exists l, bfs_loop g (walk_fuel g) [root] [] = Some (root :: l).
Proof.
  destruct (bfs_terminates g root) as [r Hr].
  destruct (walk_fuel g) as [|f]; [discriminate|]. cbn [bfs_loop] in *.
  replace (memb root []) with false in * by reflexivity.
  destruct (bfs_loop g f ([] ++ layers g root) [root]) as [r'|] eqn:E; [|discriminate].
  exists r'. reflexivity.
Qed.

(** * Breadth-first: by distance. The loop with each queue entry carrying the depth at
    which it was put there. *)

Fixpoint lbfs (g : graph) (fuel : nat) (queue : list (addr * nat)) (seen : list addr)
  : option (list (addr * nat)) :=
  match queue with
  | [] => Some []
  | (n, d) :: q =>
    match fuel with
    | O => None
    | S f =>
      if memb n seen then lbfs g f q seen
      else option_map (cons (n, d))
             (lbfs g f (q ++ map (fun c => (c, S d)) (layers g n)) (n :: seen))
    end
  end.

Lemma lbfs_bfs g fuel queue seen :
  bfs_loop g fuel (map fst queue) seen = option_map (map fst) (lbfs g fuel queue seen).
Proof.
  revert queue seen. induction fuel as [|f IH]; intros [|[n d] q] seen; try reflexivity.
  cbn [map fst bfs_loop lbfs]. destruct (memb n seen); [apply IH|].
  specialize (IH (q ++ map (fun c => (c, S d)) (layers g n)) (n :: seen)).
  rewrite map_app, map_map in IH. cbn [fst] in IH. rewrite map_id in IH. rewrite IH.
  destruct (lbfs g f _ _); reflexivity.
Qed.

(** The queue holds entries of at most two consecutive depths, in order. *)
Definition qsorted (q : list (addr * nat)) : Prop :=
  StronglySorted le (map snd q) /\
  forall d d' , hd_error (map snd q) = Some d -> In d' (map snd q) -> d' <= S d.

Lemma ssorted_app l m : StronglySorted le l -> StronglySorted le m ->
  (forall x y, In x l -> In y m -> x <= y) -> StronglySorted le (l ++ m).
Proof.
  induction l as [|a l IH]; cbn [app]; intros Hl Hm Hx; [exact Hm|].
  inversion Hl as [|? ? Hl' Ha]; subst. constructor.
  - apply IH; [exact Hl'|exact Hm|]. intros x y Hx' Hy. apply Hx; [now right|exact Hy].
  - apply Forall_forall. intros y Hy. apply in_app_or in Hy. destruct Hy as [Hy|Hy].
    + rewrite Forall_forall in Ha. apply Ha, Hy.
    + apply Hx; [now left|exact Hy].
Qed.

Lemma qsorted_tail n d q : qsorted ((n, d) :: q) -> qsorted q.
Proof.
  intros [Hs Hb]. cbn [map snd] in Hs. inversion Hs as [|? ? Hs' Ha]; subst.
  split; [exact Hs'|]. intros e e' He He'.
  rewrite Forall_forall in Ha.
  assert (d <= e). { apply Ha. destruct (map snd q); [discriminate|]. injection He as ->. now left. }
  assert (e' <= S d) by (apply Hb; [reflexivity|now right]). lia.
Qed.

Lemma qsorted_push g n d q : qsorted ((n, d) :: q) ->
  qsorted (q ++ map (fun c => (c, S d)) (layers g n)) /\
  forall x, In x (q ++ map (fun c => (c, S d)) (layers g n)) -> d <= snd x <= S d.
Proof.
  intros Hq. pose proof (qsorted_tail _ _ _ Hq) as [Hs' _]. destruct Hq as [Hs Hb].
  cbn [map snd] in Hs. inversion Hs as [|? ? _ Ha]; subst. rewrite Forall_forall in Ha.
  assert (Hrange : forall x, In x (q ++ map (fun c => (c, S d)) (layers g n)) -> d <= snd x <= S d).
  { intros x Hx. apply in_app_or in Hx. destruct Hx as [Hx|Hx].
    - apply (in_map snd) in Hx. split; [apply Ha, Hx|]. apply Hb; [reflexivity|]. now right.
    - apply in_map_iff in Hx. destruct Hx as (c & <- & _). cbn. lia. }
  split; [|exact Hrange].
  split.
  - rewrite map_app. apply ssorted_app; [exact Hs'| |].
    + rewrite map_map. cbn [snd]. clear Hrange. induction (layers g n) as [|c cs IHc]; cbn [map]; constructor.
      * exact IHc.
      * apply Forall_forall. intros y Hy. apply in_map_iff in Hy. destruct Hy as (? & <- & _). lia.
    + intros x y Hx Hy. rewrite map_map in Hy. cbn [snd] in Hy.
      apply in_map_iff in Hy. destruct Hy as (? & <- & _).
      apply Hb; [reflexivity|]. now right.
  - intros e e' He He'.
    assert (d <= e).
    { destruct (q ++ _) as [|z zs] eqn:E; [discriminate|]. cbn in He. injection He as <-.
      apply (Hrange z). now left. }
    apply in_map_iff in He'. destruct He' as (x & <- & Hx). specialize (Hrange x Hx). lia.
Qed.

Lemma lbfs_props g fuel queue seen res :
  lbfs g fuel queue seen = Some res -> qsorted queue ->
  StronglySorted le (map snd res) /\
  (forall x, In x res -> forall d, hd_error (map snd queue) = Some d -> d <= snd x) /\
  (forall x d, In (x, d) queue -> ~ In x seen -> exists d', d' <= d /\ In (x, d') res) /\
  (forall x d y, In (x, d) res -> In y (layers g x) -> ~ In y seen ->
     exists d', d' <= S d /\ In (y, d') res) /\
  (forall x d, In (x, d) res -> exists q e, In (q, e) queue /\ e <= d /\ path g (d - e) q x).
Proof.
  revert queue seen res. induction fuel as [|f IH]; intros queue seen res Hb Hq.
  - destruct queue as [|[n d] q]; [|discriminate]. injection Hb as <-.
    split; [constructor|]. cbn. firstorder.
  - destruct queue as [|[n d] q]; cbn [lbfs] in Hb.
    { injection Hb as <-. split; [constructor|]. cbn. firstorder. }
    pose proof (qsorted_tail _ _ _ Hq) as Hqt.
    destruct (memb n seen) eqn:Em.
    + destruct (IH _ _ _ Hb Hqt) as (H1 & H2 & H3 & H4 & H5).
      apply memb_true in Em.
      split; [exact H1|]. split; [|split; [|split]].
      * intros x Hx e He. cbn in He. injection He as <-.
        destruct q as [|[m k] q'].
        { destruct x as [x dx]. destruct (H5 _ _ Hx) as (? & ? & [] & _). }
        specialize (H2 x Hx k eq_refl). destruct Hq as [Hs _]. cbn in Hs.
        inversion Hs as [|? ? _ Ha]; subst. inversion Ha; subst. lia.
      * intros x e [He|Hx] Hns; [injection He as -> ->; contradiction|apply H3; assumption].
      * exact H4.
      * intros x e Hx. destruct (H5 x e Hx) as (a & k & Ha & Hle & Hp).
        exists a, k. split; [now right|]. split; assumption.
    + apply memb_false in Em.
      destruct (qsorted_push g n d q Hq) as [Hqp Hrange].
      destruct (lbfs g f _ (n :: seen)) as [r|] eqn:Er; [|discriminate].
      cbn in Hb. injection Hb as <-.
      destruct (IH _ _ _ Er Hqp) as (H1 & H2 & H3 & H4 & H5).
      assert (Hge : forall x, In x r -> d <= snd x).
      { intros [x e] Hx. destruct (H5 x e Hx) as (a & k & Ha & Hle & _).
        specialize (Hrange _ Ha). cbn in *. lia. }
      split; [|split; [|split; [|split]]].
      * cbn [map snd]. constructor; [exact H1|].
        apply Forall_forall. intros y Hy. apply in_map_iff in Hy. destruct Hy as (x & <- & Hx).
        apply Hge, Hx.
      * intros x [<-|Hx] e He; cbn in He; injection He as <-; [cbn; lia|apply Hge, Hx].
      * intros x e Hx Hns. destruct (Nat.eq_dec x n) as [->|Hne].
        -- exists d. split; [|now left]. destruct Hx as [He|Hx]; [injection He as ->; lia|].
           apply (Hrange (n, e)). apply in_or_app. now left.
        -- destruct Hx as [He|Hx]; [congruence|].
           destruct (H3 x e) as (d' & Hd' & Hin).
           ++ apply in_or_app. now left.
           ++ intros [->|Hs]; contradiction.
           ++ exists d'. split; [exact Hd'|now right].
      * intros x e y Hx Hy Hns. destruct (Nat.eq_dec y n) as [->|Hne].
        -- exists d. split; [|now left]. destruct Hx as [He|Hx].
           ++ injection He as -> ->. lia.
           ++ specialize (Hge _ Hx). cbn in Hge. lia.
        -- destruct Hx as [He|Hx].
           ++ injection He as -> ->.
              destruct (H3 y (S e)) as (d' & Hd' & Hin).
              ** apply in_or_app. right. apply in_map_iff. now exists y.
              ** intros [->|Hs]; contradiction.
              ** exists d'. split; [exact Hd'|now right].
           ++ destruct (H4 x e y Hx Hy) as (d' & Hd' & Hin).
              ** intros [->|Hs]; contradiction.
              ** exists d'. split; [exact Hd'|now right].
      * intros x e [He|Hx].
        -- injection He as -> ->. exists x, e. split; [now left|]. split; [lia|].
           rewrite Nat.sub_diag. constructor.
        -- destruct (H5 x e Hx) as (a & k & Ha & Hle & Hp). apply in_app_or in Ha.
           destruct Ha as [Ha|Ha].
           ++ exists a, k. split; [now right|]. split; assumption.
           ++ apply in_map_iff in Ha. destruct Ha as (c & Hc & Hcl). injection Hc as <- <-.
              exists n, d. split; [now left|]. split; [lia|].
              replace (e - d) with (S (e - S d)) by lia.
              clear - Hcl Hp. induction Hp as [a|k a b c' Hp IHp Hc].
              ** apply path_step with n; [constructor|exact Hcl].
              ** apply path_step with b; [exact (IHp Hcl)|exact Hc].
Qed.

Lemma lbfs_root g root :
  exists lres, lbfs g (walk_fuel g) [(root, 0)] [] = Some lres /\
               bfs_loop g (walk_fuel g) [root] [] = Some (map fst lres).
Proof.
  destruct (bfs_terminates g root) as [r Hr].
  pose proof (lbfs_bfs g (walk_fuel g) [(root, 0)] []) as Hl. cbn [map fst] in Hl.
  rewrite Hr in Hl. destruct (lbfs g _ _ _) as [lr|]; [|discriminate].
  cbn in Hl. injection Hl as ->. exists lr. split; [reflexivity|exact Hr].
Qed.

Lemma before_map {A B} (f : A -> B) x y l :
  before x y (map f l) -> exists a b, f a = x /\ f b = y /\ before a b l.
Proof.
  intros (l1 & l2 & l3 & He).
  apply map_eq_app in He. destruct He as (m1 & m2 & -> & E1 & E2).
  destruct m2 as [|a m2]; [discriminate|]. cbn in E2. injection E2 as E2 E3.
  apply map_eq_app in E3. destruct E3 as (m3 & m4 & -> & E4 & E5).
  destruct m4 as [|b m4]; [discriminate|]. cbn in E5. injection E5 as E5 E6.
  exists a, b. split; [exact E2|]. split; [exact E5|]. exists m1, m3, m4. reflexivity.
Qed.

Lemma before_sorted (l : list (addr * nat)) a b :
  StronglySorted le (map snd l) -> before a b l -> snd a <= snd b.
Proof.
  intros Hs (l1 & l2 & l3 & ->). induction l1 as [|z l1 IH]; cbn in Hs.
  - inversion Hs as [|? ? _ Ha]; subst. rewrite Forall_forall in Ha. apply Ha.
    rewrite map_app. apply in_or_app. right. now left.
  - inversion Hs; subst. now apply IH.
Qed.

Lemma bfs_by_distance g root x y k :
  before x y (walk g Bfs root) -> path g k root y -> exists j, j <= k /\ path g j root x.
Proof.
  intros Hb Hp. unfold walk, walk_opt in Hb.
  destruct (lbfs_root g root) as (lres & Hl & Hr). rewrite Hr in Hb.
  assert (Hq : qsorted [(root, 0)]).
  { split; [repeat constructor|]. cbn. intros d d' He [<-|[]]. lia. }
  destruct (lbfs_props _ _ _ _ _ Hl Hq) as (H1 & _ & H3 & H4 & H5).
  destruct (before_map _ _ _ _ Hb) as ([x' dx] & [y' dy] & Ex & Ey & Hbl).
  cbn in Ex, Ey. subst x' y'.
  pose proof (before_sorted _ _ _ H1 Hbl) as Hle. cbn in Hle.
  assert (Hmin : forall z j, path g j root z -> exists d', d' <= j /\ In (z, d') lres).
  { intros z j Hz. remember root as r eqn:Er in Hz. induction Hz as [a|j a b c Hz IH Hc]; subst.
    - destruct (H3 root 0) as (d' & Hd' & Hin); [now left|tauto|]. now exists d'.
    - destruct (IH eq_refl) as (d' & Hd' & Hin).
      destruct (H4 b d' c Hin Hc) as (d2 & Hd2 & Hin2); [tauto|]. exists d2. split; [lia|exact Hin2]. }
  destruct (Hmin _ _ Hp) as (d' & Hd' & Hin').
  assert (Hnd : NoDup (map fst lres)).
  { destruct (bfs_visits _ _ _ _ _ Hr) as (Hnd & _). exact Hnd. }
  assert (Hbx : In (x, dx) lres /\ In (y, dy) lres).
  { destruct Hbl as (l1 & l2 & l3 & ->). split; apply in_or_app; right; [now left|].
    right. apply in_or_app; right; now left. }
  destruct Hbx as [Hx Hy].
  assert (d' = dy).
  { pose proof (dget_nodup_in y d' lres Hnd Hin') as E1.
    pose proof (dget_nodup_in y dy lres Hnd Hy) as E2. congruence. }
  subst d'.
  destruct (H5 x dx Hx) as (q & e & Hqe & Hle2 & Hpx). destruct Hqe as [Hqe|[]].
  injection Hqe as <- <-. rewrite Nat.sub_0_r in Hpx. exists dx. split; [lia|exact Hpx].
Qed.

(** * Depth-first termination *)

Definition it_of (its : dict addr (list addr)) (a : addr) : list addr :=
  match dget a its with Some l => l | None => [] end.

Definition dfs_pot (g : graph) (stack : list addr) (its : dict addr (list addr)) : nat :=
  list_sum_nat (map (fun a => 1 + 2 * length (it_of its a)) stack) +
  usum (fun a => 2 * length (layers g a)) (dkeys its) (dom g).

Lemma usum_ext w s s' d : (forall x, In x s <-> In x s') -> usum w s d = usum w s' d.
Proof.
  intros Hs. induction d as [|a d IH]; [reflexivity|]. cbn [usum]. rewrite IH. f_equal.
  assert (Hm : memb a s = memb a s').
  { destruct (memb a s') eqn:E.
    - apply memb_true. apply memb_true in E. now apply Hs.
    - apply memb_false. apply memb_false in E. intros Hin. apply E, Hs, Hin. }
  now rewrite Hm.
Qed.

Lemma it_of_dset a l its b :
  it_of (dset a l its) b = if Nat.eq_dec b a then l else it_of its b.
Proof.
  unfold it_of. rewrite dget_dset. unfold eqd, eqd_nat. destruct (Nat.eq_dec b a); reflexivity.
Qed.

Lemma pot_map_other (its : dict addr (list addr)) a l (s : list addr) : ~ In a s ->
  list_sum_nat (map (fun b => 1 + 2 * length (it_of (dset a l its) b)) s) =
  list_sum_nat (map (fun b => 1 + 2 * length (it_of its b)) s).
Proof.
  intros Hn. f_equal. apply map_ext_in. intros b Hb. rewrite it_of_dset.
  destruct (Nat.eq_dec b a); [subst; contradiction|reflexivity].
Qed.

(** The stack holds distinct nodes, all registered in [seen]. *)
Definition dfs_wf (stack : list addr) (its : dict addr (list addr)) : Prop :=
  NoDup stack /\ (forall a, In a stack -> In a (dkeys its)).

Lemma dfs_wf_push g top rest c cs its :
  dfs_wf (top :: rest) its -> ~ In c (dkeys (dset top cs its)) ->
  dfs_wf (c :: top :: rest) (dset c (layers g c) (dset top cs its)).
Proof.
  intros [Hnd Hk] Hc. split.
  - constructor; [|exact Hnd]. intros Hin. apply Hc. rewrite in_dkeys_dset.
    right. apply Hk, Hin.
  - intros a [<-|Ha]; rewrite in_dkeys_dset; [now left|]. right.
    rewrite in_dkeys_dset. right. apply Hk, Ha.
Qed.

Lemma dfs_wf_iter top rest cs its :
  dfs_wf (top :: rest) its -> dfs_wf (top :: rest) (dset top cs its).
Proof.
  intros [Hnd Hk]. split; [exact Hnd|]. intros a Ha. rewrite in_dkeys_dset. right. apply Hk, Ha.
Qed.

Lemma dfs_wf_pop top rest its : dfs_wf (top :: rest) its -> dfs_wf rest its.
Proof.
  intros [Hnd Hk]. inversion Hnd; subst. split; [assumption|]. intros a Ha. apply Hk. now right.
Qed.

Lemma dfs_pot_iter g top rest c cs its :
  dfs_wf (top :: rest) its -> dget top its = Some (c :: cs) ->
  dfs_pot g (top :: rest) (dset top cs its) + 2 = dfs_pot g (top :: rest) its.
Proof.
  intros [Hnd Hk] Hg. unfold dfs_pot. cbn [map list_sum_nat fold_right].
  fold (list_sum_nat (map (fun b => 1 + 2 * length (it_of (dset top cs its) b)) rest)).
  fold (list_sum_nat (map (fun b => 1 + 2 * length (it_of its b)) rest)).
  inversion Hnd as [|? ? Hnt _]; subst.
  rewrite pot_map_other by exact Hnt.
  rewrite it_of_dset. destruct (Nat.eq_dec top top); [|contradiction].
  unfold it_of at 2. rewrite Hg.
  rewrite (usum_ext _ (dkeys (dset top cs its)) (dkeys its)).
  - cbn [length]. lia.
  - intros x. rewrite in_dkeys_dset. split; [|now right].
    intros [->|Hx]; [|exact Hx]. eapply dget_some_key, Hg.
Qed.

Lemma dfs_pot_push g stack c its :
  (forall a, In a stack -> In a (dkeys its)) -> ~ In c (dkeys its) ->
  dfs_pot g (c :: stack) (dset c (layers g c) its) = dfs_pot g stack its + 1.
Proof.
  intros Hk Hc. unfold dfs_pot. cbn [map list_sum_nat fold_right].
  fold (list_sum_nat (map (fun b => 1 + 2 * length (it_of (dset c (layers g c) its) b)) stack)).
  rewrite pot_map_other by (intros Hin; apply Hc, Hk, Hin).
  rewrite it_of_dset. destruct (Nat.eq_dec c c); [|contradiction].
  rewrite (usum_ext _ (dkeys (dset c (layers g c) its)) (c :: dkeys its)).
  - destruct (in_dec Nat.eq_dec c (dom g)) as [Hin|Hout].
    + pose proof (usum_drop (fun a => 2 * length (layers g a)) c (dkeys its) (dom g)
                    (NoDup_dom g) Hin Hc) as Hd. cbn beta in Hd. lia.
    + rewrite usum_other by exact Hout. rewrite (layers_out g c Hout). cbn [length]. lia.
  - intros x. rewrite in_dkeys_dset. cbn [In]. intuition congruence.
Qed.

Lemma dfs_pot_pop g top rest its :
  dfs_pot g rest its + 1 <= dfs_pot g (top :: rest) its.
Proof.
  unfold dfs_pot. cbn [map list_sum_nat fold_right].
  fold (list_sum_nat (map (fun b => 1 + 2 * length (it_of its b)) rest)). lia.
Qed.

Lemma dfs_terminates_gen g post fuel stack its :
  dfs_wf stack its -> dfs_pot g stack its <= fuel ->
  exists res, dfs_loop g post fuel stack its = Some res.
Proof.
  revert stack its. induction fuel as [|f IH]; intros stack its Hwf Hf.
  - destruct stack as [|top rest]; [now exists []|].
    pose proof (dfs_pot_pop g top rest its). lia.
  - destruct stack as [|top rest]; [now exists []|]. cbn [dfs_loop].
    assert (Hpop : exists res, dfs_loop g post f rest its = Some res).
    { apply IH; [exact (dfs_wf_pop _ _ _ Hwf)|]. pose proof (dfs_pot_pop g top rest its). lia. }
    destruct (dget top its) as [[|c cs]|] eqn:Eg.
    + destruct Hpop as [r Hr]. rewrite Hr. destruct post; cbn; eauto.
    + pose proof (dfs_pot_iter g _ _ _ _ _ Hwf Eg) as Hp.
      destruct (dmem c (dset top cs its)) eqn:Em.
      * apply IH; [exact (dfs_wf_iter _ _ _ _ Hwf)|]. lia.
      * apply dmem_false in Em.
        destruct (IH (c :: top :: rest) (dset c (layers g c) (dset top cs its))) as [r Hr].
        -- apply dfs_wf_push; assumption.
        -- rewrite dfs_pot_push; [lia| |exact Em].
           destruct Hwf as [_ Hk]. intros a Ha. rewrite in_dkeys_dset. right. apply Hk, Ha.
        -- rewrite Hr. destruct post; cbn; eauto.
    + destruct Hpop as [r Hr]. rewrite Hr. destruct post; cbn; eauto.
Qed.

Lemma dfs_wf_root g root : dfs_wf [root] [(root, layers g root)].
Proof. split; [repeat constructor; tauto|]. intros a Ha. exact Ha. Qed.

Lemma dfs_terminates g post root :
  exists res, dfs_loop g post (walk_fuel g) [root] [(root, layers g root)] = Some res.
Proof.
  apply dfs_terminates_gen; [apply dfs_wf_root|].
  change [(root, layers g root)] with (dset root (layers g root) []).
  rewrite dfs_pot_push.
  - unfold dfs_pot. cbn [map list_sum_nat fold_right dkeys].
    assert (E : usum (fun a => 2 * length (layers g a)) [] (dom g)
                = 2 * usum (fun a => length (layers g a)) [] (dom g)).
    { induction (dom g) as [|a d IHd]; [reflexivity|]. cbn [usum]. rewrite IHd.
      replace (memb a []) with false by reflexivity. lia. }
    rewrite E, usum_edges. unfold walk_fuel. lia.
  - intros a [].
  - tauto.
Qed.

(** * Depth-first: what is visited *)

Lemma dfs_pre_visits g fuel stack its res :
  dfs_loop g false fuel stack its = Some res -> dfs_wf stack its ->
  NoDup res /\
  (forall x, In x res -> ~ In x (dkeys its)) /\
  (forall x y, In x stack -> In y (it_of its x) -> In y (dkeys its) \/ In y res) /\
  (forall x y, In x res -> In y (layers g x) -> In y (dkeys its) \/ In y res) /\
  (forall (P : addr -> Prop),
     (forall x y, In x stack -> In y (it_of its x) -> P y) ->
     (forall x y, P x -> In y (layers g x) -> P y) ->
     forall x, In x res -> P x).
Proof.
  revert stack its res. induction fuel as [|f IH]; intros stack its res Hd Hwf.
  - destruct stack; [|discriminate]. injection Hd as <-.
    split; [constructor|]. cbn. firstorder.
  - destruct stack as [|top rest]; cbn [dfs_loop] in Hd.
    { injection Hd as <-. split; [constructor|]. cbn. firstorder. }
    assert (Hpop : forall res', dfs_loop g false f rest its = Some res' -> it_of its top = [] ->
      NoDup res' /\
      (forall x, In x res' -> ~ In x (dkeys its)) /\
      (forall x y, In x (top :: rest) -> In y (it_of its x) -> In y (dkeys its) \/ In y res') /\
      (forall x y, In x res' -> In y (layers g x) -> In y (dkeys its) \/ In y res') /\
      (forall (P : addr -> Prop),
         (forall x y, In x (top :: rest) -> In y (it_of its x) -> P y) ->
         (forall x y, P x -> In y (layers g x) -> P y) ->
         forall x, In x res' -> P x)).
    { intros res' Hr Hit.
      destruct (IH _ _ _ Hr (dfs_wf_pop _ _ _ Hwf)) as (H1 & H2 & H3 & H4 & H5).
      split; [exact H1|]. split; [exact H2|]. split; [|split].
      - intros x y [<-|Hx] Hy; [rewrite Hit in Hy; destruct Hy|]. exact (H3 x y Hx Hy).
      - exact H4.
      - intros P HP1 HP2. apply H5; [|exact HP2]. intros x y Hx Hy. apply (HP1 x y); [now right|exact Hy]. }
    destruct (dget top its) as [[|c cs]|] eqn:Eg.
    + apply Hpop; [exact Hd|]. unfold it_of. now rewrite Eg.
    + assert (Hittop : it_of its top = c :: cs) by (unfold it_of; now rewrite Eg).
      assert (Hkeys : forall x, In x (dkeys (dset top cs its)) <-> In x (dkeys its)).
      { intros x. rewrite in_dkeys_dset. split; [|now right].
        intros [->|Hx]; [|exact Hx]. eapply dget_some_key, Eg. }
      destruct (dmem c (dset top cs its)) eqn:Em.
      * apply dmem_true in Em.
        destruct (IH _ _ _ Hd (dfs_wf_iter _ _ _ _ Hwf)) as (H1 & H2 & H3 & H4 & H5).
        split; [exact H1|]. split; [|split; [|split]].
        -- intros x Hx Hk. apply (H2 x Hx). now apply Hkeys.
        -- intros x y Hx Hy. rewrite <- Hkeys. destruct (Nat.eq_dec x top) as [->|Hne].
           ++ rewrite Hittop in Hy. destruct Hy as [<-|Hy]; [now left|].
              apply (H3 top y Hx). rewrite it_of_dset.
              destruct (Nat.eq_dec top top); [exact Hy|contradiction].
           ++ apply (H3 x y Hx). rewrite it_of_dset.
              destruct (Nat.eq_dec x top); [contradiction|exact Hy].
        -- intros x y Hx Hy. rewrite <- Hkeys. exact (H4 x y Hx Hy).
        -- intros P HP1 HP2. apply H5; [|exact HP2]. intros x y Hx Hy.
           rewrite it_of_dset in Hy. destruct (Nat.eq_dec x top) as [->|Hne].
           ++ apply (HP1 top y Hx). rewrite Hittop. now right.
           ++ apply (HP1 x y Hx Hy).
      * apply dmem_false in Em.
        set (its' := dset c (layers g c) (dset top cs its)) in *.
        destruct (dfs_loop g false f (c :: top :: rest) its') as [r|] eqn:Er; [|discriminate].
        cbn in Hd. injection Hd as <-.
        assert (Hwf' : dfs_wf (c :: top :: rest) its') by (apply dfs_wf_push; assumption).
        destruct (IH _ _ _ Er Hwf') as (H1 & H2 & H3 & H4 & H5).
        assert (Hkeys' : forall x, In x (dkeys its') <-> x = c \/ In x (dkeys its)).
        { intros x. unfold its'. rewrite in_dkeys_dset, Hkeys. tauto. }
        assert (Hctop : c <> top).
        { intros ->. apply Em. rewrite Hkeys. eapply dget_some_key, Eg. }
        assert (Hitc : it_of its' c = layers g c).
        { unfold its'. rewrite it_of_dset. destruct (Nat.eq_dec c c); [reflexivity|contradiction]. }
        assert (Hitx : forall x, x <> c -> x <> top -> it_of its' x = it_of its x).
        { intros x Hxc Hxt. unfold its'. rewrite !it_of_dset.
          destruct (Nat.eq_dec x c); [contradiction|]. destruct (Nat.eq_dec x top); [contradiction|reflexivity]. }
        assert (Hitt : it_of its' top = cs).
        { unfold its'. rewrite !it_of_dset.
          destruct (Nat.eq_dec top c); [congruence|]. destruct (Nat.eq_dec top top); [reflexivity|contradiction]. }
        split; [|split; [|split; [|split]]].
        -- constructor; [|exact H1]. intros Hin. apply (H2 c Hin). apply Hkeys'. now left.
        -- intros x [<-|Hx]; [rewrite <- Hkeys; exact Em|]. intros Hk. apply (H2 x Hx).
           apply Hkeys'. now right.
        -- intros x y Hx Hy.
           assert (Hgoal : In y (dkeys its') \/ In y r -> In y (dkeys its) \/ In y (c :: r)).
           { rewrite Hkeys'. cbn [In]. intuition congruence. }
           destruct (Nat.eq_dec x top) as [->|Hxt].
           ++ rewrite Hittop in Hy. destruct Hy as [<-|Hy]; [right; now left|].
              apply Hgoal. apply (H3 top y); [right; exact Hx|]. now rewrite Hitt.
           ++ assert (Hxc : x <> c).
              { intros ->. apply Em. rewrite Hkeys. destruct Hwf as [_ Hk]. apply Hk, Hx. }
              apply Hgoal. apply (H3 x y); [right; exact Hx|]. now rewrite Hitx.
        -- intros x y Hx Hy.
           assert (Hgoal : In y (dkeys its') \/ In y r -> In y (dkeys its) \/ In y (c :: r)).
           { rewrite Hkeys'. cbn [In]. intuition congruence. }
           apply Hgoal. destruct Hx as [<-|Hx].
           ++ apply (H3 c y); [now left|]. now rewrite Hitc.
           ++ exact (H4 x y Hx Hy).
        -- intros P HP1 HP2.
           assert (HPc : P c). { apply (HP1 top c); [now left|]. rewrite Hittop. now left. }
           intros x [<-|Hx]; [exact HPc|]. revert x Hx. apply H5; [|exact HP2].
           intros x y Hx Hy. destruct (Nat.eq_dec x c) as [->|Hxc].
           ++ rewrite Hitc in Hy. exact (HP2 _ _ HPc Hy).
           ++ destruct Hx as [He|Hx]; [congruence|].
              destruct (Nat.eq_dec x top) as [->|Hxt].
              ** rewrite Hitt in Hy. apply (HP1 top y Hx). rewrite Hittop. now right.
              ** rewrite Hitx in Hy by assumption. exact (HP1 x y Hx Hy).
    + apply Hpop; [exact Hd|]. unfold it_of. now rewrite Eg.
Qed.

Lemma dfs_post_perm g fuel stack its r1 r2 :
  dfs_loop g false fuel stack its = Some r1 ->
  dfs_loop g true fuel stack its = Some r2 -> Permutation r2 (stack ++ r1).
Proof.
  revert stack its r1 r2. induction fuel as [|f IH]; intros stack its r1 r2 H1 H2.
  - destruct stack; [|discriminate]. injection H1 as <-. injection H2 as <-. constructor.
  - destruct stack as [|top rest]; cbn [dfs_loop] in H1, H2.
    { injection H1 as <-. injection H2 as <-. constructor. }
    destruct (dget top its) as [[|c cs]|] eqn:Eg.
    + destruct (dfs_loop g true f rest its) as [r|] eqn:Er; [|discriminate].
      injection H2 as <-. cbn [app]. constructor. exact (IH _ _ _ _ H1 Er).
    + destruct (dmem c (dset top cs its)).
      * exact (IH _ _ _ _ H1 H2).
      * destruct (dfs_loop g false f _ _) as [r|] eqn:Er in H1; [|discriminate].
        injection H1 as <-. pose proof (IH _ _ _ _ Er H2) as Hp.
        refine (Permutation_trans Hp _). cbn [app]. rewrite app_comm_cons.
        exact (Permutation_middle (top :: rest) r c).
    + destruct (dfs_loop g true f rest its) as [r|] eqn:Er; [|discriminate].
      injection H2 as <-. cbn [app]. constructor. exact (IH _ _ _ _ H1 Er).
Qed.

Lemma dfs_post_last g fuel s root its r :
  dfs_loop g true fuel (s ++ [root]) its = Some r -> exists l, r = l ++ [root].
Proof.
  revert s its r. induction fuel as [|f IH]; intros s its r Hd.
  - destruct s; discriminate.
  - destruct s as [|top rest]; cbn [app dfs_loop] in Hd.
    + destruct (dget root its) as [[|c cs]|] eqn:Eg.
      * destruct f; injection Hd as <-; now exists [].
      * destruct (dmem c _).
        -- exact (IH [] _ _ Hd).
        -- exact (IH [c] _ _ Hd).
      * destruct f; injection Hd as <-; now exists [].
    + destruct (dget top its) as [[|c cs]|] eqn:Eg.
      * destruct (dfs_loop g true f _ _) as [r'|] eqn:Er in Hd; [|discriminate].
        injection Hd as <-. destruct (IH _ _ _ Er) as [l ->]. now exists (top :: l).
      * destruct (dmem c _).
        -- exact (IH (top :: rest) _ _ Hd).
        -- exact (IH (c :: top :: rest) _ _ Hd).
      * destruct (dfs_loop g true f _ _) as [r'|] eqn:Er in Hd; [|discriminate].
        injection Hd as <-. destruct (IH _ _ _ Er) as [l ->]. now exists (top :: l).
Qed.

(** * The traversal theorems *)

Lemma walk_terminates g o root : exists l, walk_opt g o root = Some l.
Proof.
  destruct o; cbn [walk_opt].
  - apply bfs_terminates.
  - destruct (dfs_terminates g false root) as [r Hr]. rewrite Hr. now exists (root :: r).
  - apply dfs_terminates.
Qed.

Lemma walk_pre_facts g root :
  NoDup (walk g DfsPre root) /\ (forall x, In x (walk g DfsPre root) <-> reach g root x).
Proof.
  unfold walk, walk_opt. destruct (dfs_terminates g false root) as [r Hr]. rewrite Hr. cbn [option_map].
  destruct (dfs_pre_visits _ _ _ _ _ Hr (dfs_wf_root g root)) as (H1 & H2 & H3 & H4 & H5).
  assert (Hit : it_of [(root, layers g root)] root = layers g root).
  { unfold it_of. cbn [dget]. now rewrite eqd_refl. }
  split.
  - constructor; [|exact H1]. intros Hin. apply (H2 root Hin). now left.
  - intros x. split.
    + intros [<-|Hx]; [exists 0; constructor|]. revert x Hx. apply H5.
      * intros x y [<-|[]] Hy. rewrite Hit in Hy. exists 1. apply path_step with root; [constructor|exact Hy].
      * intros x y [k Hk] Hy. exists (S k). now apply path_step with x.
    + intros Hx. revert x Hx. apply reach_closed; [now left|].
      intros x y [<-|Hx] Hy.
      * destruct (H3 root y) as [Hk|Hk]; [now left|now rewrite Hit| |now right].
        cbn in Hk. destruct Hk as [<-|[]]. now left.
      * destruct (H4 x y Hx Hy) as [Hk|Hk]; [|now right].
        cbn in Hk. destruct Hk as [<-|[]]. now left.
Qed.

Lemma walk_post_perm g root : Permutation (walk g DfsPost root) (walk g DfsPre root).
Proof.
  unfold walk, walk_opt. destruct (dfs_terminates g false root) as [r Hr].
  destruct (dfs_terminates g true root) as [r2 Hr2]. rewrite Hr, Hr2. cbn [option_map].
  exact (dfs_post_perm _ _ _ _ _ _ Hr Hr2).
Qed.

Lemma walk_exact g o root :
  NoDup (walk g o root) /\ forall x, In x (walk g o root) <-> reach g root x.
Proof.
  destruct o.
  - unfold walk, walk_opt. destruct (bfs_terminates g root) as [r Hr]. rewrite Hr.
    destruct (bfs_visits _ _ _ _ _ Hr) as (H1 & _ & H3 & H4 & H5).
    split; [exact H1|]. intros x. split.
    + intros Hx. destruct (H5 x Hx) as (q & [<-|[]] & Hq). exact Hq.
    + intros Hx. revert x Hx. apply reach_closed.
      * destruct (H3 root) as [[]|Hin]; [now left|exact Hin].
      * intros x y Hx Hy. destruct (H4 x y Hx Hy) as [[]|Hin]. exact Hin.
  - apply walk_pre_facts.
  - destruct (walk_pre_facts g root) as [Hnd Hiff]. pose proof (walk_post_perm g root) as Hp. split.
    + exact (Permutation_NoDup (Permutation_sym Hp) Hnd).
    + intros x. rewrite <- Hiff. split; apply Permutation_in; [exact Hp|exact (Permutation_sym Hp)].
Qed.

Lemma walk_root_first g root :
  (exists l, walk g Bfs root = root :: l) /\ (exists l, walk g DfsPre root = root :: l).
Proof.
  unfold walk, walk_opt. split.
  - destruct (bfs_head g root) as [l Hl]. rewrite Hl. now exists l.
  - destruct (dfs_terminates g false root) as [r Hr]. rewrite Hr. now exists r.
Qed.

Lemma walk_root_last g root : exists l, walk g DfsPost root = l ++ [root].
Proof.
  unfold walk, walk_opt. destruct (dfs_terminates g true root) as [r Hr]. rewrite Hr.
  exact (dfs_post_last g _ [] root _ _ Hr).
Qed.

(** * Post-order on acyclic graphs *)

(** The stack is a chain of parent links, top first. *)
Fixpoint chain (g : graph) (s : list addr) : Prop :=
  match s with
  | [] => True
  | a :: s' => match s' with [] => True | b :: _ => In a (layers g b) /\ chain g s' end
  end.

Lemma path_snoc g k a b c : In b (layers g a) -> path g k b c -> path g (S k) a c.
Proof.
  intros Hb Hp. induction Hp as [b|k b d c Hp IH Hc].
  - apply path_step with a; [constructor|exact Hb].
  - apply path_step with d; [exact (IH Hb)|exact Hc].
Qed.

Lemma path_trans g k j a b c : path g k a b -> path g j b c -> path g (j + k) a c.
Proof.
  intros H1 H2. induction H2 as [b|j b d c H2 IH Hc]; [exact H1|].
  cbn [Nat.add]. apply path_step with d; [exact (IH H1)|exact Hc].
Qed.

Lemma chain_path g top rest y :
  chain g (top :: rest) -> In y (top :: rest) -> reach g y top.
Proof.
  revert top. induction rest as [|b rest IH]; intros top Hc [<-|Hy].
  - exists 0. constructor.
  - destruct Hy.
  - exists 0. constructor.
  - destruct Hc as [Hl Hc]. destruct (IH b Hc Hy) as [k Hk].
    exists (S k). now apply path_step with b.
Qed.

Lemma before_cons {A} (a x y : A) l : before x y l -> before x y (a :: l).
Proof. intros (l1 & l2 & l3 & ->). now exists (a :: l1), l2, l3. Qed.

Lemma before_head {A} (a y : A) l : In y l -> before a y (a :: l).
Proof.
  intros Hy. apply in_split in Hy. destruct Hy as (l2 & l3 & ->). now exists [], l2, l3.
Qed.

Lemma dfs_post_gen g fuel stack its res :
  acyclic g -> dfs_loop g true fuel stack its = Some res -> dfs_wf stack its -> chain g stack ->
  (forall x y, In x stack -> In y (layers g x) -> In y (it_of its x) \/ In y (dkeys its)) ->
  (forall x, In x stack -> incl (it_of its x) (layers g x)) ->
  forall x y, In x res -> In y (layers g x) ->
    (In y (dkeys its) /\ ~ In y stack) \/ before y x res.
Proof.
  intros Hac. revert stack its res.
  induction fuel as [|f IH]; intros stack its res Hd Hwf Hch Hcov Hincl x y Hx Hy.
  - destruct stack; [|discriminate]. injection Hd as <-. destruct Hx.
  - destruct stack as [|top rest]; cbn [dfs_loop] in Hd.
    { injection Hd as <-. destruct Hx. }
    assert (Hpop : forall r, dfs_loop g true f rest its = Some r -> it_of its top = [] ->
      In x (top :: r) -> (In y (dkeys its) /\ ~ In y (top :: rest)) \/ before y x (top :: r)).
    { intros r Hr Hit Hx'. destruct Hwf as [Hnd Hk].
      assert (Hnt : ~ In top rest) by (inversion Hnd; assumption).
      destruct (Nat.eq_dec x top) as [->|Hne].
      - left. destruct (Hcov top y) as [Hi|Hi]; [now left|exact Hy|rewrite Hit in Hi; destruct Hi|].
        split; [exact Hi|]. intros Hin.
        destruct (chain_path _ _ _ _ Hch Hin) as [k Hp].
        apply (Hac k top). exact (path_snoc _ _ _ _ _ Hy Hp).
      - destruct Hx' as [He|Hx']; [congruence|].
        assert (Hch' : chain g rest) by (destruct rest; [exact I|destruct Hch; assumption]).
        destruct (IH rest its r Hr) with (x := x) (y := y) as [[H1 H2]|H1].
        + exact (dfs_wf_pop _ _ _ (conj Hnd Hk)).
        + exact Hch'.
        + intros a b Ha Hb. apply (Hcov a b); [now right|exact Hb].
        + intros a Ha. apply Hincl. now right.
        + exact Hx'.
        + exact Hy.
        + destruct (Nat.eq_dec y top) as [->|Hyt].
          * right. apply before_head, Hx'.
          * left. split; [exact H1|]. intros [He|Hin]; [congruence|contradiction].
        + right. apply before_cons, H1. }
    destruct (dget top its) as [[|c cs]|] eqn:Eg.
    + destruct (dfs_loop g true f rest its) as [r|] eqn:Er; [|discriminate].
      injection Hd as <-. apply Hpop; [reflexivity| |exact Hx]. unfold it_of. now rewrite Eg.
    + assert (Hittop : it_of its top = c :: cs) by (unfold it_of; now rewrite Eg).
      assert (Hkeys : forall x, In x (dkeys (dset top cs its)) <-> In x (dkeys its)).
      { intros z. rewrite in_dkeys_dset. split; [|now right].
        intros [->|Hz]; [|exact Hz]. eapply dget_some_key, Eg. }
      destruct (dmem c (dset top cs its)) eqn:Em.
      * apply dmem_true in Em. rewrite <- Hkeys.
        refine (IH (top :: rest) _ res Hd (dfs_wf_iter _ _ _ _ Hwf) Hch _ _ x y Hx Hy).
        -- intros a b Ha Hb. rewrite it_of_dset. destruct (Nat.eq_dec a top) as [->|Hne].
           ++ destruct (Hcov top b Ha Hb) as [Hi|Hi].
              ** rewrite Hittop in Hi. destruct Hi as [<-|Hi]; [now right|now left].
              ** right. now apply Hkeys.
           ++ destruct (Hcov a b Ha Hb) as [Hi|Hi]; [now left|right; now apply Hkeys].
        -- intros a Ha. rewrite it_of_dset. destruct (Nat.eq_dec a top) as [->|Hne].
           ++ intros z Hz. apply (Hincl top Ha). rewrite Hittop. now right.
           ++ apply Hincl, Ha.
      * apply dmem_false in Em.
        set (its' := dset c (layers g c) (dset top cs its)) in *.
        assert (Hkeys' : forall z, In z (dkeys its') <-> z = c \/ In z (dkeys its)).
        { intros z. unfold its'. rewrite in_dkeys_dset, Hkeys. tauto. }
        assert (Hctop : c <> top).
        { intros ->. apply Em. rewrite Hkeys. eapply dget_some_key, Eg. }
        assert (Hitc : it_of its' c = layers g c).
        { unfold its'. rewrite it_of_dset. destruct (Nat.eq_dec c c); [reflexivity|contradiction]. }
        assert (Hitx : forall z, z <> c -> z <> top -> it_of its' z = it_of its z).
        { intros z Hzc Hzt. unfold its'. rewrite !it_of_dset.
          destruct (Nat.eq_dec z c); [contradiction|]. destruct (Nat.eq_dec z top); [contradiction|reflexivity]. }
        assert (Hitt : it_of its' top = cs).
        { unfold its'. rewrite !it_of_dset.
          destruct (Nat.eq_dec top c); [congruence|]. destruct (Nat.eq_dec top top); [reflexivity|contradiction]. }
        destruct (IH (c :: top :: rest) its' res Hd) with (x := x) (y := y) as [[H1 H2]|H1].
        -- apply dfs_wf_push; assumption.
        -- split; [|exact Hch]. apply (Hincl top); [now left|]. rewrite Hittop. now left.
        -- intros a b Ha Hb. rewrite Hkeys'. destruct (Nat.eq_dec a c) as [->|Hac'].
           ++ left. now rewrite Hitc.
           ++ destruct Ha as [He|Ha]; [congruence|].
              destruct (Hcov a b Ha Hb) as [Hi|Hi]; [|right; now right].
              destruct (Nat.eq_dec a top) as [->|Hat].
              ** rewrite Hitt. rewrite Hittop in Hi. destruct Hi as [<-|Hi]; [right; now left|now left].
              ** left. now rewrite Hitx.
        -- intros a Ha. destruct (Nat.eq_dec a c) as [->|Hac'].
           ++ rewrite Hitc. apply incl_refl.
           ++ destruct Ha as [He|Ha]; [congruence|].
              destruct (Nat.eq_dec a top) as [->|Hat].
              ** rewrite Hitt. intros z Hz. apply (Hincl top Ha). rewrite Hittop. now right.
              ** rewrite Hitx by assumption. now apply Hincl.
        -- exact Hx.
        -- exact Hy.
        -- left. apply Hkeys' in H1. destruct H1 as [->|H1].
           ++ exfalso. apply H2. now left.
           ++ split; [exact H1|]. intros Hin. apply H2. now right.
        -- now right.
    + destruct (dfs_loop g true f rest its) as [r|] eqn:Er; [|discriminate].
      injection Hd as <-. apply Hpop; [reflexivity| |exact Hx]. unfold it_of. now rewrite Eg.
Qed.

Lemma walk_post_children_first g root x y :
  acyclic g -> reach g root x -> In y (layers g x) -> before y x (walk g DfsPost root).
Proof.
  intros Hac Hr Hy.
  assert (Hin : In x (walk g DfsPost root)) by (apply walk_exact, Hr).
  unfold walk, walk_opt in *. destruct (dfs_terminates g true root) as [r Hd]. rewrite Hd in *.
  assert (Hit : it_of [(root, layers g root)] root = layers g root).
  { unfold it_of. cbn [dget]. now rewrite eqd_refl. }
  destruct (dfs_post_gen g _ _ _ _ Hac Hd (dfs_wf_root g root) I) with (x := x) (y := y) as [[H1 H2]|H1].
  - intros a b [<-|[]] Hb. left. now rewrite Hit.
  - intros a [<-|[]]. rewrite Hit. apply incl_refl.
  - exact Hin.
  - exact Hy.
  - cbn in H1, H2. tauto.
  - exact H1.
Qed.

(** * Depth-first on trees *)

Section TreeInd.
  Variable P : tree -> Prop.
  Hypothesis HT : forall a ts, Forall P ts -> P (T a ts).
  Fixpoint tree_ind' (t : tree) : P t :=
    match t with
    | T a ts => HT a ts ((fix go ts : Forall P ts :=
        match ts with [] => Forall_nil P | t :: ts' => Forall_cons t (tree_ind' t) (go ts') end) ts)
    end.
End TreeInd.

Lemma dfs_fuel_mono g post f k stack its r :
  dfs_loop g post f stack its = Some r -> dfs_loop g post (f + k) stack its = Some r.
Proof.
  revert stack its r. induction f as [|f IH]; intros stack its r Hd.
  - destruct stack; [|discriminate]. destruct k; exact Hd.
  - destruct stack as [|top rest]; [exact Hd|]. cbn [Nat.add dfs_loop] in *.
    destruct (dget top its) as [[|c cs]|].
    + destruct (dfs_loop g post f rest its) as [r'|] eqn:Er.
      * rewrite (IH _ _ _ Er). exact Hd.
      * destruct post; discriminate.
    + destruct (dmem c (dset top cs its)); [exact (IH _ _ _ Hd)|].
      destruct (dfs_loop g post f (c :: top :: rest) _) as [r'|] eqn:Er.
      * rewrite (IH _ _ _ Er). exact Hd.
      * destruct post; discriminate.
    + destruct (dfs_loop g post f rest its) as [r'|] eqn:Er.
      * rewrite (IH _ _ _ Er). exact Hd.
      * destruct post; discriminate.
Qed.

Definition tord (post : bool) (t : tree) : list addr := if post then postorder t else preorder t.

Lemma tree_nodes_perm t : Permutation (postorder t) (preorder t).
Proof.
  induction t as [a ts IH] using tree_ind'. cbn [postorder preorder].
  refine (Permutation_trans (Permutation_app_comm _ _) _). cbn [app]. constructor.
  induction IH as [|t ts Ht _ IHts]; [constructor|]. cbn [flat_map]. apply Permutation_app; assumption.
Qed.

Lemma represents_forall g a ts :
  represents g (T a ts) -> layers g a = map troot ts /\ Forall (represents g) ts.
Proof.
  cbn [represents]. intros [H1 H2]. split; [exact H1|].
  induction ts as [|t ts IH]; constructor.
  - apply H2.
  - clear H1. cut (layers g a = layers g a); [|reflexivity].
    destruct H2 as [_ H2]. revert H2. clear. induction ts as [|t ts IH]; intros H2 _; constructor.
    + apply H2.
    + apply IH; [apply H2|reflexivity].
Qed.

Definition tree_step (g : graph) (post : bool) (ts : list tree) : Prop :=
  forall its a rest tail,
    dget a its = Some (map troot ts ++ tail) -> Forall (represents g) ts ->
    NoDup (flat_map preorder ts) ->
    (forall z, In z (flat_map preorder ts) -> ~ In z (dkeys its)) ->
    exists its' n,
      (forall fuel, dfs_loop g post (n + fuel) (a :: rest) its =
         option_map (app (flat_map (tord post) ts)) (dfs_loop g post fuel (a :: rest) its')) /\
      dget a its' = Some tail /\
      (forall z, ~ In z (flat_map preorder ts) -> z <> a -> dget z its' = dget z its) /\
      (forall z, In z (dkeys its') <-> In z (dkeys its) \/ In z (flat_map preorder ts)).

Lemma NoDup_app_inv {A} (l m : list A) :
  NoDup (l ++ m) -> NoDup l /\ NoDup m /\ forall x, In x l -> ~ In x m.
Proof.
  induction l as [|a l IH]; cbn [app]; intros Hn.
  - split; [constructor|]. split; [exact Hn|]. intros x [].
  - inversion Hn as [|? ? Ha Hn']; subst. destruct (IH Hn') as (H1 & H2 & H3).
    split; [|split; [exact H2|]].
    + constructor; [|exact H1]. intros Hin. apply Ha, in_or_app. now left.
    + intros x [<-|Hx]; [|exact (H3 x Hx)]. intros Hin. apply Ha, in_or_app. now right.
Qed.

Lemma option_map_app_app {A} (l m : list A) (o : option (list A)) :
  option_map (app l) (option_map (app m) o) = option_map (app (l ++ m)) o.
Proof. destruct o; cbn; [now rewrite app_assoc|reflexivity]. Qed.

Lemma option_map_app_nil {A} (o : option (list A)) : option_map (app []) o = o.
Proof. destruct o; reflexivity. Qed.

Lemma tree_step_forest g post ts : Forall (fun t => tree_step g post [t]) ts -> tree_step g post ts.
Proof.
  induction 1 as [|t ts Ht _ IH]; intros its a rest tail Hg Hrep Hnd Hfr.
  - exists its, 0. split; [intros fuel; cbn [Nat.add flat_map]; now rewrite option_map_app_nil|].
    split; [exact Hg|]. split; [reflexivity|]. cbn. tauto.
  - inversion Hrep as [|? ? Hrt Hrts]; subst. cbn [flat_map] in Hnd.
    destruct (NoDup_app_inv _ _ Hnd) as (Hn1 & Hn2 & Hdisj).
    destruct (Ht its a rest (map troot ts ++ tail)) as (its1 & n1 & E1 & G1 & O1 & K1).
    + exact Hg.
    + now constructor.
    + cbn [flat_map]. now rewrite app_nil_r.
    + intros z Hz. apply Hfr. cbn [flat_map] in *. rewrite app_nil_r in Hz. apply in_or_app. now left.
    + cbn [flat_map] in E1, O1, K1. rewrite app_nil_r in *.
      destruct (IH its1 a rest tail G1 Hrts Hn2) as (its2 & n2 & E2 & G2 & O2 & K2).
      * intros z Hz Hk. apply K1 in Hk. destruct Hk as [Hk|Hk].
        -- apply (Hfr z); [cbn [flat_map]; apply in_or_app; now right|exact Hk].
        -- exact (Hdisj z Hk Hz).
      * exists its2, (n1 + n2). split; [|split; [exact G2|split]].
        -- intros fuel. rewrite <- Nat.add_assoc, E1, E2. cbn [flat_map].
           now rewrite option_map_app_app.
        -- intros z Hz Hza. cbn [flat_map] in Hz. rewrite in_app_iff in Hz.
           rewrite O2, O1 by tauto. reflexivity.
        -- intros z. rewrite K2, K1. cbn [flat_map]. rewrite in_app_iff. tauto.
Qed.

Lemma tree_step_one g post t : tree_step g post [t].
Proof.
  induction t as [c ts IH] using tree_ind'.
  apply tree_step_forest in IH.
  intros its a rest tail Hg Hrep Hnd Hfr.
  inversion Hrep as [|? ? Hrt _]; subst.
  destruct (represents_forall _ _ _ Hrt) as [Hl Hrts].
  cbn [flat_map] in *. rewrite app_nil_r in *. cbn [preorder] in Hnd, Hfr.
  inversion Hnd as [|? ? Hcn Hnd']; subst.
  cbn [map troot app] in Hg.
  set (its1 := dset c (layers g c) (dset a tail its)).
  assert (Hca : c <> a).
  { intros ->. apply (Hfr a); [now left|]. eapply dget_some_key, Hg. }
  assert (Hk1 : forall z, In z (dkeys its1) <-> z = c \/ In z (dkeys its)).
  { intros z. unfold its1. rewrite !in_dkeys_dset. split; [|tauto].
    intros [->|[->|Hz]]; [now left| |now right]. right. eapply dget_some_key, Hg. }
  destruct (IH its1 c (a :: rest) []) as (its2 & n & E & G & O & K).
  { unfold its1. rewrite dget_dset_same, Hl, app_nil_r. reflexivity. }
  { exact Hrts. }
  { exact Hnd'. }
  { intros z Hz Hk. apply Hk1 in Hk. destruct Hk as [->|Hk]; [contradiction|].
    apply (Hfr z); [now right|exact Hk]. }
  exists its2, (1 + (n + 1)). split; [|split; [|split]].
  - intros fuel. cbn [Nat.add]. cbn [dfs_loop]. rewrite Hg.
    assert (Em : dmem c (dset a tail its) = false).
    { apply dmem_false. rewrite in_dkeys_dset. intros [->|Hk]; [contradiction|].
      apply (Hfr c); [now left|exact Hk]. }
    rewrite Em. fold its1. rewrite <- Nat.add_assoc, E. cbn [Nat.add dfs_loop]. rewrite G.
    unfold tord. cbn [preorder postorder]. rewrite ?app_nil_r.
    destruct post; cbn [app]; destruct (dfs_loop g _ fuel (a :: rest) its2) as [r|]; cbn;
      try reflexivity.
    rewrite <- app_assoc. reflexivity.
  - destruct (in_dec Nat.eq_dec a (flat_map preorder ts)) as [Hin|Hnin].
    + exfalso. apply (Hfr a); [now right|]. eapply dget_some_key, Hg.
    + rewrite O by (intuition congruence). unfold its1.
      rewrite dget_dset_other by congruence. apply dget_dset_same.
  - intros z Hz Hza. rewrite app_nil_r in Hz.
    assert (Hzc : z <> c) by (intros ->; apply Hz; now left).
    assert (Hzt : ~ In z (flat_map preorder ts)) by (intros Hin; apply Hz; now right).
    rewrite O by assumption. unfold its1.
    rewrite !dget_dset_other by assumption. reflexivity.
  - intros z. rewrite app_nil_r, K, Hk1. cbn [preorder In]. intuition congruence.
Qed.

Lemma walk_tree g t :
  represents g t -> NoDup (preorder t) ->
  walk g DfsPre (troot t) = preorder t /\ walk g DfsPost (troot t) = postorder t.
Proof.
  intros Hrep Hnd. destruct t as [a ts]. cbn [troot].
  destruct (represents_forall _ _ _ Hrep) as [Hl Hrts].
  cbn [preorder] in Hnd. inversion Hnd as [|? ? Han Hnd']; subst.
  assert (Hrun : forall post, exists k,
    dfs_loop g post k [a] [(a, layers g a)] =
      Some (flat_map (tord post) ts ++ if post then [a] else [])).
  { intros post.
    destruct (tree_step_forest g post ts) with (its := [(a, layers g a)]) (a := a)
      (rest := @nil addr) (tail := @nil addr) as (its' & n & E & G & _ & _).
    - apply Forall_forall. intros t _. apply tree_step_one.
    - cbn [dget]. rewrite eqd_refl, app_nil_r, Hl. reflexivity.
    - exact Hrts.
    - exact Hnd'.
    - cbn. intros z Hz [<-|[]]. contradiction.
    - exists (n + 1). rewrite E. cbn [dfs_loop]. rewrite G. destruct post; reflexivity. }
  unfold walk, walk_opt. split.
  - destruct (Hrun false) as [k Hk]. destruct (dfs_terminates g false a) as [r Hr].
    pose proof (dfs_fuel_mono _ _ _ (walk_fuel g) _ _ _ Hk) as E1.
    pose proof (dfs_fuel_mono _ _ _ k _ _ _ Hr) as E2.
    rewrite Nat.add_comm in E2. rewrite E1 in E2. injection E2 as <-.
    rewrite Hr. cbn [option_map tord preorder]. now rewrite app_nil_r.
  - destruct (Hrun true) as [k Hk]. destruct (dfs_terminates g true a) as [r Hr].
    pose proof (dfs_fuel_mono _ _ _ (walk_fuel g) _ _ _ Hk) as E1.
    pose proof (dfs_fuel_mono _ _ _ k _ _ _ Hr) as E2.
    rewrite Nat.add_comm in E2. rewrite E1 in E2. injection E2 as <-.
    rewrite Hr. reflexivity.
Qed.

(** * Depth-first search on arbitrary graphs *)

Lemma dfs_rec_ext g seen todo pre post :
  dfs_rec g seen todo pre post -> forall seen', (forall x, In x seen <-> In x seen') ->
  dfs_rec g seen' todo pre post.
Proof.
  induction 1 as [seen|seen c cs pre post Hin _ IH|seen c cs p1 q1 p2 q2 Hn _ IH1 _ IH2];
    intros seen' He.
  - constructor.
  - apply dfs_rec_skip; [now apply He|now apply IH].
  - apply dfs_rec_visit.
    + intros Hc. apply Hn, He, Hc.
    + apply IH1. intros x. cbn [In]. rewrite He. tauto.
    + apply IH2. intros x. rewrite !in_app_iff. cbn [In]. rewrite He. tauto.
Qed.

Inductive stack_rec (g : graph) (its : dict addr (list addr))
  : list addr -> list addr -> list addr -> list addr -> Prop :=
| stack_rec_nil seen : stack_rec g its seen [] [] []
| stack_rec_cons seen top rest p1 q1 p2 q2 :
    dfs_rec g seen (it_of its top) p1 q1 ->
    stack_rec g its (p1 ++ seen) rest p2 q2 ->
    stack_rec g its seen (top :: rest) (p1 ++ p2) (q1 ++ top :: q2).

Lemma stack_rec_ext g its its' seen seen' stack p q :
  stack_rec g its seen stack p q -> (forall x, In x seen <-> In x seen') ->
  (forall x, In x stack -> it_of its x = it_of its' x) -> stack_rec g its' seen' stack p q.
Proof.
  intros Hs. revert seen'. induction Hs as [seen|seen top rest p1 q1 p2 q2 Hd _ IH]; intros seen' He Hi.
  - constructor.
  - constructor.
    + rewrite <- Hi by now left. exact (dfs_rec_ext _ _ _ _ _ Hd _ He).
    + apply IH.
      * intros x. rewrite !in_app_iff, He. tauto.
      * intros x Hx. apply Hi. now right.
Qed.

Lemma dfs_loop_rec g fuel stack its r1 r2 :
  dfs_loop g false fuel stack its = Some r1 -> dfs_loop g true fuel stack its = Some r2 ->
  dfs_wf stack its -> stack_rec g its (dkeys its) stack r1 r2.
Proof.
  revert stack its r1 r2. induction fuel as [|f IH]; intros stack its r1 r2 H1 H2 Hwf.
  - destruct stack; [|discriminate]. injection H1 as <-. injection H2 as <-. constructor.
  - destruct stack as [|top rest]; cbn [dfs_loop] in H1, H2.
    { injection H1 as <-. injection H2 as <-. constructor. }
    assert (Hpop : forall r1 r2, it_of its top = [] -> dfs_loop g false f rest its = Some r1 ->
       dfs_loop g true f rest its = Some r2 ->
       stack_rec g its (dkeys its) (top :: rest) r1 (top :: r2)).
    { intros a b Hit Ha Hb. change a with ([] ++ a). change (top :: b) with ([] ++ top :: b).
      constructor; [rewrite Hit; constructor|]. apply IH; try assumption.
      exact (dfs_wf_pop _ _ _ Hwf). }
    destruct (dget top its) as [[|c cs]|] eqn:Eg.
    + destruct (dfs_loop g true f rest its) as [r|] eqn:Er; [|discriminate]. injection H2 as <-.
      apply Hpop; [unfold it_of; now rewrite Eg|exact H1|reflexivity].
    + assert (Hittop : it_of its top = c :: cs) by (unfold it_of; now rewrite Eg).
      assert (Hkeys : forall x, In x (dkeys (dset top cs its)) <-> In x (dkeys its)).
      { intros x. rewrite in_dkeys_dset. split; [|now right].
        intros [->|Hx]; [|exact Hx]. eapply dget_some_key, Eg. }
      assert (Hnt : ~ In top rest) by (destruct Hwf as [Hnd _]; inversion Hnd; assumption).
      destruct (dmem c (dset top cs its)) eqn:Em.
      * apply dmem_true in Em.
        pose proof (IH _ _ _ _ H1 H2 (dfs_wf_iter _ _ _ _ Hwf)) as Hs.
        inversion Hs as [|seen t' rest' p1 q1 p2 q2 Hd Hr]; subst.
        constructor.
        -- rewrite Hittop. apply dfs_rec_skip; [now apply Hkeys|].
           rewrite it_of_dset in Hd. destruct (Nat.eq_dec top top); [|contradiction].
           exact (dfs_rec_ext _ _ _ _ _ Hd _ Hkeys).
        -- refine (stack_rec_ext _ _ _ _ _ _ _ _ Hr _ _).
           ++ intros x. rewrite !in_app_iff, Hkeys. tauto.
           ++ intros x Hx. rewrite it_of_dset. destruct (Nat.eq_dec x top); [subst; contradiction|reflexivity].
      * apply dmem_false in Em.
        set (its' := dset c (layers g c) (dset top cs its)) in *.
        destruct (dfs_loop g false f (c :: top :: rest) its') as [r|] eqn:Er; [|discriminate].
        cbn in H1. injection H1 as <-.
        pose proof (IH _ _ _ _ Er H2 (dfs_wf_push _ _ _ _ _ _ Hwf Em)) as Hs.
        assert (Hkeys' : forall x, In x (dkeys its') <-> In x (c :: dkeys its)).
        { intros x. unfold its'. rewrite in_dkeys_dset, Hkeys. cbn [In]. intuition congruence. }
        assert (Hcin : ~ In c (dkeys its)) by (rewrite <- Hkeys; exact Em).
        assert (Hctop : c <> top).
        { intros ->. apply Hcin. eapply dget_some_key, Eg. }
        inversion Hs as [|seen t' rest' p1 q1 p2 q2 Hd Hr]; subst.
        inversion Hr as [|seen t' rest' p3 q3 p4 q4 Hd' Hr']; subst.
        replace (c :: p1 ++ p3 ++ p4) with ((c :: p1 ++ p3) ++ p4)
          by (cbn [app]; now rewrite app_assoc).
        replace (q1 ++ c :: q3 ++ top :: q4) with ((q1 ++ c :: q3) ++ top :: q4)
          by (now rewrite <- app_assoc).
        assert (Hitc : it_of its' c = layers g c).
        { unfold its'. rewrite it_of_dset. destruct (Nat.eq_dec c c); [reflexivity|contradiction]. }
        assert (Hitt : it_of its' top = cs).
        { unfold its'. rewrite !it_of_dset.
          destruct (Nat.eq_dec top c); [congruence|]. destruct (Nat.eq_dec top top); [reflexivity|contradiction]. }
        constructor.
        -- rewrite Hittop. apply dfs_rec_visit; [exact Hcin| |].
           ++ rewrite <- Hitc. exact (dfs_rec_ext _ _ _ _ _ Hd _ Hkeys').
           ++ rewrite Hitt in Hd'. refine (dfs_rec_ext _ _ _ _ _ Hd' _ _).
              intros x. rewrite !in_app_iff, Hkeys'. tauto.
        -- refine (stack_rec_ext _ _ _ _ _ _ _ _ Hr' _ _).
           ++ intros x. repeat (rewrite in_app_iff || rewrite Hkeys' || cbn [In]). tauto.
           ++ intros x Hx. unfold its'. rewrite !it_of_dset.
              destruct (Nat.eq_dec x c) as [->|Hxc].
              ** exfalso. apply Hcin. destruct Hwf as [_ Hk]. apply Hk. now right.
              ** destruct (Nat.eq_dec x top) as [->|Hxt]; [contradiction|reflexivity].
    + destruct (dfs_loop g true f rest its) as [r|] eqn:Er; [|discriminate]. injection H2 as <-.
      apply Hpop; [unfold it_of; now rewrite Eg|exact H1|reflexivity].
Qed.

Lemma walk_dfs_rec g root :
  dfs_rec g [] [root] (walk g DfsPre root) (walk g DfsPost root).
Proof.
  unfold walk, walk_opt. destruct (dfs_terminates g false root) as [r1 H1].
  destruct (dfs_terminates g true root) as [r2 H2]. rewrite H1, H2. cbn [option_map].
  pose proof (dfs_loop_rec _ _ _ _ _ _ H1 H2 (dfs_wf_root g root)) as Hs.
  inversion Hs as [|seen t rest p1 q1 p2 q2 Hd Hr]; subst.
  inversion Hr; subst. clear Hs Hr.
  apply dfs_rec_visit; [tauto| |constructor].
  unfold it_of in Hd. cbn [dget] in Hd. rewrite eqd_refl in Hd. exact Hd.
Qed.

Lemma dfs_rec_det g seen todo p q : dfs_rec g seen todo p q ->
  forall p' q', dfs_rec g seen todo p' q' -> p = p' /\ q = q'.
Proof.
  induction 1 as [seen|seen c cs p q Hin _ IH|seen c cs p1 q1 p2 q2 Hn _ IH1 _ IH2];
    intros p' q' Hd; inversion Hd; subst; try contradiction.
  - split; reflexivity.
  - now apply IH.
  - match goal with H1 : dfs_rec g (c :: seen) _ _ _ |- _ => destruct (IH1 _ _ H1) as [-> ->] end.
    match goal with H1 : dfs_rec g (_ ++ c :: seen) _ _ _ |- _ => destruct (IH2 _ _ H1) as [-> ->] end.
    split; reflexivity.
Qed.

Lemma walk_dfs_unique g root p q :
  dfs_rec g [] [root] p q -> walk g DfsPre root = p /\ walk g DfsPost root = q.
Proof. intros Hd. exact (dfs_rec_det _ _ _ _ _ (walk_dfs_rec g root) _ _ Hd). Qed.

(** * Breadth-first search on arbitrary graphs *)

Lemma bfs_loop_level g f Q N seen res :
  bfs_loop g f (Q ++ N) seen = Some res ->
  length Q <= f /\
  exists res', res = first_new seen Q ++ res' /\
    bfs_loop g (f - length Q) (N ++ flat_map (layers g) (first_new seen Q))
      (rev (first_new seen Q) ++ seen) = Some res'.
Proof.
  revert f N seen res. induction Q as [|a Q IH]; intros f N seen res Hb.
  - split; [cbn; lia|]. exists res. cbn [first_new app rev flat_map length].
    rewrite app_nil_r, Nat.sub_0_r. split; [reflexivity|exact Hb].
  - destruct f as [|f]; [discriminate|]. cbn [app bfs_loop] in Hb. cbn [first_new length].
    destruct (in_dec Nat.eq_dec a seen) as [Hin|Hnin];
      [rewrite (proj2 (memb_true a seen) Hin) in Hb|rewrite (proj2 (memb_false a seen) Hnin) in Hb].
    + destruct (IH _ _ _ _ Hb) as (Hle & r & Hr & Hb'). split; [lia|].
      exists r. split; [exact Hr|exact Hb'].
    + rewrite <- app_assoc in Hb.
      destruct (bfs_loop g f _ (a :: seen)) as [r0|] eqn:Er; [|discriminate].
      cbn in Hb. injection Hb as <-.
      destruct (IH _ _ _ _ Er) as (Hle & r & Hr & Hb'). split; [lia|].
      exists r. split; [cbn [app]; now rewrite Hr|].
      cbn [rev flat_map Nat.sub]. rewrite <- (app_assoc (rev _)). cbn [app].
      rewrite app_assoc. exact Hb'.
Qed.

Lemma first_new_ext s s' l : (forall x, In x s <-> In x s') -> first_new s l = first_new s' l.
Proof.
  revert s s'. induction l as [|a l IH]; intros s s' He; [reflexivity|]. cbn [first_new].
  destruct (in_dec Nat.eq_dec a s) as [H1|H1]; destruct (in_dec Nat.eq_dec a s') as [H2|H2].
  - now apply IH.
  - exfalso. apply H2, He, H1.
  - exfalso. apply H1, He, H2.
  - f_equal. apply IH. intros x. cbn [In]. rewrite He. tauto.
Qed.

Lemma bfs_levels_ext g s cands out : bfs_levels g s cands out ->
  forall s', (forall x, In x s <-> In x s') -> bfs_levels g s' cands out.
Proof.
  induction 1 as [s|s c r Hc _ IH]; intros s' He; [constructor|].
  rewrite (first_new_ext s s' c He). apply bfs_levels_level; [exact Hc|].
  rewrite (first_new_ext s s' c He) in IH. apply IH.
  intros x. rewrite !in_app_iff, He. tauto.
Qed.

Lemma bfs_loop_levels g f Q seen res :
  bfs_loop g f Q seen = Some res -> bfs_levels g seen Q res.
Proof.
  revert Q seen res. induction f as [f IHf] using (well_founded_induction lt_wf).
  intros Q seen res Hb. destruct Q as [|a Q].
  - destruct f; injection Hb as <-; constructor.
  - rewrite <- (app_nil_r (a :: Q)) in Hb.
    destruct (bfs_loop_level _ _ _ _ _ _ Hb) as (Hle & r & -> & Hb'). cbn [app] in Hb'.
    apply bfs_levels_level; [discriminate|].
    cbn [length] in *.
    assert (Hlt : f - S (length Q) < f) by lia.
    refine (bfs_levels_ext _ _ _ _ (IHf _ Hlt _ _ _ Hb') _ _).
    intros x. rewrite !in_app_iff, <- in_rev. tauto.
Qed.

Lemma walk_bfs_levels g root : bfs_levels g [] [root] (walk g Bfs root).
Proof.
  unfold walk, walk_opt. destruct (bfs_terminates g root) as [r Hr]. rewrite Hr.
  exact (bfs_loop_levels _ _ _ _ _ Hr).
Qed.

Lemma bfs_levels_det g s c o : bfs_levels g s c o -> forall o', bfs_levels g s c o' -> o = o'.
Proof.
  induction 1 as [s|s c r Hc _ IH]; intros o' Ho; inversion Ho; subst; try congruence.
  f_equal. apply IH. assumption.
Qed.

Lemma walk_bfs_unique g root l : bfs_levels g [] [root] l -> walk g Bfs root = l.
Proof. intros Hl. exact (bfs_levels_det _ _ _ _ (walk_bfs_levels g root) _ Hl). Qed.
