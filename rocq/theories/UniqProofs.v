(** Proofs about uniqued. *)
From Coq Require Import Reals Lra Lia.
From Verif Require Export UniqSpec.
From Verif Require Import NumR MatProofs GatherProofs EmbedProofs.
Set Default Goal Selector "!".
Local Open Scope nat_scope.

(** ** numpy.unique *)
Lemma in_insert : forall k x l, In x (insert_uniq k l) <-> x = k \/ In x l.
Proof.
  induction l as [|y l IH]; cbn [insert_uniq In].
  - split; [intros [<-|[]]; left; reflexivity | intros [->|[]]; left; reflexivity].
  - destruct (Z.eqb_spec k y) as [->|Hn]; [cbn; split; [tauto | intros [->|H]; [left; reflexivity | exact H]]|].
    destruct (Z.ltb_spec k y); cbn; [split; [intros [<-|H0]; [left; reflexivity | right; exact H0] | intros [->|H0]; [left; reflexivity | right; exact H0]]|]. rewrite IH. tauto.
Qed.
Lemma insert_inc : forall k l, ascending l -> ascending (insert_uniq k l).
Proof.
  intros k l Hl. induction Hl as [|x l Hx Hl IH]; cbn [insert_uniq]; [constructor; constructor|].
  destruct (Z.eqb_spec k x) as [->|Hn]; [constructor; assumption|]. destruct (Z.ltb_spec k x).
  - constructor; [|constructor; assumption]. constructor; [assumption|]. eapply Forall_impl; [|exact Hx]. cbv beta. intros; lia.
  - constructor; [|exact IH]. apply Forall_forall. intros y Hy. apply in_insert in Hy. destruct Hy as [->|Hy]; [lia|]. rewrite Forall_forall in Hx. apply Hx. exact Hy.
Qed.
Lemma unique_ok : forall keys, distinct_keys (np_unique keys) keys.
Proof.
  induction keys as [|k keys [I J]]; [split; [constructor | tauto]|]. split; [apply insert_inc; exact I|].
  intro x. unfold np_unique. cbn [fold_right]. rewrite in_insert. fold (np_unique keys). rewrite J. cbn. split; [intros [->|H]; tauto | intros [->|H]; tauto].
Qed.
Lemma inc_unique : forall a b, ascending a -> ascending b -> (forall k, In k a <-> In k b) -> a = b.
Proof.
  intros a b Ha. revert b. induction Ha as [|x a Hx Ha IH]; intros b Hb H.
  - destruct b as [|y b]; [reflexivity|]. exfalso. apply (H y). left. reflexivity.
  - destruct Hb as [|y b Hy Hb]; [exfalso; apply (H x); left; reflexivity|]. rewrite Forall_forall in Hx, Hy.
    assert (E : x = y). { destruct (proj1 (H x) (or_introl eq_refl)) as [E|E]; [congruence|]. destruct (proj2 (H y) (or_introl eq_refl)) as [E'|E']; [congruence|]. specialize (Hy _ E). specialize (Hx _ E'). lia. }
    subst y. f_equal. apply IH; [exact Hb|]. intro k. split; intro Hk.
    + destruct (proj1 (H k) (or_intror Hk)) as [<-|H']; [specialize (Hx _ Hk); lia | exact H'].
    + destruct (proj2 (H k) (or_intror Hk)) as [<-|H']; [specialize (Hy _ Hk); lia | exact H'].
Qed.
Lemma distinct_is : forall U keys, distinct_keys U keys -> U = np_unique keys.
Proof. intros U keys [I J]. destruct (unique_ok keys) as [I' J']. apply inc_unique; [exact I | exact I' |]. intro k. rewrite J, J'. tauto. Qed.
Lemma inc_nodup : forall l, ascending l -> NoDup l.
Proof. induction 1 as [|x l Hx Hl IH]; constructor; [|exact IH]. intro H. rewrite Forall_forall in Hx. specialize (Hx _ H). lia. Qed.

(** ** positions *)
Lemma index_lt : forall k l, In k l -> index_of k l < length l.
Proof. induction l as [|x l IH]; intros H; [destruct H|]. cbn. destruct (Z.eqb_spec x k); [lia|]. destruct H as [->|H]; [congruence|]. specialize (IH H). lia. Qed.
Lemma index_nth : forall k l d, In k l -> nth (index_of k l) l d = k.
Proof. induction l as [|x l IH]; intros d H; [destruct H|]. cbn. destruct (Z.eqb_spec x k) as [->|Hn]; [reflexivity|]. destruct H as [->|H]; [congruence|]. apply IH. exact H. Qed.
Lemma index_first : forall A (d : A) k l vals, In k l -> length vals = length l -> nth (index_of k l) vals d = hd d (with_key k l vals).
Proof.
  induction l as [|x l IH]; intros vals H L; [destruct H|]. destruct vals as [|v vals]; [discriminate|]. unfold with_key. cbn [index_of combine filter fst].
  destruct (Z.eqb_spec x k) as [->|Hn]; [reflexivity|]. destruct H as [->|H]; [congruence|]. cbn [nth]. apply IH; [exact H | cbn in L; congruence].
Qed.
Lemma index_eq : forall U k t, NoDup U -> t < length U -> In k U -> (index_of k U = t <-> k = nth t U 0%Z).
Proof.
  intros U k t HN Ht Hk. split.
  - intros <-. symmetry. apply index_nth. exact Hk.
  - intros ->. apply (proj1 (NoDup_nth U 0%Z) HN); [apply index_lt; exact Hk | exact Ht | apply index_nth; exact Hk].
Qed.
Lemma with_id_key : forall A U keys (vals : list (list A)) t, NoDup U -> (forall k, In k keys -> In k U) -> t < length U ->
  with_id t (map Z.of_nat (map (fun k => index_of k U) keys)) vals = with_key (nth t U 0%Z) keys vals.
Proof.
  intros A U keys vals t HN Hin Ht. unfold with_id, with_key. revert vals. induction keys as [|k keys IH]; intros vals; [reflexivity|]. destruct vals as [|v vals]; [reflexivity|].
  cbn [map combine filter fst]. assert (Hk : In k U) by (apply Hin; left; reflexivity). pose proof (index_eq U k t HN Ht Hk) as [E1 E2].
  specialize (IH (fun k Hk => Hin k (or_intror Hk)) vals).
  destruct (Z.eqb_spec (Z.of_nat (index_of k U)) (Z.of_nat t)) as [E|E]; destruct (Z.eqb_spec k (nth t U 0%Z)) as [E'|E']; cbn [map snd]; try (rewrite IH; reflexivity); exfalso.
  - apply E'. apply E1. lia.
  - apply E. rewrite (E2 E'). reflexivity.
Qed.
Lemma count_occ_of : forall k l, count_of k l = count_occ Z.eq_dec l k.
Proof. unfold count_of. induction l as [|x l IH]; [reflexivity|]. cbn. destruct (Z.eq_dec x k) as [->|Hn]; [rewrite Z.eqb_refl; cbn; congruence|]. destruct (Z.eqb_spec x k); [congruence | exact IH]. Qed.
Lemma mapM_get : forall A (l : list A) d ps, Forall (fun i => i < length l) ps -> mapM (py_get l) ps = Ok (map (fun i => nth i l d) ps).
Proof.
  intros A l d ps H. induction H as [|i ps Hi H IH]; [reflexivity|]. cbn [mapM map]. unfold py_get at 1. rewrite (nth_error_nth' l d Hi). cbn [bind]. rewrite IH. reflexivity.
Qed.

(** ** d / counts *)
Lemma nth_at : forall A B (f : A -> B) l i d0 d, i < length l -> nth i (map f l) d = f (nth i l d0).
Proof. intros A B f l i d0 d Hi. rewrite nth_indep with (d' := f d0) by (rewrite map_length; exact Hi). apply map_nth. Qed.
Lemma div_counts : forall (d : mat R) (ns : list nat), wf_mat d -> length ns = length (m_rows d) ->
  mbin ndiv d (mkM 1 (map (fun n => [nnat n]) ns)) = Ok (mkM (m_cols d) (map (fun p => map (fun x => x / INR (snd p))%R (fst p)) (combine (m_rows d) ns))).
Proof.
  intros d ns Hw Hl. unfold mbin, mshape_eq. cbn [m_rows m_cols]. rewrite map_length, Hl, Nat.eqb_refl. cbn [andb].
  assert (HI : forall n, nnat n = INR n) by (intro n; unfold nnat; cbn; symmetry; apply INR_IZR_INZ).
  destruct (Nat.eqb_spec (m_cols d) 1) as [E1|E1].
  - rewrite E1. f_equal. f_equal. unfold wf_mat in Hw. rewrite E1 in Hw. revert ns Hl. induction Hw as [|r rows Hr Hw IH]; intros [|n ns] Hl; try discriminate; [reflexivity|].
    cbn [map combine fst snd]. rewrite IH by (cbn in Hl; congruence). destruct r as [|x [|y r]]; try discriminate. cbn. rewrite <- HI. reflexivity.
  - unfold bdim. rewrite Nat.eqb_refl. destruct (Nat.eqb_spec (m_cols d) 1) as [|_]; [congruence|]. rewrite Nat.eqb_refl. f_equal. f_equal.
    apply nth_ext with (d := []) (d' := []); [rewrite !map_length, seq_length, combine_length, Hl; lia|]. intros i Hi. rewrite map_length, seq_length in Hi.
    rewrite (nth_at _ _ _ _ _ 0), seq_nth by (try rewrite seq_length; exact Hi). cbn [plus].
    rewrite (nth_at _ _ _ _ _ ([], 0)), combine_nth by (try symmetry; try rewrite combine_length, Hl; lia || exact Hl). cbn [fst snd].
    assert (Hr : length (nth i (m_rows d) []) = m_cols d) by (unfold wf_mat in Hw; rewrite Forall_forall in Hw; apply Hw; apply nth_In; exact Hi).
    apply nth_ext with (d := 0%R) (d' := 0%R); [rewrite !map_length, seq_length; congruence|]. intros j Hj. rewrite map_length, seq_length in Hj.
    rewrite (nth_at _ _ _ _ _ 0), seq_nth by (try rewrite seq_length; exact Hj). cbn [plus].
    rewrite (nth_at _ _ _ _ _ 0%R) by congruence. unfold bget. cbn [m_cols m_rows]. rewrite Nat.eqb_refl, map_length, Hl.
    destruct (Nat.eqb_spec (m_cols d) 1) as [|_]; [congruence|].
    assert (Ei : (if length (m_rows d) =? 1 then 0 else i) = i) by (destruct (Nat.eqb_spec (length (m_rows d)) 1); lia). rewrite Ei.
    rewrite (nth_at _ _ (fun n => [nnat n]) _ _ 0) by lia. cbn [nth]. rewrite HI. reflexivity.
Qed.

Section Run.
  Context {G : Type} (fast : bool) (L : ulayer (T := R) (G := G)) (column : Z) (X : mat Z) (c : nat).
  Hypothesis Hw : wf_mat X.
  Hypothesis Hs : 2 <= length (m_rows X) * m_cols X.
  Hypothesis Hc : norm_index (m_cols X) column = Some c.
  Let keys := column_of c (m_rows X).
  Let U := np_unique keys.
  Lemma keys_len : length keys = length (m_rows X). Proof. apply map_length. Qed.
  Lemma in_U : forall k, In k keys -> In k U. Proof. intros k. apply (proj2 (unique_ok keys)). Qed.
  Lemma U_nodup : NoDup U. Proof. apply inc_nodup. apply (proj1 (unique_ok keys)). Qed.
  Lemma ind_rows : map (fun i => nth i (m_rows X) []) (map (fun u => index_of u keys) U) = map (fun u => hd [] (with_key u keys (m_rows X))) U.
  Proof. rewrite map_map. apply map_ext_in. intros u Hu. apply index_first; [apply (proj2 (unique_ok keys)); exact Hu | symmetry; apply keys_len]. Qed.
  Lemma inv_lt : Forall (fun i => i < length U) (map (fun k => index_of k U) keys).
  Proof. apply Forall_map. apply Forall_forall. intros k Hk. apply index_lt. apply in_U. exact Hk. Qed.
  Lemma inv_vals : forall A (d : A) vals, length vals = length U -> map (fun i => nth i vals d) (map (fun k => index_of k U) keys) = map (fun k => hd d (with_key k U vals)) keys.
  Proof. intros A d vals Hl. rewrite map_map. apply map_ext_in. intros k Hk. apply index_first; [apply in_U; exact Hk | exact Hl]. Qed.
  Lemma hd_combine : forall A B (da : A) (db : B) k (V : list Z) (a : list A) (b : list B), In k V -> length a = length V -> length b = length V ->
    hd (da, db) (with_key k V (combine a b)) = (hd da (with_key k V a), hd db (with_key k V b)).
  Proof.
    intros A B da db k V a b Hk La Lb. rewrite <- !index_first; [apply combine_nth; congruence | exact Hk | exact Lb | exact Hk | exact La | exact Hk | rewrite combine_length; lia].
  Qed.
  Lemma hd_map : forall A B (f : A -> B) d k (V : list Z) (a : list A), In k V -> length a = length V -> hd (f d) (with_key k V (map f a)) = f (hd d (with_key k V a)).
  Proof. intros A B f d k V a Hk La. rewrite <- !index_first; [apply map_nth | exact Hk | exact La | exact Hk | rewrite map_length; exact La]. Qed.

  Variables (YU : mat R) (b : ucallback (T := R) (G := G)).
  Hypothesis HL : L (mkM (m_cols X) (map (fun u => hd [] (with_key u keys (m_rows X))) U)) = Ok (YU, b).
  Hypothesis HY : length (m_rows YU) = length U.
  Hypothesis Hwy : wf_mat YU.

  Lemma uniq_run : exists b', uniqued fast L column X = Ok (mkM (m_cols YU) (map (fun k => hd [] (with_key k U (m_rows YU))) keys), b') /\
    forall dY g, wf_mat dY -> m_cols dY = m_cols YU -> length (m_rows dY) = length (m_rows X) ->
      let D := mkM (m_cols YU) (map (fun u => colsum (m_cols YU) (with_key u keys (m_rows dY))) U) in
      (forall e, b D g = Err e -> b' dY g = Err e) /\
      (forall d g', b D g = Ok (d, g') -> wf_mat d -> length (m_rows d) = length U ->
        b' dY g = Ok (mkM (m_cols d) (map (fun k => map (fun x => x / INR (count_occ Z.eq_dec keys k))%R (hd [] (with_key k U (m_rows d)))) keys), g')).
  Proof.
    unfold uniqued. destruct (Nat.ltb_spec (length (m_rows X) * m_cols X) 2) as [|_]; [lia|]. rewrite Hc. cbn [bind]. fold (column_of c (m_rows X)). fold keys. fold U. rewrite ind_rows, HL. cbn [bind].
    rewrite (mapM_get _ _ []) by (rewrite HY; apply inv_lt). cbn [bind]. rewrite inv_vals by exact HY. eexists. split; [reflexivity|].
    intros dY g Hd Ed Ld. cbv beta zeta. set (D := mkM (m_cols YU) (map (fun u => colsum (m_cols YU) (with_key u keys (m_rows dY))) U)).
    assert (Hids : ids_in (m_len (mzeros (T := R) (length (m_rows YU)) (m_cols YU))) (map Z.of_nat (map (fun k => index_of k U) keys))).
    { rewrite mzeros_len. apply Forall_map. eapply Forall_impl; [|exact inv_lt]. cbv beta. intros; lia. }
    destruct (scatter_rows fast (mzeros (length (m_rows YU)) (m_cols YU)) dY (map Z.of_nat (map (fun k => index_of k U) keys)) (mzeros_wf _ _) Hd Ed ltac:(unfold m_len; rewrite !map_length, keys_len; exact Ld) Hids) as (D' & R1 & R2 & R3 & R4 & R5).
    rewrite R1. cbn [bind].
    assert (ED : D' = D).
    { destruct D' as [dc dr]. cbn [m_cols m_rows m_len] in *. unfold D. cbn in R2. f_equal; [exact R2|]. rewrite mzeros_len in R3. unfold m_len in R3. cbn [m_rows] in R3.
      apply nth_ext with (d := []) (d' := []); [rewrite map_length; congruence|]. intros t Ht.
      assert (Ht' : t < length U) by (rewrite <- HY, <- R3; exact Ht).
      assert (E0 : nth_error (m_rows (mzeros (T := R) (length (m_rows YU)) (m_cols YU))) t = Some (zeros (m_cols YU))).
      { cbn [m_rows mzeros]. rewrite (nth_error_nth' _ (zeros (m_cols YU))) by (rewrite repeat_length; lia). f_equal. apply nth_repeat. }
      specialize (R5 _ _ E0). rewrite (nth_error_nth _ _ [] R5).
      rewrite nth_indep with (d' := (fun u => colsum (m_cols YU) (with_key u keys (m_rows dY))) 0%Z) by (rewrite map_length; exact Ht').
      rewrite (map_nth (fun u => colsum (m_cols YU) (with_key u keys (m_rows dY)))). rewrite (with_id_key _ U keys (m_rows dY) t U_nodup in_U Ht'). cbn [m_cols mzeros].
      unfold zeros. generalize (colsum_length (m_cols YU) (with_key (nth t U 0%Z) keys (m_rows dY))). generalize (colsum (m_cols YU) (with_key (nth t U 0%Z) keys (m_rows dY))) as v. generalize (m_cols YU) as n. clear.
      induction n as [|n IH]; intros [|x v] Hl; try discriminate; [reflexivity|]. cbn [repeat combine map fst snd]. f_equal; [cbn; lra | apply IH; cbn in Hl; congruence]. }
    rewrite ED. split; [intros e He; rewrite He; reflexivity|]. intros d g' Hb Hwd Hld. rewrite Hb. cbn [bind].
    rewrite div_counts by (try rewrite map_length; congruence). cbn [bind m_rows m_cols].
    rewrite (mapM_get _ _ []) by (rewrite map_length, combine_length, map_length, Hld, Nat.min_id; apply inv_lt). cbn [bind]. f_equal. f_equal. f_equal.
    rewrite inv_vals by (rewrite map_length, combine_length, map_length; lia). apply map_ext_in. intros k Hk.
    change (@nil R) with ((fun p : list R * nat => map (fun x => x / INR (snd p))%R (fst p)) ([], 0)) at 1. rewrite (hd_map _ _ (fun p : list R * nat => map (fun x => x / INR (snd p))%R (fst p)) ([], 0)); [| apply in_U; exact Hk | rewrite combine_length, map_length; lia].
    rewrite hd_combine; [| apply in_U; exact Hk | exact Hld | apply map_length]. cbn [fst snd].
    assert (E : hd 0 (with_key k U (map (fun u => count_of u keys) U)) = count_occ Z.eq_dec keys k).
    { rewrite <- index_first; [| apply in_U; exact Hk | apply map_length]. rewrite nth_indep with (d' := (fun u => count_of u keys) 0%Z) by (rewrite map_length; apply index_lt; apply in_U; exact Hk).
      rewrite (map_nth (fun u => count_of u keys)), index_nth by (apply in_U; exact Hk). apply count_occ_of. }
    rewrite E. reflexivity.
  Qed.
End Run.

(** ** grouping by keys *)
Lemma with_key_cons : forall A k x keys (v : A) vals, with_key k (x :: keys) (v :: vals) = if Z.eqb x k then v :: with_key k keys vals else with_key k keys vals.
Proof. intros. unfold with_key. cbn [combine filter fst]. destruct (Z.eqb x k); reflexivity. Qed.
Lemma msum_only : forall U k (r : Z -> R), NoDup U -> In k U -> msum (map (fun u => if Z.eqb k u then r u else 0%R) U) = r k.
Proof.
  intros U k r HN Hin. induction HN as [|x U Hx HN IH]; [destruct Hin|]. cbn [map]. rewrite msum_cons. destruct (Z.eqb_spec k x) as [->|Hn].
  - rewrite (msum_ext_in _ (fun _ => 0%R)); [rewrite msum_zero; lra|]. intros y Hy. destruct (Z.eqb_spec x y); [subst; contradiction | reflexivity].
  - destruct Hin as [->|Hin]; [congruence|]. rewrite IH by exact Hin. lra.
Qed.
Lemma group_sum : forall A (h : Z -> A -> R) U keys (vals : list A), NoDup U -> (forall k, In k keys -> In k U) ->
  msum (map (fun u => msum (map (h u) (with_key u keys vals))) U) = msum (map (fun p => h (fst p) (snd p)) (combine keys vals)).
Proof.
  intros A h U keys vals HN. revert vals. induction keys as [|k keys IH]; intros vals Hin.
  - cbn. apply msum_zero.
  - destruct vals as [|v vals]; [unfold with_key; cbn; apply msum_zero|]. cbn [combine map fst snd]. rewrite msum_cons, <- IH by (intros x Hx; apply Hin; right; exact Hx).
    rewrite <- (msum_only U k (fun u => h u v) HN (Hin k (or_introl eq_refl))), <- msum_plus. apply msum_ext_in. intros u _. rewrite with_key_cons.
    destruct (Z.eqb k u); cbn [map]; [rewrite msum_cons; reflexivity | lra].
Qed.
Lemma with_key_pairs : forall A B (f : Z * A -> B) k keys (vals : list A), with_key k keys (map f (combine keys vals)) = map (fun v => f (k, v)) (with_key k keys vals).
Proof.
  intros A B f k. induction keys as [|x keys IH]; intros vals; [reflexivity|]. destruct vals as [|v vals]; [unfold with_key; cbn; reflexivity|].
  cbn [combine map]. rewrite !with_key_cons, IH. destruct (Z.eqb_spec x k) as [->|]; reflexivity.
Qed.
Lemma with_key_sub : forall A (P : A -> Prop) k keys vals, Forall P vals -> Forall P (with_key k keys vals).
Proof.
  intros A P k keys vals H. apply Forall_forall. intros v Hv. unfold with_key in Hv. apply in_map_iff in Hv. destruct Hv as [[x y] [<- Hp]]. apply filter_In in Hp. destruct Hp as [Hp _].
  apply in_combine_r in Hp. rewrite Forall_forall in H. apply H. exact Hp.
Qed.
Lemma with_key_first : forall k c (rows : list (list Z)), In k (column_of c rows) -> nth c (hd [] (with_key k (column_of c rows) rows)) 0%Z = k /\ In (hd [] (with_key k (column_of c rows) rows)) rows.
Proof.
  intros k c rows. induction rows as [|r rows IH]; intros Hin; [destruct Hin|]. cbn [column_of map]. rewrite with_key_cons. destruct (Z.eqb_spec (nth c r 0%Z) k) as [E|E]; [split; [exact E | left; reflexivity]|].
  cbn in Hin. destruct Hin as [Hin|Hin]; [congruence|]. destruct (IH Hin) as [I1 I2]. split; [exact I1 | right; exact I2].
Qed.

(** ** The theorems *)
Lemma uniqued_run : forall G fast (L : ulayer (T := R) (G := G)) column X c U YU b, wf_mat X -> 2 <= length (m_rows X) * m_cols X -> norm_index (m_cols X) column = Some c ->
  let keys := column_of c (m_rows X) in distinct_keys U keys ->
  L (mkM (m_cols X) (map (fun u => hd [] (with_key u keys (m_rows X))) U)) = Ok (YU, b) -> length (m_rows YU) = length U -> wf_mat YU ->
  exists b', uniqued fast L column X = Ok (mkM (m_cols YU) (map (fun k => hd [] (with_key k U (m_rows YU))) keys), b') /\
    forall dY g, wf_mat dY -> m_cols dY = m_cols YU -> length (m_rows dY) = length (m_rows X) ->
      let D := mkM (m_cols YU) (map (fun u => colsum (m_cols YU) (with_key u keys (m_rows dY))) U) in
      (forall e, b D g = Err e -> b' dY g = Err e) /\
      (forall d g', b D g = Ok (d, g') -> wf_mat d -> length (m_rows d) = length U ->
        b' dY g = Ok (mkM (m_cols d) (map (fun k => map (fun x => x / INR (count_occ Z.eq_dec keys k))%R (hd [] (with_key k U (m_rows d)))) keys), g')).
Proof.
  intros G fast L column X c U YU b Hw Hs Hc keys HU HL HY Hwy. pose proof (distinct_is _ _ HU) as ->. exact (uniq_run fast L column X c Hs Hc YU b HL HY).
Qed.
Lemma wf_rows : forall T (X : mat T) w, wf_mat X -> m_cols X = w -> Forall (fun r => length r = w) (m_rows X).
Proof. intros T X w H <-. exact H. Qed.
Lemma uniqued_rowwise : forall T (N : Num T) G fast (L : ulayer (T := T) (G := G)) column X c nO f, wf_mat X -> 2 <= length (m_rows X) * m_cols X -> norm_index (m_cols X) column = Some c ->
  let keys := column_of c (m_rows X) in rowwise L (m_cols X) nO f ->
  exists b, uniqued fast L column X = Ok (mkM nO (map (fun k => f (hd [] (with_key k keys (m_rows X)))) keys), b).
Proof.
  intros T N G fast L column X c nO f Hw Hs Hc keys HL. unfold uniqued. destruct (Nat.ltb_spec (length (m_rows X) * m_cols X) 2) as [|_]; [lia|]. rewrite Hc. cbn [bind].
  fold (column_of c (m_rows X)). fold keys. unfold keys at 1 2. rewrite (ind_rows X c). fold keys.
  destruct (HL (map (fun u => hd [] (with_key u keys (m_rows X))) (np_unique keys))) as [b Hb].
  { apply Forall_map. apply Forall_forall. intros u Hu. unfold wf_mat in Hw. rewrite Forall_forall in Hw. apply Hw. apply with_key_first. apply (proj2 (unique_ok keys)). exact Hu. }
  rewrite Hb. cbn [bind m_rows m_cols]. rewrite (mapM_get _ _ []) by (rewrite !map_length; apply (inv_lt X c)). cbn [bind].
  match goal with |- exists b, Ok (mkM _ ?a, _) = _ => assert (E : a = map (fun k => f (hd [] (with_key k keys (m_rows X)))) keys) end; [|rewrite E; eexists; reflexivity].
  unfold keys at 1. rewrite (inv_vals X c) by (rewrite !map_length; reflexivity). fold keys. apply map_ext_in. intros k Hk.
  assert (Hk' : In k (np_unique keys)) by (apply (proj2 (unique_ok keys)); exact Hk).
  rewrite <- index_first by (exact Hk' || (rewrite !map_length; reflexivity)). rewrite map_map.
  rewrite (nth_at _ _ (fun u => f (hd [] (with_key u keys (m_rows X)))) (np_unique keys) _ 0%Z) by (apply index_lt; exact Hk'). rewrite index_nth by exact Hk'. reflexivity.
Qed.
Lemma uniqued_small : forall T (N : Num T) G fast (L : ulayer (T := T) (G := G)) column X, length (m_rows X) * m_cols X < 2 -> uniqued fast L column X = L X.
Proof. intros T N G fast L column X H. unfold uniqued. destruct (Nat.ltb_spec (length (m_rows X) * m_cols X) 2); [reflexivity | lia]. Qed.

Local Open Scope R_scope.
Lemma colsum_single : forall w (r : list R), length r = w -> colsum w [r] = r.
Proof.
  intros w r Hr. rewrite (vec_of_len 0 w r Hr) at 2. unfold colsum, vec. apply map_ext. intro j. cbn. lra.
Qed.
Lemma colsum_linear : forall nO w (B : list (list R)) rows, length B = w -> Forall (fun e => length e = nO) B -> Forall (fun r => length r = nO) rows ->
  colsum w (map (fun dy => map (fun e => dot e dy) B) rows) = map (fun e => dot e (colsum nO rows)) B.
Proof.
  intros nO w B rows HB He Hr. symmetry. rewrite (vec_of_len [] w B HB) at 1. symmetry. unfold colsum at 1. unfold vec. rewrite map_map. apply map_ext_in. intros j Hj. apply in_seq in Hj.
  rewrite dot_colsum; [| rewrite Forall_forall in He; apply He; apply nth_In; lia | exact Hr]. unfold col. rewrite map_map. apply msum_ext_in. intros dy _.
  rewrite (nth_at _ _ (fun e => dot e dy) B j []) by lia. reflexivity.
Qed.
Lemma uniqued_keyed : forall fast L column X c nO np f J B, keyed L c (m_cols X) nO np f J B -> wf_mat X -> norm_index (m_cols X) column = Some c ->
  (forall k, length (f k) = nO) -> (forall k, Forall (fun e => length e = nO) (B k) /\ length (B k) = m_cols X) -> (forall k, Forall (fun e => length e = nO) (J k) /\ length (J k) = np) ->
  let keys := column_of c (m_rows X) in
  exists Y b b', L X = Ok (Y, b) /\ uniqued fast L column X = Ok (Y, b') /\
    forall dY g, wf_mat dY -> m_cols dY = nO -> length (m_rows dY) = length (m_rows X) -> length g = np ->
    exists dX g', b dY g = Ok (dX, g') /\
      b' dY g = Ok (mkM (m_cols X) (map (fun k => map (fun x => x / INR (count_occ Z.eq_dec keys k)) (colsum (m_cols X) (with_key k keys (m_rows dX)))) keys), g').
Proof.
  intros fast L column X c nO np f J B HK Hw Hc Hf HB HJ keys.
  destruct (HK (m_rows X) Hw) as [b [Hb Cb]]. assert (EX : mkM (m_cols X) (m_rows X) = X) by (destruct X; reflexivity). rewrite EX in Hb.
  assert (Hcw : (1 <= m_cols X)%nat). { unfold norm_index in Hc. destruct (m_cols X); [|lia]. cbn in Hc. destruct (Z.ltb_spec column 0); [destruct (Z.leb_spec 0 (column + 0)); [lia | discriminate]|]. destruct (Z.ltb_spec column 0); [lia | discriminate]. }
  destruct (Nat.ltb_spec (length (m_rows X) * m_cols X) 2) as [Hs|Hs].
  - exists (mkM nO (map (fun r => f (nth c r 0%Z)) (m_rows X))), b, b. split; [exact Hb|]. split; [rewrite uniqued_small by exact Hs; exact Hb|].
    intros dY g Hd Ed Ld Hg. rewrite Cb by assumption. eexists. eexists. split; [reflexivity|]. cbn [m_rows]. fold keys. f_equal. f_equal. f_equal.
    unfold keys. destruct (m_rows X) as [|r [|r' rows]]; [reflexivity | | cbn [length] in Hs; nia]. destruct (m_rows dY) as [|dy [|dy' dys]]; try discriminate.
    cbn [column_of map combine fst snd count_occ]. rewrite with_key_cons, Z.eqb_refl. destruct (Z.eq_dec (nth c r 0%Z) (nth c r 0%Z)) as [_|n]; [|congruence].
    change (with_key (nth c r 0%Z) [] (@nil (list R))) with (@nil (list R)). rewrite colsum_single by (rewrite map_length; apply HB). f_equal.
    rewrite <- (map_id (map _ _)) at 1. apply map_ext. intro x. cbn. lra.
  - set (U := np_unique keys). pose proof (unique_ok keys) as HU. fold U in HU.
    assert (Hin : forall k, In k keys -> In k U) by (intros k Hk; apply (proj2 HU); exact Hk).
    assert (HN : NoDup U) by (apply inc_nodup; apply (proj1 HU)).
    destruct (HK (map (fun u => hd [] (with_key u keys (m_rows X))) U)) as [bu [Hbu Cbu]].
    { apply Forall_map. apply Forall_forall. intros u Hu. unfold wf_mat in Hw. rewrite Forall_forall in Hw. apply Hw. apply with_key_first. apply (proj2 HU). exact Hu. }
    assert (EU : column_of c (map (fun u => hd [] (with_key u keys (m_rows X))) U) = U).
    { unfold column_of. rewrite map_map. rewrite <- (map_id U) at 2. apply map_ext_in. intros u Hu. apply (with_key_first u c (m_rows X)). apply (proj2 HU). exact Hu. }
    assert (EY : map (fun r => f (nth c r 0%Z)) (map (fun u => hd [] (with_key u keys (m_rows X))) U) = map f U).
    { change (map (fun r => f (nth c r 0%Z)) (map (fun u => hd [] (with_key u keys (m_rows X))) U)) with (map (fun r : list Z => f ((fun r => nth c r 0%Z) r)) (map (fun u => hd [] (with_key u keys (m_rows X))) U)). rewrite <- (map_map (fun r => nth c r 0%Z) f). fold (column_of c (map (fun u => hd [] (with_key u keys (m_rows X))) U)). rewrite EU. reflexivity. }
    rewrite EY in Hbu. rewrite EU in Cbu. rewrite map_length in Cbu.
    destruct (uniqued_run _ fast L column X c U _ bu Hw Hs Hc HU Hbu) as [b' [Hb' Cb']].
    { cbn. apply map_length. }
    { unfold wf_mat. cbn. apply Forall_map. apply Forall_forall. intros u _. apply Hf. }
    fold keys in Hb', Cb'. cbn [m_rows m_cols] in Hb', Cb'.
    exists (mkM nO (map (fun r => f (nth c r 0%Z)) (m_rows X))), b, b'. split; [exact Hb|]. split.
    { rewrite Hb'. f_equal. f_equal. f_equal. unfold keys at 1, column_of. rewrite map_map. apply map_ext_in. intros r Hr.
      assert (Hk : In (nth c r 0%Z) U) by (apply Hin; unfold keys, column_of; apply in_map_iff; exists r; split; [reflexivity | exact Hr]).
      rewrite <- index_first; [| exact Hk | apply map_length]. rewrite (nth_at _ _ f U _ 0%Z) by (apply index_lt; exact Hk). rewrite index_nth by exact Hk. reflexivity. }
    intros dY g Hd Ed Ld Hg. rewrite Cb by assumption. eexists. eexists. split; [reflexivity|]. cbn [m_rows]. fold keys.
    assert (Hrows : Forall (fun r => length r = nO) (m_rows dY)) by (apply wf_rows; assumption).
    destruct (Cb' dY g Hd Ed Ld) as [_ C]. rewrite (C _ _ (Cbu (mkM nO (map (fun u => colsum nO (with_key u keys (m_rows dY))) U)) g eq_refl ltac:(cbn; apply map_length) ltac:(unfold wf_mat; cbn; apply Forall_map; apply Forall_forall; intros u _; apply colsum_length) Hg)).
    + cbn [m_cols m_rows]. f_equal. f_equal.
      * f_equal. apply map_ext_in. intros k Hk. f_equal. pose proof (Hin k Hk) as Hku.
        assert (E1 : forall V l, with_key k V (map (fun p => map (fun e => dot e (snd p)) (B (fst p))) (combine V l)) = map (fun v => map (fun e => dot e v) (B k)) (with_key k V l)) by (intros V l; apply (with_key_pairs _ _ (fun p => map (fun e => dot e (snd p)) (B (fst p))))).
        rewrite !E1.
        rewrite (colsum_linear nO _ _ _ (proj2 (HB k)) (proj1 (HB k)) (with_key_sub _ (fun r => length r = nO) k keys _ Hrows)).
        assert (E2 : with_key k U (map (fun u => colsum nO (with_key u keys (m_rows dY))) U) = [colsum nO (with_key k keys (m_rows dY))]).
        { clear - HN Hku. induction HN as [|x U Hx HN IH]; [destruct Hku|]. cbn [map]. rewrite with_key_cons. destruct (Z.eqb_spec x k) as [->|Hn].
          - f_equal. assert (E : forall V : list Z, ~ In k V -> with_key k V (map (fun u => colsum nO (with_key u keys (m_rows dY))) V) = []).
            { induction V as [|y V IHV]; intro HV; [reflexivity|]. cbn [map]. rewrite with_key_cons. destruct (Z.eqb_spec y k) as [->|]; [exfalso; apply HV; left; reflexivity|]. apply IHV. intro; apply HV; right; assumption. }
            apply E. exact Hx.
          - apply IH. destruct Hku as [->|H]; [congruence | exact H]. }
        rewrite E2. reflexivity.
      * apply map_ext_in. intros i Hi. apply in_seq in Hi. f_equal.
        rewrite <- (group_sum _ (fun k dy => dot (nth i (J k) []) dy) U keys (m_rows dY) HN Hin).
        assert (E : combine U (map (fun u => colsum nO (with_key u keys (m_rows dY))) U) = map (fun u => (u, colsum nO (with_key u keys (m_rows dY)))) U) by (clear; induction U as [|x U IH]; [reflexivity | cbn; rewrite IH; reflexivity]).
        rewrite E, map_map. cbn [fst snd]. apply msum_ext_in. intros u _. apply dot_colsum; [| apply (with_key_sub _ (fun r => length r = nO)); exact Hrows].
        destruct (HJ u) as [J1 J2]. rewrite Forall_forall in J1. apply J1. apply nth_In. lia.
    + unfold wf_mat. cbn. apply Forall_map. apply Forall_forall. intros p _. rewrite map_length. apply HB.
    + cbn. rewrite map_length, combine_length, map_length, Nat.min_id. reflexivity.
Qed.
Lemma keyed_layer_ok : forall c w nO np f J B, keyed (keyed_layer c w nO np f J B) c w nO np f J B.
Proof. intros c w nO np f J B rows Hr. eexists. split; [reflexivity|]. intros dY g _ _ _ _. reflexivity. Qed.
