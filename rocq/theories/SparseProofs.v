From Verif Require Import BaseFacts SparseSpec SeqProofs PaddedProofs PackProofs AdaptProofs MatProofs ReduceProofs ReduceMaxProofs KernelProofs GatherProofs.
Set Default Goal Selector "!".
Local Open Scope R_scope.

Lemma murmur_range key seed : (0 <= murmur32 key seed < 2 ^ 32)%Z.
Proof. unfold murmur32. cbv zeta. unfold xor32 at 1, w32. apply Z.mod_pos_bound. lia. Qed.
Lemma land_le a b : (0 <= a)%Z -> (0 <= b)%Z -> (0 <= Z.land a b <= b)%Z.
Proof.
  intros Ha Hb. split; [apply Z.land_nonneg; now right|]. rewrite Z.land_comm.
  assert (E : (b = Z.land b a + Z.land b (Z.lnot a))%Z).
  { rewrite Z.add_nocarry_lxor.
    - apply Z.bits_inj'. intros n Hn. rewrite Z.lxor_spec, !Z.land_spec, Z.lnot_spec by exact Hn. destruct (Z.testbit b n), (Z.testbit a n); reflexivity.
    - apply Z.bits_inj'. intros n Hn. rewrite !Z.land_spec, Z.lnot_spec, Z.bits_0 by exact Hn. destruct (Z.testbit b n), (Z.testbit a n); reflexivity. }
  assert (0 <= Z.land b (Z.lnot a))%Z by (apply Z.land_nonneg; now left). lia.
Qed.
Lemma peek_ok {A} (d : A) l i : (i < length l)%nat -> peek l (Z.of_nat i) = Ok (nth i l d).
Proof. intros Hi. unfold peek. destruct (Z.ltb_spec (Z.of_nat i) 0); [lia|]. rewrite Nat2Z.id, (nth_error_nth' l d Hi). reflexivity. Qed.

Lemma vec_S {A} n (f : nat -> A) : vec (S n) f = f 0%nat :: vec n (fun i => f (S i)).
Proof. unfold vec. cbn [seq map]. now rewrite <- seq_shift, map_map. Qed.

Section S.
  Variables (v1 : bool) (L nO : nat).
  Hypothesis HL : L <> 0%nat.
  Hypothesis HO : nO <> 0%nat.
  Hypothesis Hbig : (Z.of_nat (nO * L) <= 2 ^ 31)%Z.

  Lemma slot_range c key seed : (c < nO)%nat -> (slot v1 L c key seed < nO * L)%nat.
  Proof.
    intros Hc. unfold slot. pose proof (murmur_range key seed) as Hm. destruct v1.
    - pose proof (land_le (murmur32 key seed) (Z.of_nat L - 1) ltac:(lia) ltac:(lia)). assert (Z.to_nat (Z.land (murmur32 key seed) (Z.of_nat L - 1)) <= L - 1)%nat by lia. nia.
    - pose proof (Z.mod_pos_bound (murmur32 key seed) (Z.of_nat L) ltac:(lia)). assert (Z.to_nat (murmur32 key seed mod Z.of_nat L) < L)%nat by lia. nia.
  Qed.
  Lemma slot_v1 c key seed : v1 = true -> (slot v1 L c key seed < L + c)%nat.
  Proof. intros ->. unfold slot. pose proof (murmur_range key seed) as Hm. pose proof (land_le (murmur32 key seed) (Z.of_nat L - 1) ltac:(lia) ltac:(lia)). lia. Qed.
  Lemma index_ok key seed :
    exists idx, key_index v1 (Z.of_nat L) key seed = Ok idx /\ forall c, (c < nO)%nat -> weight_index v1 (Z.of_nat L) idx (Z.of_nat c) = Z.of_nat (slot v1 L c key seed).
  Proof.
    pose proof (murmur_range key seed) as Hm. assert (HLb : (Z.of_nat L <= 2 ^ 31)%Z) by nia. unfold key_index.
    assert (W1 : w32 (Z.of_nat L) = Z.of_nat L) by (apply Z.mod_small; lia). assert (W2 : w32 (Z.of_nat L - 1) = (Z.of_nat L - 1)%Z) by (apply Z.mod_small; lia). rewrite W1, W2.
    pose proof (fun c => slot_range c key seed) as Hs. unfold slot in *. unfold weight_index. destruct v1.
    - eexists. split; [reflexivity|]. intros c Hc. specialize (Hs c Hc). pose proof (land_le (murmur32 key seed) (Z.of_nat L - 1) ltac:(lia) ltac:(lia)).
      unfold w32. rewrite Z.mod_small; lia.
    - destruct (Z.eqb_spec (Z.of_nat L) 0) as [|_]; [lia|]. eexists. split; [reflexivity|]. intros c Hc. specialize (Hs c Hc). pose proof (Z.mod_pos_bound (murmur32 key seed) (Z.of_nat L) ltac:(lia)).
      unfold w32. rewrite Z.mod_small; nia.
  Qed.

  Lemma add_feature_ok (W : list R) key value (s : nat -> R) : length W = (nO * L)%nat ->
    add_feature v1 (Z.of_nat L) W key value (vec nO s) = Ok (vec nO (fun c => s c + score_of v1 L c W (key, value))).
  Proof.
    intros LW. unfold add_feature. destruct (index_ok key 0) as (i1 & -> & E1). destruct (index_ok key 1) as (i2 & -> & E2). cbn [bind]. rewrite vec_length.
    assert (Q : combine (seq 0 nO) (vec nO s) = vec nO (fun c => (c, s c))). { rewrite <- (combine_vec nO (fun c => c) s). f_equal. unfold vec. now rewrite map_id. }
    rewrite Q. rewrite (mapM_ok_map _ (fun p => snd p + score_of v1 L (fst p) W (key, value))); [now rewrite map_vec|].
    intros p Hp. unfold vec in Hp. apply in_map_iff in Hp as (c & <- & Hc). apply in_seq in Hc. cbn [fst snd]. rewrite E1, E2 by lia.
    rewrite (peek_ok 0), (peek_ok 0) by (rewrite LW; apply slot_range; lia). cbn [bind]. unfold score_of. cbn [fst snd nadd nmul num_R]. f_equal. lra.
  Qed.

  Section Data.
    Variables (keys : list Z) (values : list R).
    Definition feat (i : nat) : Z * R := (nth i keys 0%Z, nth i values 0).
    Definition feats (pos n : nat) : list (Z * R) := map feat (seq pos n).
    Lemma add_features_ok (W : list R) n : forall pos s, length W = (nO * L)%nat -> (pos + n <= length keys)%nat -> (pos + n <= length values)%nat ->
      add_features v1 (Z.of_nat L) W keys values (Z.of_nat pos) n (vec nO s) = Ok (vec nO (fun c => s c + msum (map (score_of v1 L c W) (feats pos n)))).
    Proof.
      induction n as [|n IH]; intros pos s LW Hk Hv.
      - cbn [add_features feats seq map]. f_equal. apply vec_ext. intros c _. change (msum []) with 0. lra.
      - cbn [add_features]. rewrite (peek_ok 0%Z), (peek_ok 0) by lia. cbn [bind]. rewrite add_feature_ok by exact LW. cbn [bind]. replace (Z.of_nat pos + 1)%Z with (Z.of_nat (S pos)) by lia.
        rewrite IH by (try assumption; lia). f_equal. apply vec_ext. intros c _. unfold feats. cbn [seq map]. rewrite msum_cons. unfold feat at 2. lra.
    Qed.
    Lemma feats_chop n : forall pos, (pos + n <= length keys)%nat -> (pos + n <= length values)%nat -> firstn n (skipn pos (combine keys values)) = feats pos n.
    Proof.
      intros pos Hk Hv. apply nth_error_ext. intros i. destruct (Nat.lt_ge_cases i n) as [Hi|Hi].
      - rewrite nth_error_firstn by exact Hi. rewrite nth_error_skipn. unfold feats. rewrite nth_error_map, (nth_error_nth' (seq pos n) 0%nat) by (rewrite seq_length; exact Hi). rewrite seq_nth by exact Hi. cbn.
        apply nth_error_combine; unfold feat; apply nth_error_nth'; lia.
      - rewrite !(proj2 (nth_error_None _ _)); [reflexivity | unfold feats; rewrite map_length, seq_length; exact Hi | rewrite firstn_length; lia].
    Qed.
    Lemma set_scores_ok (W b : list R) lengths : forall pos, length W = (nO * L)%nat -> length b = nO -> nonneg lengths ->
      (Z.of_nat pos + zsum lengths <= Z.of_nat (length keys))%Z -> (Z.of_nat pos + zsum lengths <= Z.of_nat (length values))%Z ->
      set_scores v1 (Z.of_nat L) W keys values (Z.of_nat pos) lengths b =
      Ok (map (fun e => vec nO (fun c => nth c b 0 + msum (map (score_of v1 L c W) e))) (chop (map Z.to_nat lengths) (skipn pos (combine keys values)))).
    Proof.
      induction lengths as [|len lengths IH]; intros pos LW Lb Hn Hk Hv; [reflexivity|]. apply Forall_cons_iff in Hn as [H1 H2]. change (zsum (len :: lengths)) with (len + zsum lengths)%Z in *.
      pose proof (zsum_nonneg lengths H2) as Hz. cbn [set_scores map chop]. rewrite (vec_of_len 0 nO b Lb) at 1. rewrite add_features_ok by (try assumption; lia). cbn [bind].
      replace (Z.of_nat pos + len)%Z with (Z.of_nat (pos + Z.to_nat len)) by lia. rewrite IH by (try assumption; lia). cbn [bind]. rewrite feats_chop by lia. rewrite skipn_skipn. reflexivity.
    Qed.

    (** ** Gradient *)
    Lemma add_weight_ok (d : list R) i x : (i < length d)%nat -> add_weight d (Z.of_nat i) x = Ok (set_nth i (nth i d 0 + x) d).
    Proof. intros Hi. unfold add_weight. rewrite (peek_ok 0) by exact Hi. cbn [bind]. now rewrite Nat2Z.id. Qed.
    Lemma dot_set i x : forall d W : list R, (i < length d)%nat -> length W = length d -> dot (set_nth i (nth i d 0 + x) d) W = dot d W + x * nth i W 0.
    Proof.
      induction i as [|i IH]; intros [|y d] [|w W] Hi E; cbn [length] in *; try lia; cbn [set_nth nth]; rewrite !dot_cons; [lra|]. rewrite IH by lia. lra.
    Qed.
    Lemma grad_classes_ok (W : list R) idx1 idx2 key value ds off n : forall clas d,
      (forall c, (c < nO)%nat -> weight_index v1 (Z.of_nat L) idx1 (Z.of_nat c) = Z.of_nat (slot v1 L c key 0)) ->
      (forall c, (c < nO)%nat -> weight_index v1 (Z.of_nat L) idx2 (Z.of_nat c) = Z.of_nat (slot v1 L c key 1)) ->
      (clas + n = nO)%nat -> length d = (nO * L)%nat -> length W = (nO * L)%nat -> (off + nO <= length ds)%nat ->
      exists d', grad_classes v1 (Z.of_nat L) idx1 idx2 value ds (Z.of_nat off) clas n d = Ok d' /\ length d' = length d /\
        dot d' W = dot d W + msum (map (fun c => nth (off + c) ds 0 * score_of v1 L c W (key, value)) (seq clas n)).
    Proof.
      induction n as [|n IH]; intros clas d E1 E2 Hn Ld LW Ho.
      - exists d. split; [reflexivity|]. split; [reflexivity|]. cbn [seq map]. change (msum []) with 0. lra.
      - cbn [grad_classes]. replace (Z.of_nat off + Z.of_nat clas)%Z with (Z.of_nat (off + clas)) by lia. rewrite (peek_ok 0) by lia. cbn [bind].
        pose proof (slot_range clas key 0 ltac:(lia)) as R1. pose proof (slot_range clas key 1 ltac:(lia)) as R2.
        rewrite E1, E2 by lia. rewrite add_weight_ok by lia. cbn [bind]. rewrite add_weight_ok by (rewrite set_nth_length; lia). cbn [bind].
        match goal with |- exists _, grad_classes _ _ _ _ _ _ _ _ _ ?d2 = _ /\ _ => set (D2 := d2) end.
        assert (LD : length D2 = length d) by (unfold D2; now rewrite !set_nth_length). destruct (IH (S clas) D2 E1 E2 ltac:(lia) ltac:(lia) LW Ho) as (d' & G1 & G2 & G3).
        exists d'. split; [exact G1|]. split; [lia|]. rewrite G3. unfold D2. rewrite !dot_set by (rewrite ?set_nth_length; lia). cbn [seq map]. rewrite msum_cons. unfold score_of at 2. cbn [fst snd nmul num_R]. lra.
    Qed.
    Lemma grad_features_ok (W ds : list R) off n : forall pos d, length d = (nO * L)%nat -> length W = (nO * L)%nat -> (off + nO <= length ds)%nat ->
      (pos + n <= length keys)%nat -> (pos + n <= length values)%nat ->
      exists d', grad_features v1 (Z.of_nat L) (Z.of_nat nO) keys values ds (Z.of_nat off) (Z.of_nat pos) n d = Ok d' /\ length d' = length d /\
        dot d' W = dot d W + msum (map (fun f => msum (map (fun c => nth (off + c) ds 0 * score_of v1 L c W f) (seq 0 nO))) (feats pos n)).
    Proof.
      induction n as [|n IH]; intros pos d Ld LW Ho Hk Hv.
      - exists d. split; [reflexivity|]. split; [reflexivity|]. cbn. lra.
      - cbn [grad_features]. rewrite (peek_ok 0%Z) by lia. cbn [bind]. destruct (index_ok (nth pos keys 0%Z) 0) as (i1 & -> & E1). destruct (index_ok (nth pos keys 0%Z) 1) as (i2 & -> & E2). cbn [bind].
        rewrite (peek_ok 0) by lia. cbn [bind]. rewrite Nat2Z.id. destruct (grad_classes_ok W i1 i2 (nth pos keys 0%Z) (nth pos values 0) ds off nO 0 d E1 E2 eq_refl Ld LW Ho) as (d1 & -> & L1 & D1). cbn [bind].
        replace (Z.of_nat pos + 1)%Z with (Z.of_nat (S pos)) by lia. destruct (IH (S pos) d1 ltac:(lia) LW Ho ltac:(lia) ltac:(lia)) as (d' & -> & L2 & D2). exists d'. split; [reflexivity|]. split; [lia|].
        rewrite D2, D1. unfold feats. cbn [seq map]. rewrite msum_cons. fold (feats (S pos) n). unfold feat. cbn [Nat.add]. lra.
    Qed.
    Lemma set_gradient_ok (W ds : list R) lengths : forall off pos d, length d = (nO * L)%nat -> length W = (nO * L)%nat -> nonneg lengths -> (off + length lengths * nO <= length ds)%nat ->
      (Z.of_nat pos + zsum lengths <= Z.of_nat (length keys))%Z -> (Z.of_nat pos + zsum lengths <= Z.of_nat (length values))%Z ->
      exists d', set_gradient v1 (Z.of_nat L) (Z.of_nat nO) keys values ds (Z.of_nat off) (Z.of_nat pos) lengths d = Ok d' /\ length d' = length d /\
        dot d' W = dot d W + mdot (vec (length lengths) (fun i => vec nO (fun c => nth (off + i * nO + c) ds 0)))
                               (map (fun e => vec nO (fun c => msum (map (score_of v1 L c W) e))) (chop (map Z.to_nat lengths) (skipn pos (combine keys values)))).
    Proof.
      induction lengths as [|len lengths IH]; intros off pos d Ld LW Hn Ho Hk Hv.
      - exists d. split; [reflexivity|]. split; [reflexivity|]. change (vec (length []) ?f) with (@nil (list R)). rewrite mdot_nil_l. lra.
      - apply Forall_cons_iff in Hn as [H1 H2]. change (zsum (len :: lengths)) with (len + zsum lengths)%Z in *. pose proof (zsum_nonneg lengths H2) as Hz. cbn [length] in Ho. cbn [set_gradient].
        destruct (grad_features_ok W ds off (Z.to_nat len) pos d Ld LW ltac:(lia) ltac:(lia) ltac:(lia)) as (d1 & -> & L1 & D1). cbn [bind].
        replace (Z.of_nat off + Z.of_nat nO)%Z with (Z.of_nat (off + nO)) by lia. replace (Z.of_nat pos + len)%Z with (Z.of_nat (pos + Z.to_nat len)) by lia.
        destruct (IH (off + nO)%nat (pos + Z.to_nat len)%nat d1 ltac:(lia) LW H2 ltac:(lia) ltac:(lia) ltac:(lia)) as (d' & -> & L2 & D2). exists d'. split; [reflexivity|]. split; [lia|].
        rewrite D2, D1. cbn [map chop length]. rewrite skipn_skipn, feats_chop by lia. rewrite vec_S, mdot_cons, dot_vec. rewrite <- Rplus_assoc. f_equal.
        + f_equal. rewrite msum_swap. unfold vec. f_equal. apply map_ext. intros c. rewrite msum_scale. do 2 f_equal. lia.
        + f_equal. apply vec_ext. intros i Hi. apply vec_ext. intros c Hc. f_equal. lia.
    Qed.
  End Data.
End S.

Lemma bias_row_ok (r : list R) : forall pre d, length r = length d -> bias_row (length pre) r (pre ++ d) = Ok (pre ++ map (fun p => fst p + snd p) (combine d r)).
Proof.
  induction r as [|x r IH]; intros pre [|y d] E; try discriminate; [cbn; reflexivity|]. cbn [bias_row]. rewrite nth_error_app2, Nat.sub_diag by lia. cbn [nth_error].
  pose proof (set_nth_app2 (y + x) pre (y :: d) 0) as S0. rewrite Nat.add_0_r in S0. cbn [set_nth] in S0. cbn [nadd num_R]. rewrite S0.
  specialize (IH (pre ++ [y + x]) d ltac:(cbn in E; lia)). rewrite app_length in IH. cbn [length] in IH. rewrite Nat.add_1_r in IH. rewrite <- !app_assoc in IH. cbn [app] in IH. rewrite IH. reflexivity.
Qed.
Lemma bias_rows_ok O (rows : list (list R)) : forall d, length d = O -> Forall (fun r => length r = O) rows ->
  exists d', bias_rows rows d = Ok d' /\ length d' = O /\ forall b, length b = O -> dot d' b = dot d b + msum (map (fun r => dot r b) rows).
Proof.
  induction rows as [|r rows IH]; intros d Ld Hw.
  - exists d. split; [reflexivity|]. split; [exact Ld|]. intros b _. cbn. lra.
  - apply Forall_cons_iff in Hw as [H1 H2]. cbn [bias_rows]. pose proof (bias_row_ok r [] d ltac:(congruence)) as E. cbn [length app] in E. rewrite E. cbn [bind].
    assert (Lm : length (map (fun p => fst p + snd p) (combine d r)) = O) by (rewrite map_length, combine_length; lia).
    destruct (IH _ Lm H2) as (d' & -> & L' & D'). exists d'. split; [reflexivity|]. split; [exact L'|]. intros b Lb. rewrite (D' b Lb), dot_plus_l by congruence. cbn [map]. rewrite msum_cons. lra.
Qed.

Lemma sparse_scores v1 (L nO : nat) (W b values : list R) keys lengths : L <> 0%nat -> nO <> 0%nat -> (Z.of_nat (nO * L) <= 2 ^ 31)%Z ->
  length W = (nO * L)%nat -> length b = nO -> nonneg lengths -> (zsum lengths <= Z.of_nat (length keys))%Z -> length values = length keys ->
  sparse_forward v1 (Z.of_nat nO) (Z.of_nat L) W b keys values lengths =
  Ok (mkM nO (map (fun e => map (fun c => nth c b 0 + msum (map (score_of v1 L c W) e)) (seq 0 nO)) (examples keys values lengths))).
Proof.
  intros HL HO Hbig LW Lb Hn Hk Hv. unfold sparse_forward. rewrite Lb, Z.eqb_refl. cbn [bind]. rewrite Nat2Z.id.
  pose proof (set_scores_ok v1 L nO HL HO Hbig keys values W b lengths 0 LW Lb Hn ltac:(lia) ltac:(lia)) as E. change (Z.of_nat 0) with 0%Z in E. rewrite E. reflexivity.
Qed.
Lemma chop_len_out {A} lens : forall l : list A, length (chop lens l) = length lens.
Proof. induction lens as [|n lens IH]; intros l; [reflexivity|]. cbn. now rewrite IH. Qed.
Lemma sparse_adjoint v1 (L nO : nat) (W b values : list R) keys lengths (dS S : mat R) : L <> 0%nat -> nO <> 0%nat -> (Z.of_nat (nO * L) <= 2 ^ 31)%Z ->
  length W = (nO * L)%nat -> length b = nO -> nonneg lengths -> (zsum lengths <= Z.of_nat (length keys))%Z -> length values = length keys ->
  wf_mat dS -> m_cols dS = nO -> m_len dS = length lengths -> lengths <> [] ->
  sparse_forward v1 (Z.of_nat nO) (Z.of_nat L) W b keys values lengths = Ok S ->
  exists dW db, sparse_backward v1 (Z.of_nat nO) (Z.of_nat L) keys values lengths dS = Ok (dW, db) /\ length dW = (nO * L)%nat /\ length db = nO /\
    mdot (m_rows dS) (m_rows S) = dot dW W + dot db b.
Proof.
  intros HL HO Hbig LW Lb Hn Hk Hv Hw Hc Hl Hne E. rewrite sparse_scores in E by assumption. injection E as <-. cbn [m_rows].
  unfold sparse_backward. destruct (Nat.eqb_spec (m_len dS) 0) as [Z|_]; [rewrite Hl in Z; destruct lengths; [congruence | discriminate]|]. destruct (Nat.eqb_spec (m_cols dS) 0) as [|_]; [congruence|]. cbn [orb].
  unfold wf_mat in Hw. rewrite Hc in Hw. unfold m_len in Hl. pose proof (concat_length_const _ _ Hw) as Lc. rewrite Hl in Lc.
  destruct (set_gradient_ok v1 L nO HL HO Hbig keys values W (concat (m_rows dS)) lengths 0 0 (zeros (Z.to_nat (Z.of_nat nO * Z.of_nat L)))
    ltac:(unfold zeros; rewrite repeat_length; lia) LW Hn ltac:(lia) ltac:(lia) ltac:(lia)) as (dW & G1 & G2 & G3).
  change (Z.of_nat 0) with 0%Z in G1. rewrite G1. cbn [bind]. rewrite Nat2Z.id.
  destruct (bias_rows_ok nO (m_rows dS) (zeros nO) (repeat_length _ _) Hw) as (db & -> & L2 & G4). cbn [bind]. exists dW, db. split; [reflexivity|].
  split; [rewrite G2; unfold zeros; rewrite repeat_length; lia|]. split; [exact L2|]. rewrite G3, (G4 b Lb). unfold zeros. change (@nZ R num_R 0) with 0. rewrite !dot_zeros_l. cbn [skipn].
  assert (Q : vec (length lengths) (fun i => vec nO (fun c => nth (0 + i * nO + c) (concat (m_rows dS)) 0)) = m_rows dS).
  { transitivity (vec (length lengths) (fun i => nth i (m_rows dS) [])); [|symmetry; now apply vec_of_len]. apply vec_ext. intros i Hi. rewrite <- Hl in Hi.
    rewrite (vec_of_len 0 nO (nth i (m_rows dS) [])) by (rewrite Forall_forall in Hw; apply Hw; now apply nth_In).
    apply vec_ext. intros c Hcc. clear - Hw Hi Hcc. revert i Hi. induction (m_rows dS) as [|r rs IH]; intros i Hi; [cbn in Hi; lia|]. apply Forall_cons_iff in Hw as [H1 H2]. cbn [concat]. destruct i as [|i].
    + cbn [Nat.mul Nat.add nth]. now rewrite app_nth1 by lia.
    + rewrite app_nth2 by lia. cbn [nth]. rewrite <- IH; [|exact H2 | cbn in Hi; lia]. f_equal. lia. }
  rewrite Q. clear G1 G2 G3 G4 Q L2. unfold examples.
  assert (LL : length (chop (map Z.to_nat lengths) (combine keys values)) = length (m_rows dS)) by (rewrite chop_len_out, map_length; congruence).
  revert LL. generalize (chop (map Z.to_nat lengths) (combine keys values)). clear - Hw Lb. induction (m_rows dS) as [|r rs IH]; intros [|e es] E; try discriminate; [cbn; lra|].
  apply Forall_cons_iff in Hw as [H1 H2]. cbn [map]. rewrite !mdot_cons, msum_cons, (IH H2 es) by (cbn in E; lia). change (map ?f (seq 0 nO)) with (vec nO f).
  assert (D : dot r (vec nO (fun c => nth c b 0 + msum (map (score_of v1 L c W) e))) = dot r b + dot r (vec nO (fun c => msum (map (score_of v1 L c W) e)))).
  { rewrite (vec_of_len 0 nO b Lb) at 1. rewrite (vec_of_len 0 nO r H1). rewrite !dot_vec. unfold vec. rewrite <- msum_plus. f_equal. apply map_ext. intros c. lra. }
  rewrite D. lra.
Qed.
Lemma sparse_empty v1 nO L keys (values : list R) dS : m_rows dS = [] -> sparse_backward v1 nO L keys values [] dS = Err IndexError.
Proof. intros E. unfold sparse_backward, m_len. now rewrite E. Qed.

Lemma dot_unit n j (d : list R) : length d = n -> (j < n)%nat -> dot d (vec n (fun i => if (i =? j)%nat then 1 else 0)) = nth j d 0.
Proof.
  intros Ld Hj. rewrite (vec_of_len 0 n d Ld) at 1. rewrite dot_vec, <- (msum_pick (fun i => nth i d 0) j n Hj). f_equal. apply vec_ext. intros i _. destruct (i =? j)%nat; lra.
Qed.
Lemma mdot_zero (A B : list (list R)) : (forall b, In b B -> Forall (fun x => x = 0) b) -> mdot A B = 0.
Proof.
  revert B. induction A as [|a A IH]; intros [|b B] Hz; try reflexivity. rewrite mdot_cons, IH; [|intros c Hc; apply Hz; now right].
  assert (D : dot a b = 0); [|lra]. specialize (Hz b (or_introl eq_refl)). revert a. induction Hz as [|x b Hx Hz IHb]; intros [|y a]; try reflexivity. rewrite dot_cons, IHb, Hx. lra.
Qed.
Lemma sparse_v1_unused (L nO : nat) (values : list R) keys lengths (dS : mat R) dW db : L <> 0%nat -> nO <> 0%nat -> (Z.of_nat (nO * L) <= 2 ^ 31)%Z ->
  nonneg lengths -> (zsum lengths <= Z.of_nat (length keys))%Z -> length values = length keys ->
  wf_mat dS -> m_cols dS = nO -> m_len dS = length lengths -> lengths <> [] ->
  sparse_backward true (Z.of_nat nO) (Z.of_nat L) keys values lengths dS = Ok (dW, db) ->
  forall j, (L + nO - 1 <= j)%nat -> (j < nO * L)%nat -> nth j dW 0 = 0.
Proof.
  intros HL HO Hbig Hn Hk Hv Hw Hc Hl Hne E j Hj1 Hj2. set (W := vec (nO * L) (fun i => if (i =? j)%nat then 1 else 0)). set (b := repeat 0 nO).
  assert (LW : length W = (nO * L)%nat) by apply vec_length. assert (Lb : length b = nO) by apply repeat_length.
  pose proof (sparse_scores true L nO W b values keys lengths HL HO Hbig LW Lb Hn Hk Hv) as F.
  destruct (sparse_adjoint true L nO W b values keys lengths dS _ HL HO Hbig LW Lb Hn Hk Hv Hw Hc Hl Hne F) as (dW' & db' & E' & L1 & L2 & A). rewrite E in E'. injection E' as <- <-.
  unfold W in A at 2. rewrite (dot_unit _ _ _ L1 Hj2) in A. unfold b in A at 2. rewrite (dot_comm db), dot_zeros_l in A. cbn [m_rows] in A. rewrite mdot_zero in A; [lra|].
  intros r Hr. apply in_map_iff in Hr as (e & <- & _). apply Forall_map. apply Forall_forall. intros c Hcc. apply in_seq in Hcc.
  assert (Z0 : nth c b 0 = 0) by (unfold b; rewrite repeat_vec, nth_vec by lia; reflexivity). rewrite Z0.
  assert (M : msum (map (score_of true L c W) e) = 0); [|lra]. rewrite (msum_ext_in _ (fun _ => 0)); [apply msum_zero|]. intros f _. unfold score_of.
  assert (U : forall seed, nth (slot true L c (fst f) seed) W 0 = 0).
  { intros seed. unfold W. pose proof (slot_v1 true L nO HL HO Hbig c (fst f) seed eq_refl). rewrite nth_vec; [|nia]. destruct (Nat.eqb_spec (slot true L c (fst f) seed) j); [lia | reflexivity]. }
  rewrite !U. lra.
Qed.
Lemma sparse_v2_blocks (L c c' : nat) key key' seed seed' : L <> 0%nat -> slot false L c key seed = slot false L c' key' seed' -> c = c'.
Proof.
  intros HL E. unfold slot in E. pose proof (Z.mod_pos_bound (murmur32 key seed) (Z.of_nat L) ltac:(lia)). pose proof (Z.mod_pos_bound (murmur32 key' seed') (Z.of_nat L) ltac:(lia)).
  assert (Z.to_nat (murmur32 key seed mod Z.of_nat L) < L)%nat by lia. assert (Z.to_nat (murmur32 key' seed' mod Z.of_nat L) < L)%nat by lia. nia.
Qed.
Lemma sparse_lengths {T} `{Num T} (w b v : T) key :
  sparse_forward false 1 1 [w] [b] [key] [v] [2]%Z = Err MemFault /\
  sparse_forward false 1 1 [w] [b] [key] [v] [1; -1; 1]%Z = Ok (mkM 1 [[b + w * v + w * v]; [b]; [b + w * v + w * v]]%num).
Proof.
  assert (E : forall seed, key_index false 1 key seed = Ok 0%Z). { intros seed. unfold key_index. change (w32 1) with 1%Z. cbn [Z.eqb]. now rewrite Z.mod_1_r. }
  unfold sparse_forward. cbn [length Z.of_nat Z.eqb Pos.of_succ_nat Pos.eqb bind]. split.
  - cbn [set_scores]. change (Z.to_nat 2) with 2%nat. cbn [add_features]. unfold peek at 1 2. cbn [Z.ltb Z.compare nth_error Z.to_nat bind]. unfold add_feature. rewrite !E. reflexivity.
  - cbn [set_scores]. change (Z.to_nat 1) with 1%nat. change (Z.to_nat (-1)) with 0%nat. cbn [add_features]. unfold peek. cbn [Z.ltb Z.compare nth_error Z.to_nat bind Z.add Z.pos_sub]. unfold add_feature. rewrite !E. reflexivity.
Qed.
Lemma sparse_no_weights {T} `{Num T} (b v : T) key : sparse_forward false 1 0 [] [b] [key] [v] [1]%Z = Err MemFault.
Proof. reflexivity. Qed.

Lemma murmur_vectors :
  murmur32 0 0 = 1669671676%Z /\ murmur32 1 0 = 1392991556%Z /\ murmur32 1 1 = 3741873941%Z /\ murmur32 4050765991979987505 0 = 2444432334%Z /\
  murmur32 81985529216486895 0 = 4203775010%Z /\ murmur32 18446744073709551615 1 = 2540302534%Z.
Proof. repeat split; reflexivity. Qed.
