From Coq Require Import Sorted.
From Verif Require Import BaseFacts SeqSpec SeqProofs.
Set Default Goal Selector "!".

(** *** Sorting *)
Definition geb (a b : nat * nat) : Prop := pair_leb b a = true.

Lemma insert_perm x l : Permutation (x :: l) (insert_desc x l).
Proof.
  induction l as [|y l IH]; cbn; [reflexivity|]. destruct (pair_leb y x); [reflexivity|].
  rewrite perm_swap. now rewrite IH.
Qed.
Lemma sort_perm l : Permutation l (sort_desc l).
Proof. induction l as [|x l IH]; cbn; [constructor|]. rewrite <- insert_perm. now constructor. Qed.

Lemma pair_leb_spec a b : pair_leb a b = true <-> fst a < fst b \/ fst a = fst b /\ snd a <= snd b.
Proof.
  unfold pair_leb. rewrite orb_true_iff, andb_true_iff, Nat.ltb_lt, Nat.eqb_eq, Nat.leb_le. tauto.
Qed.
Lemma pair_leb_false a b : pair_leb a b = false -> geb a b.
Proof.
  intros E. unfold geb. apply pair_leb_spec. assert (N : ~ (fst a < fst b \/ fst a = fst b /\ snd a <= snd b)) by (rewrite <- pair_leb_spec; congruence). lia.
Qed.
Lemma geb_trans a b c : geb a b -> geb b c -> geb a c.
Proof. unfold geb. rewrite !pair_leb_spec. lia. Qed.

Lemma insert_sorted x l : StronglySorted geb l -> StronglySorted geb (insert_desc x l).
Proof.
  intros Hs. induction Hs as [|y l Hs IH Hf]; cbn; [repeat constructor|].
  destruct (pair_leb y x) eqn:E.
  - constructor; [now constructor|]. constructor; [exact E|]. eapply Forall_impl; [|exact Hf]. intros a Ha. now apply geb_trans with y.
  - constructor; [exact IH|]. rewrite Forall_forall in *. intros a Ha. apply (Permutation_in _ (Permutation_sym (insert_perm x l))) in Ha.
    destruct Ha as [->|Ha]; [now apply pair_leb_false | now apply Hf].
Qed.
Lemma sort_sorted l : StronglySorted geb (sort_desc l).
Proof. induction l as [|x l IH]; cbn; [constructor | now apply insert_sorted]. Qed.

Lemma sorted_nth {A} (R : A -> A -> Prop) l : StronglySorted R l -> forall i k a b, i < k -> nth_error l i = Some a -> nth_error l k = Some b -> R a b.
Proof.
  induction 1 as [|x l Hs IH Hf]; intros i k a b Hlt Ha Hb; [destruct i; discriminate|].
  destruct k as [|k]; [lia|]. cbn in Hb. destruct i as [|i]; cbn in Ha.
  - injection Ha as <-. rewrite Forall_forall in Hf. apply Hf. now apply nth_error_In with k.
  - apply (IH i k); [lia | assumption | assumption].
Qed.

(** *** Batch sizes *)
Definition count (t : nat) (l : list nat) : nat := length (filter (fun n => t <? n) l).

Lemma count_prefix t l : forall c, c <= length l -> (forall i, i < c -> t < nth i l 0) -> (forall i, c <= i -> nth i l 0 <= t) -> count t l = c.
Proof.
  unfold count. induction l as [|x l IH]; intros c Hc H1 H2; cbn [length filter] in *; [lia|].
  destruct c as [|c].
  - destruct (Nat.ltb_spec t x) as [E|E]; [specialize (H2 0 ltac:(lia)); cbn in H2; lia|].
    apply (IH 0); [lia | lia|]. intros i _. apply (H2 (S i)). lia.
  - destruct (Nat.ltb_spec t x) as [E|E]; [|specialize (H1 0 ltac:(lia)); cbn in H1; lia].
    cbn [length]. f_equal. apply IH; [lia | |]; intros i Hi; [apply (H1 (S i)) | apply (H2 (S i))]; lia.
Qed.

Lemma shrink_spec lengths t : (forall i k, i < k -> k < length lengths -> nth k lengths 0 <= nth i lengths 0) ->
  forall cs, cs <= length lengths -> (forall i, cs <= i -> nth i lengths 0 <= t) ->
  let c := shrink lengths t cs in c <= cs /\ (forall i, i < c -> t < nth i lengths 0) /\ (forall i, c <= i -> nth i lengths 0 <= t).
Proof.
  intros Hs. induction cs as [|cs IH]; intros Hc Hi; cbv zeta in *; cbn [shrink].
  - split; [lia|]. split; [lia | exact Hi].
  - destruct (Nat.leb_spec (nth cs lengths 0) t) as [E|E].
    + destruct IH as (A & B & C); [lia| |split; [lia | auto]]. intros i Hci. destruct (Nat.eq_dec i cs) as [->|]; [exact E | apply Hi; lia].
    + split; [lia|]. split; [|exact Hi]. intros i Hlt. destruct (Nat.eq_dec i cs) as [->|]; [exact E|]. specialize (Hs i cs ltac:(lia) ltac:(lia)). lia.
Qed.

Lemma size_loop_spec lengths : (forall i k, i < k -> k < length lengths -> nth k lengths 0 <= nth i lengths 0) ->
  forall n t0 cs, cs <= length lengths -> (forall i, cs <= i -> nth i lengths 0 <= t0) ->
  size_at_t_loop lengths (seq t0 n) cs = map (fun t => count t lengths) (seq t0 n).
Proof.
  intros Hs. induction n as [|n IH]; intros t0 cs Hc Hi; [reflexivity|]. cbn [seq size_at_t_loop map].
  destruct (shrink_spec lengths t0 Hs cs Hc Hi) as (A & B & C). f_equal.
  - symmetry. apply count_prefix; [lia | exact B | exact C].
  - apply IH; [lia|]. intros i Hle. specialize (C i Hle). lia.
Qed.

Lemma sum_cons_map {A} (f g : A -> nat) l : list_sum_nat (map (fun t => f t + g t) l) = list_sum_nat (map f l) + list_sum_nat (map g l).
Proof. unfold list_sum_nat. induction l as [|x l IH]; cbn; [reflexivity|]. rewrite IH. lia. Qed.
Lemma sum_below x n : list_sum_nat (map (fun t => if t <? x then 1 else 0) (seq 0 n)) = Nat.min x n.
Proof.
  induction n as [|n IH]; [cbn; lia|]. rewrite seq_S, map_app. unfold list_sum_nat in *. rewrite fold_right_app. cbn [map fold_right Nat.add].
  assert (G : forall l a, fold_right Nat.add a l = fold_right Nat.add 0 l + a) by (induction l as [|y l IHl]; intros a; cbn; [reflexivity | rewrite IHl; lia]).
  rewrite G, IH. destruct (Nat.ltb_spec n x); lia.
Qed.
Lemma sum_counts l n : (forall x, In x l -> x <= n) -> list_sum_nat (map (fun t => count t l) (seq 0 n)) = list_sum_nat l.
Proof.
  induction l as [|x l IH]; intros Hle.
  - unfold count. cbn. clear. generalize 0 at 2. induction n as [|n IH]; intros a; cbn; [reflexivity | apply IH].
  - replace (map (fun t => count t (x :: l)) (seq 0 n)) with (map (fun t => (if t <? x then 1 else 0) + count t l) (seq 0 n)).
    + rewrite sum_cons_map, sum_below, IH by (intros; apply Hle; now right). specialize (Hle x (or_introl eq_refl)).
      rewrite Nat.min_l by exact Hle. reflexivity.
    + apply map_ext. intros t. unfold count. cbn [filter]. now destruct (t <? x).
Qed.

Lemma count_perm t l m : Permutation l m -> count t l = count t m.
Proof.
  unfold count. induction 1; cbn [filter]; try reflexivity.
  - destruct (t <? x); cbn [length]; congruence.
  - destruct (t <? x), (t <? y); reflexivity.
  - congruence.
Qed.
Lemma sum_perm l m : Permutation l m -> list_sum_nat l = list_sum_nat m.
Proof. unfold list_sum_nat. induction 1; cbn; lia. Qed.
Lemma max_perm l m : Permutation l m -> fold_right Nat.max 0 l = fold_right Nat.max 0 m.
Proof. induction 1; cbn; lia. Qed.

Lemma count_len {T} t (seqs : list (nda T)) : count t (map a_len seqs) = length (filter (fun s => t <? a_len s) seqs).
Proof. unfold count. induction seqs as [|s seqs IH]; cbn [map filter]; [reflexivity|]. destruct (t <? a_len s); cbn [length]; now rewrite IH. Qed.

Lemma map_nth_error_combine {A B} (l : list A) (m : list B) i a b : nth_error l i = Some a -> nth_error m i = Some b -> nth_error (combine l m) i = Some (a, b).
Proof.
  revert m i. induction l as [|x l IH]; intros [|y m] [|i] Ha Hb; cbn in *; try discriminate; [congruence | now apply IH].
Qed.
Lemma map_fst_combine {A B} (l : list A) (m : list B) : length l = length m -> map fst (combine l m) = l.
Proof. revert m. induction l as [|x l IH]; intros [|y m] E; cbn in *; try discriminate; [reflexivity|]. f_equal. apply IH. lia. Qed.
Lemma map_snd_combine {A B} (l : list A) (m : list B) : length l = length m -> map snd (combine l m) = m.
Proof. revert m. induction l as [|x l IH]; intros [|y m] E; cbn in *; try discriminate; [reflexivity|]. f_equal. apply IH. lia. Qed.

Lemma nth_error_nth_some {A} (l : list A) i a d : nth_error l i = Some a -> nth i l d = a.
Proof. revert i. induction l as [|x l IH]; intros [|i] E; cbn in *; try discriminate; [congruence | now apply IH]. Qed.
Lemma nth_error_lt_some {A} (l : list A) i a : nth_error l i = Some a -> i < length l.
Proof. intros E. apply nth_error_Some. congruence. Qed.
Lemma nth_error_seq n i : i < n -> nth_error (seq 0 n) i = Some i.
Proof.
  intros Hi. rewrite (nth_error_nth' _ 0) by now rewrite seq_length. now rewrite seq_nth.
Qed.
Lemma map_seq_nth_error {A} (f : nat -> A) n i : i < n -> nth_error (map f (seq 0 n)) i = Some (f i).
Proof. intros Hi. now rewrite (map_nth_error f i _ (nth_error_seq n i Hi)). Qed.
Lemma map_seq_nth {A} (f : nat -> A) n i d : i < n -> nth i (map f (seq 0 n)) d = f i.
Proof. intros Hi. apply nth_error_nth_some. now apply map_seq_nth_error. Qed.

Section Padded.
  Context {T : Type} (z : T).
  Implicit Types (p : padded T) (seqs : list (nda T)).

  Lemma unpadded_loop_spec p : NoDup (p_indices p) -> length (p_lengths p) = length (p_indices p) ->
    forall rows i acc, i + length rows = length (p_indices p) -> Forall (fun j => j < length acc) (p_indices p) ->
    exists acc', unpadded_loop p rows i acc = Ok acc' /\ length acc' = length acc /\
      (forall k j, i <= k -> nth_error (p_indices p) k = Some j ->
         nth_error acc' j = Some (Some (mkA (a3_tail (p_data p)) (firstn (nth k (p_lengths p) 0) (nth (k - i) rows []))))) /\
      (forall j, (forall k, i <= k -> nth_error (p_indices p) k <> Some j) -> nth_error acc' j = nth_error acc j).
  Proof.
    intros Hnd Hlen. induction rows as [|c rows IH]; intros i acc Hi Hb.
    - cbn [unpadded_loop length] in *. exists acc. split; [reflexivity|]. split; [reflexivity|]. split; [|auto].
      intros k j Hk Hj. apply nth_error_lt_some in Hj. lia.
    - cbn [unpadded_loop length] in *.
      destruct (py_get_exists (p_indices p) i ltac:(lia)) as [idx E1]. destruct (py_get_exists (p_lengths p) i ltac:(lia)) as [len E2].
      rewrite E1, E2. cbn [bind]. unfold py_get in E1, E2.
      destruct (nth_error (p_indices p) i) as [x|] eqn:N1; [|discriminate]. injection E1 as ->.
      destruct (nth_error (p_lengths p) i) as [x|] eqn:N2; [|discriminate]. injection E2 as ->.
      assert (Hidx : idx < length acc) by (rewrite Forall_forall in Hb; apply Hb; now apply nth_error_In with i).
      destruct (Nat.ltb_spec idx (length acc)); [|lia].
      destruct (IH (S i) (set_nth idx (Some (mkA (a3_tail (p_data p)) (firstn len c))) acc)) as (acc' & E & L & P1 & P2).
      + lia.
      + now rewrite set_nth_length.
      + exists acc'. split; [exact E|]. rewrite set_nth_length in L. split; [exact L|]. split.
        * intros k j Hk Hj. destruct (Nat.eq_dec k i) as [->|Hne].
          -- rewrite P2.
             ++ assert (j = idx) by congruence. subst j. rewrite nth_error_set_nth_eq by assumption.
                rewrite Nat.sub_diag. cbn [nth]. now rewrite (nth_error_nth_some _ _ _ 0 N2).
             ++ intros k' Hk' Hj'. assert (i = k'); [|lia]. rewrite NoDup_nth_error in Hnd. apply Hnd; [lia | congruence].
          -- rewrite (P1 k j ltac:(lia) Hj). replace (k - i) with (S (k - S i)) by lia. reflexivity.
        * intros j Hj. rewrite P2 by (intros k Hk; apply Hj; lia). apply nth_error_set_nth_neq. intros ->. apply (Hj i (le_n _)). exact N1.
  Qed.

  Lemma perm_seq_nth l n j : Permutation l (seq 0 n) -> j < n -> exists k, nth_error l k = Some j.
  Proof. intros Hp Hj. apply In_nth_error. apply (Permutation_in _ (Permutation_sym Hp)). apply in_seq. lia. Qed.
  Lemma perm_seq_bound l n k j : Permutation l (seq 0 n) -> nth_error l k = Some j -> j < n.
  Proof. intros Hp E. apply nth_error_In in E. apply (Permutation_in _ Hp) in E. apply in_seq in E. lia. Qed.

  Lemma padded2list_ok p n : a3_n1 (p_data p) = n -> Permutation (p_indices p) (seq 0 n) -> length (p_lengths p) = n ->
    exists out, padded2list p = Ok out /\ length out = n /\
      forall k j, nth_error (p_indices p) k = Some j ->
        nth_error out j = Some (mkA (a3_tail (p_data p)) (firstn (nth k (p_lengths p) 0) (map (fun c => nth k c []) (a3_cells (p_data p))))).
  Proof.
    intros Hn Hperm Hlen. assert (Hil : length (p_indices p) = n) by (rewrite (Permutation_length Hperm); apply seq_length).
    unfold padded2list.
    destruct (unpadded_loop_spec p) with (rows := a3_cells (transpose3 (p_data p))) (i := 0) (acc := repeat (@None (nda T)) (length (p_lengths p))) as (acc & E & L & P1 & P2).
    - apply (Permutation_NoDup (Permutation_sym Hperm)). apply seq_NoDup.
    - lia.
    - cbn. rewrite map_length, seq_length. lia.
    - rewrite repeat_length. apply Forall_forall. intros j Hj. apply (Permutation_in _ Hperm) in Hj. apply in_seq in Hj. lia.
    - rewrite E. cbn [bind]. rewrite repeat_length in L.
      set (f := fun o : option (nda T) => match o with Some a => Ok a | None => Err TypeError end).
      assert (All : forall o, In o acc -> exists a, o = Some a).
      { intros o Ho. apply In_nth_error in Ho as [j Hj]. assert (Hjn : j < n) by (apply nth_error_lt_some in Hj; lia).
        destruct (perm_seq_nth _ n j Hperm Hjn) as [k Hk]. rewrite (P1 k j (Nat.le_0_l _) Hk) in Hj. injection Hj as <-. eauto. }
      destruct (mapM_exists f acc) as [out Eout].
      { intros o Ho. destruct (All o Ho) as [a ->]. exists a. reflexivity. }
      exists out. split; [exact Eout|]. split; [rewrite (mapM_length _ _ _ Eout); lia|].
      intros k j Hk. pose proof (P1 k j (Nat.le_0_l _) Hk) as Ha. pose proof (mapM_nth_error f acc out j _ Eout Ha) as Hf.
      destruct Hf as (b & Hb & Ho). unfold f in Hb. injection Hb as <-. rewrite Ho. do 3 f_equal.
      rewrite Nat.sub_0_r. cbn [transpose3 a3_cells]. rewrite map_seq_nth; [reflexivity|].
      apply nth_error_lt_some in Hk. lia.
  Qed.

  Lemma represents_padded2list w p seqs : represents z w p seqs -> like [w] seqs -> padded2list p = Ok seqs.
  Proof.
    intros R Hl. destruct R. destruct (padded2list_ok p (length seqs) rep_n1 rep_perm rep_lengths) as (out & E & L & P). rewrite E. f_equal.
    apply nth_error_ext. intros j. destruct (Nat.lt_ge_cases j (length seqs)) as [Hj|Hj].
    - destruct (perm_seq_nth _ _ j rep_perm Hj) as [k Hk]. rewrite (P k j Hk).
      destruct (nth_error seqs j) as [s|] eqn:Es; [|apply nth_error_None in Es; lia]. f_equal.
      pose proof (rep_len k j s Hk Es) as Hlen. rewrite (nth_error_nth_some _ _ _ 0 Hlen).
      assert (Hin : In s seqs) by now apply nth_error_In with j.
      assert (Hne : seqs <> []) by (intros ->; contradiction). rewrite (rep_tail Hne).
      unfold like in Hl. rewrite Forall_forall in Hl. destruct (Hl s Hin) as [Ht _].
      rewrite <- (nda_eta s [w] Ht) at 2. f_equal. apply nth_error_ext. intros t.
      pose proof (max_len_le seqs s Hin) as Hm.
      destruct (Nat.lt_ge_cases t (a_len s)) as [Hts|Hts].
      + rewrite nth_error_firstn by exact Hts.
        assert (Hc : t < length (a3_cells (p_data p))) by lia.
        rewrite (map_nth_error (fun c => nth k c []) t _ (nth_error_nth' _ [] Hc)).
        rewrite (rep_data t k j s ltac:(lia) Hk Es). symmetry. now apply nth_error_nth'.
      + rewrite (proj2 (nth_error_None _ _)) by (rewrite firstn_length, map_length; lia). symmetry. now apply nth_error_None.
    - rewrite (proj2 (nth_error_None out j)) by lia. symmetry. now apply nth_error_None.
  Qed.

  Lemma represents_nil w : represents z w (mkPad (mkA3 0 [0] []) [] [] []) [].
  Proof.
    split; cbn; try reflexivity.
    - congruence.
    - constructor.
    - intros i j s E. destruct i; discriminate.
    - intros i k Hk. lia.
    - intros t i j s Ht. cbn in Ht. lia.
  Qed.

  Lemma single_sizes (s : nda T) :
    map (fun t => length (filter (fun s => t <? a_len s) [s])) (seq 0 (max_len [s])) = repeat 1 (a_len s).
  Proof.
    unfold max_len. cbn [map fold_right]. rewrite Nat.max_0_r.
    assert (G : forall n a, a + n <= a_len s -> map (fun t => length (filter (fun s => t <? a_len s) [s])) (seq a n) = repeat 1 n).
    { induction n as [|n IH]; intros a Ha; [reflexivity|]. cbn [seq map repeat]. rewrite IH by lia. f_equal. cbn [filter].
      destruct (Nat.ltb_spec a (a_len s)); [reflexivity | lia]. }
    now apply G.
  Qed.

  Lemma represents_single w (s : nda T) :
    represents z w (mkPad (mkA3 1 [w] (map (fun r => [r]) (a_rows s))) (repeat 1 (a_len s)) [a_len s] [0]) [s].
  Proof.
    constructor; cbn [p_data p_indices p_lengths p_size_at_t a3_cells a3_n1 a3_tail length seq].
    - reflexivity.
    - rewrite map_length. unfold max_len, a_len. cbn. lia.
    - reflexivity.
    - apply Forall_forall. intros c Hc. apply in_map_iff in Hc as (r & <- & _). reflexivity.
    - reflexivity.
    - reflexivity.
    - intros [|[|i]] j s' E Es; cbn in E; try discriminate. injection E as <-. cbn in Es. injection Es as <-. reflexivity.
    - intros i k Hk. lia.
    - symmetry. apply single_sizes.
    - intros t i j s' Ht E Es. destruct i as [|[|i]]; cbn in E; try discriminate. injection E as <-. cbn in Es. injection Es as <-.
      assert (Hlt : t < length (a_rows s)) by (unfold max_len, a_len in Ht; cbn in Ht; lia).
      assert (E1 : nth t (map (fun r => [r]) (a_rows s)) [] = [nth t (a_rows s) (zero_row z [w])]).
      { apply nth_error_nth_some. apply (map_nth_error (fun r => [r])). now apply nth_error_nth'. }
      now rewrite E1.
  Qed.

  Lemma like_perm_list w seqs sorted idx : like [w] seqs -> mapM (py_get seqs) idx = Ok sorted -> like [w] sorted.
  Proof.
    intros Hl E. unfold like in *. rewrite Forall_forall in *. intros s Hs.
    destruct (mapM_in _ _ _ s E Hs) as (i & _ & Hi). apply Hl. unfold py_get in Hi.
    destruct (nth_error seqs i) eqn:Ei; [|discriminate]. injection Hi as <-. now apply nth_error_In with i.
  Qed.

  Lemma list2padded_ok w seqs : like [w] seqs -> exists p, list2padded z seqs = Ok p /\ represents z w p seqs.
  Proof.
    intros Hl. unfold list2padded. destruct seqs as [|s0 [|s1 ss]] eqn:ES.
    { eexists. split; [reflexivity|]. apply represents_nil. }
    { inversion Hl as [|? ? [E _] _]; subst. rewrite E. eexists. split; [reflexivity|]. apply represents_single. }
    assert (Hne : seqs <> []) by (rewrite ES; discriminate).
    assert (E0 : a_tail s0 = [w]) by (inversion Hl; tauto). rewrite E0. rewrite <- ES in *. clear ES s1 ss E0 s0.
    set (n := length seqs). set (li := sort_desc (combine (map a_len seqs) (seq 0 n))).
    assert (Hperm : Permutation (combine (map a_len seqs) (seq 0 n)) li) by apply sort_perm.
    assert (Hln : length (map a_len seqs) = length (seq 0 n)) by now rewrite map_length, seq_length.
    assert (Pi : Permutation (map snd li) (seq 0 n)).
    { apply (Permutation_map snd) in Hperm. rewrite map_snd_combine in Hperm by exact Hln. now symmetry. }
    assert (Pl : Permutation (map fst li) (map a_len seqs)).
    { apply (Permutation_map fst) in Hperm. rewrite map_fst_combine in Hperm by exact Hln. now symmetry. }
    assert (Hlen : length li = n) by (rewrite <- (map_length snd), (Permutation_length Pi); apply seq_length).
    assert (Hpair : forall i l j, nth_error li i = Some (l, j) -> exists s, nth_error seqs j = Some s /\ l = a_len s).
    { intros i l j E. apply nth_error_In in E. apply (Permutation_in _ (Permutation_sym Hperm)) in E.
      apply In_nth_error in E as [k Hk]. assert (Hk' := Hk).
      apply (map_nth_error fst) in Hk. rewrite map_fst_combine in Hk by exact Hln.
      apply (map_nth_error snd) in Hk'. rewrite map_snd_combine in Hk' by exact Hln. cbn in Hk, Hk'.
      assert (k < n) by (apply nth_error_lt_some in Hk'; now rewrite seq_length in Hk').
      rewrite nth_error_seq in Hk' by assumption. injection Hk' as ->.
      destruct (nth_error seqs j) as [s|] eqn:Es; [|apply nth_error_None in Es; unfold n in *; lia].
      rewrite (map_nth_error a_len _ _ Es) in Hk. exists s. split; [reflexivity | congruence]. }
    destruct (mapM_exists (py_get seqs) (map snd li)) as [sorted Es].
    { intros j Hj. apply py_get_exists. apply (Permutation_in _ Pi) in Hj. apply in_seq in Hj. unfold n in *. lia. }
    rewrite Es. cbn [bind].
    assert (Hls : length sorted = n) by (rewrite (mapM_length _ _ _ Es), map_length; exact Hlen).
    assert (Hsn : forall i j s, nth_error (map snd li) i = Some j -> nth_error seqs j = Some s -> nth_error sorted i = Some s).
    { intros i j s Ei Ej. destruct (mapM_nth_error _ _ _ _ _ Es Ei) as (b & Hb & Hbi). rewrite Hbi. unfold py_get in Hb. rewrite Ej in Hb. congruence. }
    assert (Hlens : map a_len sorted = map fst li).
    { apply nth_error_ext. intros i. destruct (nth_error li i) as [[l j]|] eqn:Ei.
      - destruct (Hpair i l j Ei) as (s & Ej & ->). rewrite (map_nth_error fst _ _ Ei).
        apply map_nth_error. apply (Hsn i j); [|exact Ej]. now rewrite (map_nth_error snd _ _ Ei).
      - apply nth_error_None in Ei. rewrite (proj2 (nth_error_None (map fst li) i)) by (rewrite map_length; lia).
        apply nth_error_None. rewrite map_length. lia. }
    assert (Hms : max_len sorted = max_len seqs) by (unfold max_len; rewrite Hlens; now apply max_perm).
    pose proof (like_perm_list w seqs sorted _ Hl Es) as Hlike.
    destruct (pad_ok z [w] sorted 1 Hlike) as (L & EL & _ & HL).
    { destruct sorted; [|discriminate]. cbn in Hls. unfold n in Hls. destruct seqs; [congruence | discriminate]. }
    { lia. }
    assert (L = max_len seqs) by lia. subst L. rewrite EL. cbn [bind a3_cells a3_n1 a3_tail].
    rewrite map_length, Hls. fold (max_len seqs). unfold n at 1. rewrite same_shape_refl. cbn [negb].
    assert (Hsort : forall i k, i < k -> k < length (map fst li) -> nth k (map fst li) 0 <= nth i (map fst li) 0).
    { intros i k Hik Hk. rewrite map_length in Hk. destruct (nth_error li i) as [a|] eqn:Ea; [|apply nth_error_None in Ea; lia].
      destruct (nth_error li k) as [b|] eqn:Eb; [|apply nth_error_None in Eb; lia].
      rewrite (nth_error_nth_some _ _ _ 0 (map_nth_error fst _ _ Ea)), (nth_error_nth_some _ _ _ 0 (map_nth_error fst _ _ Eb)).
      pose proof (sorted_nth _ _ (sort_sorted _) i k a b Hik Ea Eb) as G. unfold geb in G. apply pair_leb_spec in G. lia. }
    assert (Hsz : size_at_t_loop (map fst li) (seq 0 (max_len seqs)) (length seqs) = map (fun t => length (filter (fun s => t <? a_len s) seqs)) (seq 0 (max_len seqs))).
    { rewrite size_loop_spec.
      - apply map_ext. intros t. rewrite (count_perm t _ _ Pl). apply count_len.
      - exact Hsort.
      - rewrite map_length. unfold n in Hlen. lia.
      - intros i Hi. rewrite nth_overflow; [lia|]. rewrite map_length. unfold n in Hlen. lia. }
    change n with (length seqs) at 1. rewrite Hsz.
    replace (list_sum_nat (map (fun t => length (filter (fun s => t <? a_len s) seqs)) (seq 0 (max_len seqs)))) with (list_sum_nat (map fst li)).
    2:{ rewrite (sum_perm _ _ Pl). symmetry. erewrite map_ext; [|intros t; symmetry; apply count_len]. apply sum_counts.
        intros x Hx. apply in_map_iff in Hx as (s & <- & Hs). now apply max_len_le. }
    rewrite Nat.eqb_refl. cbn [negb]. eexists. split; [reflexivity|].
    constructor; cbn [p_data p_indices p_lengths p_size_at_t transpose3 a3_cells a3_n1 a3_tail].
    - reflexivity.
    - now rewrite map_length, seq_length.
    - now rewrite map_length.
    - apply Forall_forall. intros c Hc. apply in_map_iff in Hc as (t & <- & _). now rewrite !map_length.
    - exact Pi.
    - now rewrite map_length.
    - intros i j s Ei Ej. destruct (nth_error li i) as [[l j']|] eqn:El.
      + rewrite (map_nth_error snd _ _ El) in Ei. cbn in Ei. injection Ei as ->. rewrite (map_nth_error fst _ _ El).
        destruct (Hpair i l j El) as (s' & Es' & ->). cbn. congruence.
      + apply nth_error_None in El. apply nth_error_lt_some in Ei. rewrite map_length in Ei. lia.
    - intros i k [Hik Hk]. change (length seqs) with n in Hk. destruct (nth_error li i) as [a|] eqn:Ea; [|apply nth_error_None in Ea; lia].
      destruct (nth_error li k) as [b|] eqn:Eb; [|apply nth_error_None in Eb; lia].
      rewrite (nth_error_nth_some _ _ _ 0 (map_nth_error fst _ _ Ea)), (nth_error_nth_some _ _ _ 0 (map_nth_error fst _ _ Eb)).
      rewrite (nth_error_nth_some _ _ _ 0 (map_nth_error snd _ _ Ea)), (nth_error_nth_some _ _ _ 0 (map_nth_error snd _ _ Eb)).
      pose proof (sorted_nth _ _ (sort_sorted _) i k a b Hik Ea Eb) as G. unfold geb in G. apply pair_leb_spec in G.
      assert (snd a <> snd b); [|lia]. intros Eq.
      assert (Hnd : NoDup (map snd li)) by (apply (Permutation_NoDup (Permutation_sym Pi)); apply seq_NoDup).
      rewrite NoDup_nth_error in Hnd. assert (i = k); [|lia]. apply Hnd; [rewrite map_length; lia|].
      rewrite (map_nth_error snd _ _ Ea), (map_nth_error snd _ _ Eb). congruence.
    - exact Hsz.
    - intros t i j s Ht Ei Ej. rewrite map_seq_nth by exact Ht. pose proof (Hsn i j s Ei Ej) as Hs.
      rewrite (nth_error_nth_some _ _ _ [] (map_nth_error (fun c => nth t c []) _ _ (map_nth_error (fun s => a_rows s ++ zero_rows z (max_len seqs - a_len s) [w]) _ _ Hs))).
      cbn beta. destruct (Nat.lt_ge_cases t (a_len s)) as [Hts|Hts].
      + rewrite app_nth1 by exact Hts. now apply nth_indep.
      + rewrite app_nth2 by exact Hts. rewrite (nth_overflow (a_rows s)) by exact Hts.
        unfold zero_rows. fold (a_len s). apply nth_error_nth_some. apply nth_error_repeat.
        pose proof (max_len_le seqs s (nth_error_In _ _ Ej)). lia.
  Qed.

  Lemma padded_round_trip w seqs : like [w] seqs -> exists p, list2padded z seqs = Ok p /\ represents z w p seqs /\ padded2list p = Ok seqs.
  Proof.
    intros Hl. destruct (list2padded_ok w seqs Hl) as (p & E & R). exists p. split; [exact E|]. split; [exact R|]. now apply represents_padded2list with w.
  Qed.
End Padded.
