From Coq Require Import Reals Lra Lia.
From Verif Require Import BaseFacts CudaSpec CudaProofs SeqProofs MatProofs ReduceProofs ReduceMaxProofs Seq2colProofs Seq2colBackProofs KernelProofs CudaRowProofs CudaMaxProofs ReduceSpec Seq2colSpec KernelModel KernelSpec CudaSpec.
Set Default Goal Selector "!".
Local Open Scope nat_scope.

(** ** The search for the sequence of a row *)
Lemma find_again t t' rest : (t <= t')%Z -> forall k s, let c := find_seq t rest k s in find_seq t' (c_rest c) (c_seq c) (c_start c) = find_seq t' rest k s.
Proof.
  intros Ht. induction rest as [|len rest IH]; intros k s; [reflexivity|]. cbn [find_seq]. destruct (Z.ltb_spec t (s + len)); [reflexivity|].
  destruct (Z.ltb_spec t' (s + len)); [lia|]. apply IH.
Qed.
Lemma find_ok t rest : nonneg rest -> forall k s, (s <= t < s + zsum rest)%Z ->
  exists b, b < length rest /\ find_seq t rest k s = mkCur (skipn b rest) (k + b) (s + Z.of_nat (off (nats rest) b)) /\
    (s + Z.of_nat (off (nats rest) b) <= t < s + Z.of_nat (off (nats rest) b) + nth b rest 0)%Z.
Proof.
  induction rest as [|len rest IH]; intros Hn k s Ht; [cbn in Ht; lia|]. apply Forall_cons_iff in Hn as [H0 Hn]. cbn [zsum fold_right] in Ht. fold (zsum rest) in Ht. cbn [find_seq].
  destruct (Z.ltb_spec t (s + len)) as [Hlt|Hge].
  - exists 0. cbn. replace (k + 0) with k by lia. replace (s + 0)%Z with s by lia. repeat split; lia.
  - destruct (IH Hn (S k) (s + len)%Z) as (b & Hb & E & Hr); [lia|]. exists (S b). cbn [length skipn nth]. split; [lia|].
    assert (Eo : off (nats (len :: rest)) (S b) = Z.to_nat len + off (nats rest) b) by reflexivity. rewrite Eo. split; [rewrite E; f_equal; lia | lia].
Qed.
Definition seq_at (lengths : list Z) (t b : nat) : Prop :=
  b < length lengths /\ off (nats lengths) b <= t < off (nats lengths) b + Z.to_nat (nth b lengths 0%Z) /\ advance t (mkCur lengths 0 0) = mkCur (skipn b lengths) b (Z.of_nat (off (nats lengths) b)).
Lemma seq_at_ex lengths t : nonneg lengths -> t < Z.to_nat (zsum lengths) -> exists b, seq_at lengths t b.
Proof.
  intros Hn Ht. destruct (find_ok (Z.of_nat t) lengths Hn 0 0%Z) as (b & Hb & E & Hr); [lia|]. exists b. split; [exact Hb|]. split; [lia|]. unfold advance. cbn [c_rest c_seq c_start]. rewrite E. f_equal; lia.
Qed.
Lemma off_mono ls a b : a <= b -> b <= length ls -> off ls a <= off ls b.
Proof. intros Hab. induction Hab as [|b Hab IH]; intros Hb; [lia|]. rewrite off_S by lia. specialize (IH ltac:(lia)). lia. Qed.
Lemma seq_at_unique lengths t b b' : b < length lengths -> b' < length lengths ->
  off (nats lengths) b <= t < off (nats lengths) b + Z.to_nat (nth b lengths 0%Z) ->
  off (nats lengths) b' <= t < off (nats lengths) b' + Z.to_nat (nth b' lengths 0%Z) -> b = b'.
Proof.
  intros Hb Hb' H1 H2. assert (L : length (nats lengths) = length lengths) by apply map_length.
  destruct (Nat.lt_trichotomy b b') as [Hlt|[E|Hlt]]; [|exact E|].
  - pose proof (off_mono (nats lengths) (S b) b' ltac:(lia) ltac:(lia)) as Hm. rewrite off_S, nth_nats in Hm by lia. lia.
  - pose proof (off_mono (nats lengths) (S b') b ltac:(lia) ltac:(lia)) as Hm. rewrite off_S, nth_nats in Hm by lia. lia.
Qed.
Lemma cur_length_at lengths b k s : b < length lengths -> cur_length (mkCur (skipn b lengths) k s) = Ok (nth b lengths 0%Z).
Proof.
  intros Hb. unfold cur_length. cbn [c_rest]. rewrite (load_nth 0%Z) by (rewrite skipn_length; lia). f_equal.
  rewrite <- (firstn_skipn b lengths) at 2. rewrite app_nth2 by (rewrite firstn_length; lia). rewrite firstn_length. f_equal. lia.
Qed.
Lemma launch_cursor {V} (d : V) O work c N body s0 m :
  has_threads c -> length m = N * O ->
  (forall b s, b < N -> advance b s = advance b s0 -> body b s = Ok (advance b s0, work b)) ->
  (forall b i, b < N -> In i (work b) -> exists o, o < O /\ target i = b * O + o) ->
  exists out, launch c N body s0 m = Ok out /\ cells_of O N out = vec N (fun b => vec O (fun o => cellf (b * O + o) (work b) (nth (b * O + o) m d))).
Proof.
  intros HT HL Hb HO.
  destruct (launch_rows d O (fun b s => forall b', b <= b' -> advance b' s = advance b' s0) work c N body s0 m) as (out & E & _ & F); auto.
  - intros b s Hlt HI. exists (advance b s0). split; [apply Hb; auto|]. intros b1 H1 b' H2. unfold advance. apply (find_again (Z.of_nat b) (Z.of_nat b')). lia.
  - exists out. auto.
Qed.

(** ** backprop_reduce_sum, backprop_reduce_mean *)
Section BackReduce.
  Context {T : Type} `{Num T}.
  Lemma back_cu (f : Z -> T -> T) c junk (dY : mat T) lengths : has_threads c -> wf_mat dY -> nonneg lengths -> m_len dY = length lengths ->
    cu_backprop_reduce f c junk dY lengths = Ok (mkM (m_cols dY) (concat (map (fun p => repeat (map (f (snd p)) (fst p)) (Z.to_nat (snd p))) (combine (m_rows dY) lengths)))).
  Proof.
    intros HT Hw Hn Hl. unfold cu_backprop_reduce. rewrite check_lengths_ok by (try assumption; reflexivity). cbn [bind]. set (O := m_cols dY). set (N := Z.to_nat (zsum lengths)).
    set (bt := fun t => c_seq (advance t (mkCur lengths 0 0))).
    assert (Hbt : forall t, t < N -> seq_at lengths t (bt t)).
    { intros t Ht. destruct (seq_at_ex lengths t Hn Ht) as (b & Hb). assert (E : bt t = b) by (destruct Hb as (_ & _ & E); unfold bt; now rewrite E). now rewrite E. }
    set (v := fun t o => f (nth (bt t) lengths 0%Z) (nth o (nth (bt t) (m_rows dY) []) (nZ 0))).
    set (work := fun t => concat (map (fun o => [Wr (t * O + o) (v t o)]) (seq 0 O))).
    destruct (launch_cursor (nZ 0) O work c N (k_backprop_reduce f (flat dY) O) (mkCur lengths 0 0) (map junk (seq 0 (N * O)))) as (out & E & F); auto.
    - now rewrite map_length, seq_length.
    - intros t s Ht Hs. unfold k_backprop_reduce. rewrite Hs. destruct (Hbt t Ht) as (Hb & Hr & Ea). rewrite Ea. cbn [c_seq]. rewrite cur_length_at by exact Hb. cbn [bind].
      destruct (Z.eqb_spec (nth (bt t) lengths 0%Z) 0) as [E0|_]; [rewrite E0 in Hr; cbn in Hr; lia|].
      rewrite (for_n_ok O _ (fun o => [Wr (t * O + o) (v t o)])); [reflexivity|]. intros o Ho. unfold flat. rewrite (load_flat (nZ 0)) by (try assumption; unfold m_len in Hl; lia). reflexivity.
    - intros t i _ Hi. apply in_loop in Hi. destruct Hi as (o & Ho & [<-|[]]). exists o. auto.
    - rewrite E. cbn [bind]. rewrite F. do 2 f_equal.
      match goal with |- _ = concat ?l => set (ll := l) end. assert (Lc : length (combine (m_rows dY) lengths) = length lengths) by (rewrite combine_length; unfold m_len in Hl; lia).
      assert (El : map (@length (list T)) ll = nats lengths).
      { unfold ll, nats. rewrite map_map. transitivity (map (fun p : list T * Z => Z.to_nat (snd p)) (combine (m_rows dY) lengths)); [apply map_ext; intros; apply repeat_length|].
        clear -Hl. unfold m_len in Hl. revert Hl. generalize (m_rows dY) as l. induction lengths as [|x lengths IH]; intros [|a l] Hl; try discriminate; [reflexivity|]. cbn. f_equal. apply IH. now injection Hl. }
      assert (LN : length (concat ll) = N). { rewrite concat_len, El. unfold N. unfold nats. rewrite zsum_nat by exact Hn. lia. }
      rewrite (vec_of_len [] N (concat ll) LN). apply vec_ext. intros t Ht. destruct (Hbt t Ht) as (Hb & Hr & _). set (b := bt t) in *.
      assert (Et : t = off (nats lengths) b + (t - off (nats lengths) b)) by lia.
      transitivity (nth (off (map (@length (list T)) ll) b + (t - off (nats lengths) b)) (concat ll) []); [|rewrite El; now rewrite <- Et].
      assert (Eb : nth b ll [] = repeat (map (f (nth b lengths 0%Z)) (nth b (m_rows dY) [])) (Z.to_nat (nth b lengths 0%Z))).
      { pose (G := fun p : list T * Z => repeat (map (f (snd p)) (fst p)) (Z.to_nat (snd p))). change ll with (map G (combine (m_rows dY) lengths)). rewrite (nth_indep _ [] (G ([], 0%Z))) by (rewrite map_length; lia).
        rewrite map_nth, combine_nth by exact Hl. reflexivity. }
      rewrite nth_concat_off; rewrite ?Eb, ?repeat_length; rewrite ?El; [|unfold ll; rewrite map_length; lia | lia].
      rewrite (nth_indep _ [] (map (f (nth b lengths 0%Z)) (nth b (m_rows dY) []))) by (rewrite repeat_length; lia). rewrite nth_repeat.
      assert (Lr : length (nth b (m_rows dY) []) = O). { unfold wf_mat in Hw. rewrite Forall_forall in Hw. apply Hw. apply nth_In. unfold m_len in Hl. lia. }
      rewrite (vec_of_len (nZ 0) O _ Lr). rewrite map_vec. apply vec_ext. intros o Ho. unfold work. rewrite (cellf_slot (t * O) O o); [|exact Ho|intros o' i Ho' [<-|[]]; reflexivity]. now apply upd_here.
  Qed.
End BackReduce.
Lemma back_sum_cu c junk (dY : mat R) lengths : has_threads c -> wf_mat dY -> nonneg lengths -> m_len dY = length lengths ->
  cu_backprop_reduce_sum c junk dY lengths = op_backprop_reduce_sum dY lengths.
Proof.
  intros HT Hw Hn Hl. unfold cu_backprop_reduce_sum. rewrite back_cu, op_back_sum by assumption. do 2 f_equal. unfold back_rows. f_equal. apply map_ext. intros p. f_equal. apply map_ext. intros x. unfold scale1. cbn. lra.
Qed.
Lemma back_mean_cu c junk (dY : mat R) lengths : has_threads c -> wf_mat dY -> nonneg lengths -> m_len dY = length lengths ->
  cu_backprop_reduce_mean c junk dY lengths = op_backprop_reduce_mean dY lengths.
Proof.
  intros HT Hw Hn Hl. unfold cu_backprop_reduce_mean. rewrite back_cu, op_back_mean by assumption. do 2 f_equal. unfold back_rows. f_equal. apply map_ext_in. intros p Hp.
  destruct (Z.eqb_spec (snd p) 0) as [E|E]; [now rewrite E|]. f_equal. apply map_ext. intros x. unfold scale_inv. destruct p as [r z]; cbn in *. unfold Rdiv.
  rewrite Rmult_1_l. apply Rmult_comm.
Qed.

(** ** backprop_reduce_max *)
Section BackMax.
  Lemma back_max_cu c (dY : mat R) which lengths : has_threads c -> ReduceSpec.positive lengths -> wf_mat dY -> m_len dY = length lengths -> in_seqs (m_cols dY) which lengths ->
    cu_backprop_reduce_max c dY which lengths = op_backprop_reduce_max dY which lengths.
  Proof.
    intros HT Hp Hw Hl Hi. destruct (back_max_ok dY which lengths Hp Hw Hl Hi) as [_ ->].
    assert (Hn : nonneg lengths) by (eapply Forall_impl; [|exact Hp]; cbn; intros; lia).
    assert (Lw : length which = length lengths) by (clear -Hi; induction Hi; cbn; congruence).
    assert (Ww : Forall (fun w => length w = m_cols dY) which) by (clear -Hi; induction Hi as [|w l ws ls [Hw _]]; constructor; auto).
    unfold cu_backprop_reduce_max. rewrite check_lengths_ok; [|eapply Forall_impl; [|exact Hp]; cbn; intros; lia | reflexivity]. cbn [bind]. set (O := m_cols dY) in *. set (N := Z.to_nat (zsum lengths)).
    assert (Ec : check_which_reduce_max which (length lengths) O lengths = Ok tt).
    { unfold check_which_reduce_max. rewrite Lw, Nat.eqb_refl. assert (E : forallb (fun w => length w =? O) which = true).
      { apply forallb_forall. intros w Hin. rewrite Forall_forall in Ww. now apply Nat.eqb_eq, Ww. }
      rewrite E. cbn. assert (E2 : forallb (fun p => within_range (fst p) 0 (snd p)) (combine which lengths) = true); [|now rewrite E2].
      clear -Hi. induction Hi as [|w l ws ls [_ Hk] Hi IH]; [reflexivity|]. cbn. rewrite IH, andb_true_r. unfold within_range. apply forallb_forall. intros z Hz. rewrite Forall_forall in Hk. specialize (Hk z Hz). cbn in Hk.
      apply andb_true_iff. split; [apply Z.leb_le|apply Z.ltb_lt]; lia. }
    rewrite Ec. cbn [bind].
    set (bt := fun t => c_seq (advance t (mkCur lengths 0 0))).
    assert (Hbt : forall t, t < N -> seq_at lengths t (bt t)).
    { intros t Ht. destruct (seq_at_ex lengths t Hn Ht) as (b & Hb). assert (E : bt t = b) by (destruct Hb as (_ & _ & E); unfold bt; now rewrite E). now rewrite E. }
    set (w := fun t o => nth o (nth (bt t) which []) 0%Z). set (dy := fun t o => nth o (nth (bt t) (m_rows dY) []) 0%R).
    set (here := fun t o => (w t o =? Z.of_nat t - Z.of_nat (off (nats lengths) (bt t)))%Z).
    set (work := fun t => concat (map (fun o => if here t o then [Wr (t * O + o) (dy t o)] else []) (seq 0 O))).
    destruct (launch_cursor 0%R O work c N (k_backprop_reduce_max (flat dY) (concat which) O) (mkCur lengths 0 0) (zeros (N * O))) as (out & E & F); auto.
    - apply repeat_length.
    - intros t s Ht Hs. unfold k_backprop_reduce_max. rewrite Hs. destruct (Hbt t Ht) as (Hb & Hr & Ea). rewrite Ea. cbn [c_seq c_start]. rewrite cur_length_at by exact Hb. cbn [bind].
      destruct (Z.eqb_spec (nth (bt t) lengths 0%Z) 0) as [E0|_]; [rewrite E0 in Hr; cbn in Hr; lia|].
      rewrite (for_n_ok O _ (fun o => if here t o then [Wr (t * O + o) (dy t o)] else [])); [reflexivity|]. intros o Ho. rewrite (load_flat 0%Z) by (try assumption; lia). cbn [bind]. fold (w t o). fold (here t o).
      destruct (here t o); [|reflexivity]. unfold flat. rewrite (load_flat 0%R) by (try assumption; unfold m_len in Hl; lia). reflexivity.
    - intros t i _ Hin. apply in_loop in Hin. destruct Hin as (o & Ho & Hin). destruct (here t o); [|contradiction]. destruct Hin as [<-|[]]. exists o. auto.
    - rewrite E. cbn [bind]. rewrite F. do 2 f_equal. unfold blocks.
      match goal with |- _ = concat ?l => set (ll := l) end. assert (Lc : length (combine (combine (m_rows dY) which) lengths) = length lengths) by (rewrite !combine_length; unfold m_len in Hl; lia).
      assert (El : map (@length (list R)) ll = nats lengths).
      { unfold ll, nats. rewrite map_map. transitivity (map (fun p : (list R * list Z) * Z => Z.to_nat (snd p)) (combine (combine (m_rows dY) which) lengths)); [apply map_ext; intros; apply max_block_length|].
        assert (L2 : length (combine (m_rows dY) which) = length lengths) by (rewrite combine_length; unfold m_len in Hl; lia).
        clear -L2. revert L2. generalize (combine (m_rows dY) which) as l. induction lengths as [|x lengths IH]; intros [|a l] L2; try discriminate; [reflexivity|]. cbn. f_equal. apply IH. now injection L2. }
      assert (LN : length (concat ll) = N). { rewrite concat_len, El. unfold N. unfold nats. rewrite zsum_nat by exact Hn. lia. }
      rewrite (vec_of_len [] N (concat ll) LN). apply vec_ext. intros t Ht. destruct (Hbt t Ht) as (Hb & Hr & _).
      assert (Et : t = off (nats lengths) (bt t) + (t - off (nats lengths) (bt t))) by lia.
      transitivity (nth (off (map (@length (list R)) ll) (bt t) + (t - off (nats lengths) (bt t))) (concat ll) []); [|rewrite El; now rewrite <- Et].
      assert (Eb : nth (bt t) ll [] = max_block (Z.to_nat (nth (bt t) lengths 0%Z)) O (w t) (dy t)).
      { pose (G := fun p : (list R * list Z) * Z => max_block (Z.to_nat (snd p)) O (fun c => nth c (snd (fst p)) 0%Z) (fun c => nth c (fst (fst p)) 0%R)). change ll with (map G (combine (combine (m_rows dY) which) lengths)). rewrite (nth_indep _ [] (G (([], []), 0%Z))) by (rewrite map_length; lia).
        rewrite map_nth, !combine_nth by (rewrite ?combine_length; unfold m_len in Hl; lia). reflexivity. }
      rewrite nth_concat_off; rewrite ?Eb, ?max_block_length; [|unfold ll; rewrite map_length; lia | lia]. unfold max_block. rewrite nth_vec by lia.
      apply vec_ext. intros o Ho. unfold work. rewrite (cellf_slot (t * O) O o); [|exact Ho|intros o' i Ho' Hin'; destruct (here t o'); [destruct Hin' as [<-|[]]; reflexivity|contradiction]].
      unfold here. replace (Z.of_nat (t - off (nats lengths) (bt t))) with (Z.of_nat t - Z.of_nat (off (nats lengths) (bt t)))%Z by lia. rewrite Z.eqb_sym.
      destruct (Z.of_nat t - Z.of_nat (off (nats lengths) (bt t)) =? w t o)%Z; [now apply upd_here|]. cbn. apply nth_zeros.
  Qed.
End BackMax.
