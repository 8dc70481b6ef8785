From Coq Require Import Reals Lra Lia.
From Verif Require Import BaseFacts CudaSpec CudaProofs SeqProofs MatProofs ReduceProofs ReduceMaxProofs Seq2colProofs Seq2colBackProofs KernelProofs CudaRowProofs CudaMaxProofs CudaSeqProofs ReduceSpec Seq2colSpec KernelModel KernelSpec CudaSpec.
Set Default Goal Selector "!".
Local Open Scope nat_scope.

(** ** The elements of the windows *)
Section Windows.
  Context {T : Type} `{Num T}.
  Definition within (lengths : list Z) (b : nat) (g : Z) : bool :=
    (Z.of_nat (off (nats lengths) b) <=? g)%Z && (g <? Z.of_nat (off (nats lengths) b) + nth b lengths 0%Z)%Z.
  Lemma windows_nth (s : list (list T)) nW I r q i : Forall (fun x => length x = I) s -> r < length s -> q < 2 * nW + 1 -> i < I ->
    nth (q * I + i) (nth r (windows nW I s) []) (nZ 0) = if (nW <=? r + q) && (r + q - nW <? length s) then nth i (nth (r + q - nW) s []) (nZ 0) else nZ 0.
  Proof.
    intros Hw Hr Hq Hi. unfold windows. set (L := repeat (zeros I) nW ++ s ++ repeat (zeros I) nW).
    change (nth r _ []) with (nth r (vec (length s) (fun i => concat (firstn (2 * nW + 1) (skipn i L)))) []). rewrite nth_vec by exact Hr.
    assert (WL : Forall (fun x => length x = I) L).
    { assert (Wz : Forall (fun x : list T => length x = I) (repeat (zeros I) nW)). { apply Forall_forall. intros x Hx. apply repeat_spec in Hx. subst x. apply repeat_length. }
      unfold L. apply Forall_app. split; [exact Wz|]. apply Forall_app. auto. }
    assert (LL : length L = nW + length s + nW) by (unfold L; rewrite !app_length, !repeat_length; lia).
    assert (Wf : Forall (fun x => length x = I) (firstn (2 * nW + 1) (skipn r L))).
    { apply Forall_forall. intros x Hx. rewrite Forall_forall in WL. apply WL. rewrite <- (firstn_skipn r L). apply in_or_app. right. rewrite <- (firstn_skipn (2 * nW + 1) (skipn r L)). apply in_or_app. now left. }
    rewrite (nth_flat I); [|exact Wf| rewrite firstn_length, skipn_length; lia|exact Hi]. rewrite nth_firstn_skipn by exact Hq.
    assert (Ez : forall j, nth j (repeat (zeros I) nW) [] = zeros I \/ nth j (repeat (@zeros T _ I) nW) [] = []).
    { intros j. destruct (Nat.ltb_spec j nW) as [Hj|Hj]; [left|right; rewrite nth_overflow by (rewrite repeat_length; lia); reflexivity]. rewrite (nth_indep _ [] (zeros I)) by (rewrite repeat_length; lia). apply nth_repeat. }
    assert (Ez' : forall j, nth i (nth j (repeat (@zeros T _ I) nW) []) (nZ 0) = nZ 0).
    { intros j. destruct (Ez j) as [-> | ->]; [unfold zeros; apply nth_repeat|now destruct i]. }
    unfold L. destruct (Nat.leb_spec nW (r + q)) as [Hge|Hlt]; cbn [andb].
    - rewrite app_nth2 by (rewrite repeat_length; lia). rewrite repeat_length. destruct (Nat.ltb_spec (r + q - nW) (length s)) as [H1|H1].
      + now rewrite app_nth1 by exact H1.
      + rewrite app_nth2 by exact H1. apply Ez'.
    - rewrite app_nth1 by (rewrite repeat_length; lia). apply Ez'.
  Qed.
  Lemma all_windows_nth (rows : list (list T)) lengths nW I t b q i : Forall (fun x => length x = I) rows -> nonneg lengths -> zsum lengths = Z.of_nat (length rows) -> seq_at lengths t b -> q < 2 * nW + 1 -> i < I ->
    let g := (Z.of_nat t + Z.of_nat q - Z.of_nat nW)%Z in
    nth (q * I + i) (nth t (concat (map (windows nW I) (seqs_of lengths rows))) []) (nZ 0) = if within lengths b g then nth i (nth (Z.to_nat g) rows []) (nZ 0) else nZ 0.
  Proof.
    intros Hw Hn Hs (Hb & Hr & _) Hq Hi g. unfold seqs_of. fold (nats lengths). set (ll := map (windows nW I) (chop (nats lengths) rows)).
    assert (Ln : length (nats lengths) = length lengths) by apply map_length.
    assert (Hend : off (nats lengths) b + nth b (nats lengths) 0 <= length rows).
    { etransitivity; [apply off_in; lia|]. rewrite (sum_nats lengths (length rows)); auto. }
    assert (El : map (@length (list T)) ll = nats lengths).
    { unfold ll. rewrite map_map. transitivity (map (@length (list T)) (chop (nats lengths) rows)); [apply map_ext; intros s; unfold windows; now rewrite map_length, seq_length|].
      apply (nth_ext _ _ 0 0); [now rewrite map_length, chop_len|]. intros k Hk. rewrite map_length, chop_len in Hk.
      change 0 with (length (@nil (list T))) at 1. rewrite map_nth, nth_chop by exact Hk. rewrite firstn_length, skipn_length. pose proof (off_in (nats lengths) k Hk). rewrite (sum_nats lengths (length rows)) in * by auto. lia. }
    assert (Et : t = off (nats lengths) b + (t - off (nats lengths) b)) by lia. rewrite Et at 1. rewrite <- El at 1.
    assert (Eb : nth b ll [] = windows nW I (firstn (nth b (nats lengths) 0) (skipn (off (nats lengths) b) rows))).
    { unfold ll. change (@nil (list T)) with (windows nW I []) at 1. rewrite map_nth, nth_chop by lia. reflexivity. }
    rewrite nth_nats in *. set (s := firstn _ _) in Eb. assert (Ls : length s = Z.to_nat (nth b lengths 0%Z)) by (unfold s; rewrite firstn_length, skipn_length; lia).
    rewrite nth_concat_off; [|unfold ll; rewrite map_length, chop_len; lia | rewrite Eb; unfold windows; rewrite map_length, seq_length; lia]. rewrite Eb.
    rewrite windows_nth; [| |lia|exact Hq|exact Hi].
    2: { apply Forall_forall. intros x Hx. rewrite Forall_forall in Hw. apply Hw. unfold s in Hx. rewrite <- (firstn_skipn (off (nats lengths) b) rows). apply in_or_app. right. rewrite <- (firstn_skipn (Z.to_nat (nth b lengths 0%Z)) (skipn _ rows)). apply in_or_app. now left. }
    rewrite Ls. unfold within. pose proof (nonneg_nth lengths b Hn).
    destruct (Nat.leb_spec nW (t - off (nats lengths) b + q)); destruct (Z.leb_spec (Z.of_nat (off (nats lengths) b)) g); try (unfold g in *; lia); cbn [andb]; [|reflexivity].
    destruct (Nat.ltb_spec (t - off (nats lengths) b + q - nW) (Z.to_nat (nth b lengths 0%Z))) as [H3|H3]; destruct (Z.ltb_spec g (Z.of_nat (off (nats lengths) b) + nth b lengths 0%Z)) as [H4|H4]; try (unfold g in *; lia); [|reflexivity].
    unfold s. rewrite nth_firstn_skipn by exact H3. do 2 f_equal. unfold g. lia.
  Qed.
  Lemma windows_all_width (rows : list (list T)) lengths nW I : Forall (fun x => length x = I) rows -> Forall (fun x => length x = (2 * nW + 1) * I) (concat (map (windows nW I) (seqs_of lengths rows))).
  Proof.
    intros Hw. apply Forall_concat. apply Forall_map. assert (Wc : Forall (Forall (fun x : list T => length x = I)) (seqs_of lengths rows)) by (apply chop_width; exact Hw).
    eapply Forall_impl; [|exact Wc]. intros s Hs. unfold windows. apply Forall_map. apply Forall_forall. intros r Hr. apply in_seq in Hr.
    set (L := repeat (zeros I) nW ++ s ++ repeat (zeros I) nW).
    assert (Wz : Forall (fun x : list T => length x = I) (repeat (zeros I) nW)). { apply Forall_forall. intros x Hx. apply repeat_spec in Hx. subst x. apply repeat_length. }
    assert (WL : Forall (fun x => length x = I) L) by (unfold L; apply Forall_app; split; [exact Wz|]; apply Forall_app; auto).
    rewrite (concat_length_const I).
    - f_equal. rewrite firstn_length, skipn_length. unfold L. rewrite !app_length, !repeat_length. lia.
    - apply Forall_forall. intros x Hx. rewrite Forall_forall in WL. apply WL. rewrite <- (firstn_skipn r L). apply in_or_app. right. rewrite <- (firstn_skipn (2 * nW + 1) (skipn r L)). apply in_or_app. now left.
  Qed.
  Lemma windows_all_len (rows : list (list T)) lengths nW I : nonneg lengths -> zsum lengths = Z.of_nat (length rows) -> length (concat (map (windows nW I) (seqs_of lengths rows))) = length rows.
  Proof.
    intros Hn Hs. rewrite <- (seqs_concat lengths rows Hn Hs) at 2. generalize (seqs_of lengths rows). intros l. induction l as [|s l IH]; [reflexivity|]. cbn [map concat]. rewrite !app_length, IH. unfold windows. now rewrite map_length, seq_length.
  Qed.
End Windows.

(** A loop of stores to consecutive elements *)
Lemma cellf_range {V} base m (v : nat -> V) a y : cellf a (concat (map (fun k => [Wr (base + k) (v k)]) (seq 0 m))) y = if (base <=? a) && (a <? base + m) then v (a - base) else y.
Proof.
  destruct (Nat.leb_spec base a) as [H1|H1]; cbn [andb].
  - destruct (Nat.ltb_spec a (base + m)) as [H2|H2].
    + replace a with (base + (a - base)) at 1 by lia. rewrite (cellf_slot base m (a - base)); [|lia|intros o i _ [<-|[]]; reflexivity]. replace (base + (a - base)) with a by lia. apply upd_here. cbn. lia.
    + apply cellf_none. intros i Hi. apply in_loop in Hi. destruct Hi as (k & Hk & [<-|[]]). cbn. lia.
  - apply cellf_none. intros i Hi. apply in_loop in Hi. destruct Hi as (k & Hk & [<-|[]]). cbn. lia.
Qed.
Lemma nth_zerosT {T} `{Num T} n a : nth a (@zeros T _ n) (nZ 0) = nZ 0. Proof. unfold zeros. apply nth_repeat. Qed.
Lemma divmod_row I j : I <> 0 -> exists q i, j = q * I + i /\ i < I.
Proof. intros HI. exists (j / I), (j mod I). split; [rewrite (Nat.mul_comm (j / I)); now apply Nat.div_mod|now apply Nat.mod_upper_bound]. Qed.

Section Seq2col.
  Context {T : Type} `{Num T}.
  Variables (lengths : list Z) (nW : nat) (c : config).
  Hypotheses (HT : has_threads c) (Hn : nonneg lengths).

  Lemma seq2col_cu (X : mat T) : wf_mat X -> zsum lengths = Z.of_nat (m_len X) -> cu_seq2col c X (Z.of_nat nW) (Some lengths) = np_seq2col X (Z.of_nat nW) (Some lengths).
  Proof.
    intros Hw Hs. rewrite seq2col_ok by assumption. unfold cu_seq2col, cu_seq2col_lengths. rewrite check_lengths_ok by assumption. cbn [bind].
    set (B := m_len X). set (I := m_cols X). destruct (Z.ltb_spec (Z.of_nat I * (Z.of_nat nW * 2 + 1)) 0); [lia|].
    replace (Z.to_nat (Z.of_nat I * (Z.of_nat nW * 2 + 1))) with ((2 * nW + 1) * I) by lia. set (W := (2 * nW + 1) * I).
    set (R := concat (map (windows nW I) (seqs_of lengths (m_rows X)))).
    assert (LR : length R = B) by (apply windows_all_len; assumption). assert (WR : Forall (fun x => length x = W) R) by (apply windows_all_width; assumption).
    destruct (Nat.eqb_spec (B * I) 0) as [E0|E0]; cbn [negb andb bind].
    { do 2 f_equal. apply Nat.eq_mul_0 in E0. destruct E0 as [E0|E0].
      - rewrite E0 in *. destruct R; [reflexivity|discriminate].
      - assert (EW : W = 0) by (unfold W; rewrite E0; lia). rewrite EW in *. rewrite Nat.mul_0_r. rewrite <- (cells_of_concat1 0 R WR). rewrite LR. f_equal. rewrite <- (length_zero_iff_nil (concat R)) || idtac.
        assert (EC : length (concat R) = 0) by (rewrite (concat_length_const 0) by exact WR; lia). apply length_zero_iff_nil in EC. now rewrite EC. }
    destruct (Nat.eqb_spec (length lengths) 0) as [E1|_]; cbn [negb].
    { destruct lengths; [|discriminate]. cbn in Hs. exfalso. apply E0. unfold B. lia. }
    set (bt := fun t => c_seq (advance t (mkCur lengths 0 0))).
    assert (HN : B = Z.to_nat (zsum lengths)) by (rewrite Hs; unfold B; lia).
    assert (Hbt : forall t, t < B -> seq_at lengths t (bt t)).
    { intros t Ht. destruct (seq_at_ex lengths t Hn ltac:(lia)) as (b & Hb). assert (E : bt t = b) by (destruct Hb as (_ & _ & E); unfold bt; now rewrite E). now rewrite E. }
    set (x_start := fun t => Z.max (Z.of_nat (off (nats lengths) (bt t))) (Z.of_nat t - Z.of_nat nW)).
    set (x_end := fun t => Z.min (Z.of_nat (off (nats lengths) (bt t)) + nth (bt t) lengths 0%Z) (Z.of_nat t + Z.of_nat nW + 1)).
    set (oo := fun t => Z.to_nat (x_start t - (Z.of_nat t - Z.of_nat nW))).
    set (v := fun t k => nth (Z.to_nat (x_start t) * I + k) (flat X) (nZ 0)).
    set (work := fun t => concat (map (fun k => [Wr (t * W + oo t * I + k) (v t k)]) (seq 0 (Z.to_nat ((x_end t - x_start t) * Z.of_nat I))))).
    assert (LX : length (flat X) = B * I) by (apply concat_length_const; exact Hw).
    assert (Hend : forall t, t < B -> (Z.of_nat (off (nats lengths) (bt t)) + nth (bt t) lengths 0%Z <= Z.of_nat B)%Z).
    { intros t Ht. destruct (Hbt t Ht) as (Hb & _). assert (L2 : bt t < length (nats lengths)) by (unfold nats; now rewrite map_length). pose proof (off_in _ _ L2) as Ho. rewrite nth_nats, (sum_nats lengths B) in Ho by assumption. pose proof (nonneg_nth lengths (bt t) Hn). lia. }
    assert (Hb3 : forall t, t < B -> (0 <= x_start t /\ x_start t <= Z.of_nat t /\ Z.of_nat t < x_end t /\ x_end t <= Z.of_nat B /\ Z.of_nat t - Z.of_nat nW <= x_start t /\ x_end t <= Z.of_nat t + Z.of_nat nW + 1)%Z).
    { intros t Ht. destruct (Hbt t Ht) as (Hb & Hr & _). specialize (Hend t Ht). unfold x_start, x_end. pose proof (nonneg_nth lengths (bt t) Hn). lia. }
    destruct (launch_cursor (nZ 0) W work c B (k_seq2col (flat X) (Z.of_nat nW) I) (mkCur lengths 0 0) (zeros (B * W))) as (out & E & F); auto.
    - apply repeat_length.
    - intros t s Ht Hst. unfold k_seq2col. rewrite Hst. destruct (Hbt t Ht) as (Hb & Hr & Ea). rewrite Ea. cbn [c_seq c_start]. rewrite cur_length_at by exact Hb. cbn [bind].
      fold (x_start t). fold (x_end t). rewrite (for_n_ok _ _ (fun k => [Wr (t * W + oo t * I + k) (v t k)])); [reflexivity|].
      destruct (Hb3 t Ht) as (B1 & B2 & B3 & B4 & B5 & B6). intros k Hk. unfold addr.
      assert (Ek : (Z.of_nat t * Z.of_nat I * (Z.of_nat nW * 2 + 1) + (x_start t - (Z.of_nat t - Z.of_nat nW)) * Z.of_nat I + Z.of_nat k)%Z = Z.of_nat (t * W + oo t * I + k)) by (unfold W, oo; nia).
      rewrite Ek. destruct (Z.ltb_spec (Z.of_nat (t * W + oo t * I + k)) 0); [lia|]. cbn [bind]. rewrite Nat2Z.id. unfold loadz, addr.
      assert (Ex : (x_start t * Z.of_nat I + Z.of_nat k)%Z = Z.of_nat (Z.to_nat (x_start t) * I + k)) by nia. rewrite Ex.
      destruct (Z.ltb_spec (Z.of_nat (Z.to_nat (x_start t) * I + k)) 0); [lia|]. cbn [bind]. rewrite Nat2Z.id. rewrite (load_nth (nZ 0)); [reflexivity|]. rewrite LX.
      assert (k < Z.to_nat (x_end t - x_start t) * I) by nia. assert (Z.to_nat (x_start t) + Z.to_nat (x_end t - x_start t) <= B) by lia. nia.
    - intros t i Ht Hi. apply in_loop in Hi. destruct Hi as (k & Hk & [<-|[]]). destruct (Hb3 t Ht) as (B1 & B2 & B3 & B4 & B5 & B6). exists (oo t * I + k). split; [|cbn; lia].
      assert (k < Z.to_nat (x_end t - x_start t) * I) by nia. assert (oo t + Z.to_nat (x_end t - x_start t) <= 2 * nW + 1) by (unfold oo; lia). unfold W. nia.
    - rewrite E. cbn [bind]. rewrite F. do 2 f_equal. rewrite (vec_of_len [] B R LR). apply vec_ext. intros t Ht.
      assert (Lr : length (nth t R []) = W) by (rewrite Forall_forall in WR; apply WR, nth_In; lia).
      rewrite (vec_of_len (nZ 0) W (nth t R []) Lr). apply vec_ext. intros j Hj.
      destruct (divmod_row I j ltac:(nia)) as (q & i & -> & Hi). assert (Hq : q < 2 * nW + 1) by (unfold W in Hj; nia).
      unfold R. rewrite (all_windows_nth (m_rows X) lengths nW I t (bt t) q i) by auto. unfold work. rewrite cellf_range, nth_zerosT.
      destruct (Hb3 t Ht) as (B1 & B2 & B3 & B4 & B5 & B6). unfold within.
      set (g := (Z.of_nat t + Z.of_nat q - Z.of_nat nW)%Z).
      assert (A1 : (t * W + oo t * I <=? t * W + (q * I + i)) = (Z.of_nat (off (nats lengths) (bt t)) <=? g)%Z).
      { destruct (Z.leb_spec (Z.of_nat (off (nats lengths) (bt t))) g).
        - apply Nat.leb_le. assert (oo t <= q) by (unfold oo, x_start, g in *; lia). nia.
        - apply Nat.leb_gt. assert (q + 1 <= oo t) by (unfold oo, x_start, g in *; lia). nia. }
      rewrite A1. destruct (Z.leb_spec (Z.of_nat (off (nats lengths) (bt t))) g) as [G1|G1]; cbn [andb]; [|reflexivity].
      assert (Q1 : oo t <= q) by (unfold oo, x_start, g in *; lia).
      assert (A2 : (t * W + (q * I + i) <? t * W + oo t * I + Z.to_nat ((x_end t - x_start t) * Z.of_nat I)) = (g <? Z.of_nat (off (nats lengths) (bt t)) + nth (bt t) lengths 0%Z)%Z).
      { replace (Z.to_nat ((x_end t - x_start t) * Z.of_nat I)) with (Z.to_nat (x_end t - x_start t) * I) by nia.
        destruct (Z.ltb_spec g (Z.of_nat (off (nats lengths) (bt t)) + nth (bt t) lengths 0%Z)).
        - apply Nat.ltb_lt. assert (q + 1 <= oo t + Z.to_nat (x_end t - x_start t)) by (unfold oo, x_start, x_end, g in *; lia). nia.
        - apply Nat.ltb_ge. assert (oo t + Z.to_nat (x_end t - x_start t) <= q) by (unfold oo, x_start, x_end, g in *; lia). nia. }
      rewrite A2. destruct (Z.ltb_spec g (Z.of_nat (off (nats lengths) (bt t)) + nth (bt t) lengths 0%Z)) as [G2|G2]; [|reflexivity].
      unfold v. replace (t * W + (q * I + i) - (t * W + oo t * I)) with ((q - oo t) * I + i) by nia.
      replace (Z.to_nat (x_start t) * I + ((q - oo t) * I + i)) with (Z.to_nat g * I + i).
      + unfold flat. apply nth_flat; [exact Hw| |exact Hi]. specialize (Hend t Ht). unfold m_len in *. unfold B in *. lia.
      + assert (Eg : Z.to_nat g = Z.to_nat (x_start t) + (q - oo t)) by (unfold oo, g in *; lia). rewrite Eg. nia.
  Qed.
End Seq2col.
Lemma seq2col_cu_none {T} `{Num T} c (X : mat T) nW : cu_seq2col c X nW None = cu_seq2col c X nW (Some [Z.of_nat (m_len X)]).
Proof. unfold cu_seq2col, cu_seq2col_lengths. rewrite check_lengths_ok; [reflexivity|constructor; [lia|constructor]|cbn; lia]. Qed.
