From Coq Require QArith.
From Verif Require Import NumQ.
From Verif Require Import BaseFacts Seq2colSpec SeqProofs PaddedProofs PackProofs AdaptProofs MatProofs ReduceProofs ReduceMaxProofs ReduceFirstProofs Seq2colProofs.
Set Default Goal Selector "!".
Local Open Scope R_scope.

Local Notation cells := (list (list R)).
Local Notation wide O := (Forall (fun r : list R => length r = O)).

Definition zipadd (A B : cells) : cells := map (fun p => vec_add (fst p) (snd p) 1) (combine A B).
Lemma zipadd_length A B : length A = length B -> length (zipadd A B) = length A.
Proof. intros E. unfold zipadd. rewrite map_length, combine_length. lia. Qed.
Lemma vec_add_length (a b : list R) s : length a = length b -> length (vec_add a b s) = length a.
Proof. intros E. unfold vec_add, vmap2. rewrite map_length, combine_length. lia. Qed.
Lemma vec_add_dot (a b c : list R) : length a = length b -> dot (vec_add a b 1) c = dot a c + dot b c.
Proof. intros E. rewrite <- dot_plus_l by exact E. f_equal. unfold vec_add, vmap2. apply map_ext. intros [x y]. cbn. lra. Qed.
Lemma zipadd_dot O A : forall B X, length A = length B -> wide O A -> wide O B -> mdot (zipadd A B) X = mdot A X + mdot B X.
Proof.
  induction A as [|a A IH]; intros [|b B] X E HA HB; try discriminate; [rewrite mdot_nil_l; change (zipadd [] []) with (@nil (list R)); rewrite mdot_nil_l; lra|].
  apply Forall_cons_iff in HA as [HA1 HA2]. apply Forall_cons_iff in HB as [HB1 HB2]. destruct X as [|x X]; [unfold mdot; cbn; lra|].
  change (zipadd (a :: A) (b :: B)) with (vec_add a b 1 :: zipadd A B). rewrite !mdot_cons, vec_add_dot, IH by (try assumption; cbn in E; congruence || lia). lra.
Qed.
Lemma zipadd_wide O A B : wide O A -> wide O B -> wide O (zipadd A B).
Proof.
  revert B. induction A as [|a A IH]; intros [|b B] HA HB; try constructor; apply Forall_cons_iff in HA as [HA1 HA2]; apply Forall_cons_iff in HB as [HB1 HB2].
  - change (length (vec_add a b 1) = O). rewrite vec_add_length; congruence.
  - now apply IH.
Qed.

Lemma add_ok O (D src : cells) doff soff n X : (0 <= doff)%Z -> (0 <= soff)%Z -> (0 <= n)%Z -> (doff + n <= Z.of_nat (length D))%Z -> (soff + n <= Z.of_nat (length src))%Z ->
  wide O D -> wide O src -> length X = length D ->
  exists D', add_cells D doff src soff n = Ok D' /\ length D' = length D /\ wide O D' /\
    mdot D' X = mdot D X + mdot (firstn (Z.to_nat n) (skipn (Z.to_nat soff) src)) (firstn (Z.to_nat n) (skipn (Z.to_nat doff) X)).
Proof.
  intros H1 H2 H3 H4 H5 WD WS HX. unfold add_cells. destruct (Z.ltb_spec doff 0); [lia|]. destruct (Z.ltb_spec soff 0); [lia|]. destruct (Z.ltb_spec n 0); [lia|].
  destruct (Z.ltb_spec (Z.of_nat (length D)) (doff + n)); [lia|]. destruct (Z.ltb_spec (Z.of_nat (length src)) (soff + n)); [lia|]. cbn [orb].
  set (a := Z.to_nat doff). set (k := Z.to_nat n). set (seg := firstn k (skipn (Z.to_nat soff) src)). cbn [nZ num_R]. fold (zipadd (firstn k (skipn a D)) seg).
  assert (Ls : length seg = k) by (subst seg k; rewrite firstn_length, skipn_length; lia). assert (Lm : length (firstn k (skipn a D)) = k) by (subst a k; rewrite firstn_length, skipn_length; lia).
  assert (Ws : wide O seg) by (subst seg; apply wide_firstn, wide_skipn; exact WS). assert (Wm : wide O (firstn k (skipn a D))) by (apply wide_firstn, wide_skipn; exact WD).
  clearbody seg. eexists. split; [reflexivity|].
  assert (La : length (firstn a D) = a) by (subst a; rewrite firstn_length; lia).
  split; [rewrite !app_length, zipadd_length, skipn_length by congruence; lia|].
  split; [apply Forall_app; split; [apply wide_firstn; exact WD|]; apply Forall_app; split; [now apply zipadd_wide | apply wide_skipn; exact WD]|].
  assert (ED : D = firstn a D ++ firstn k (skipn a D) ++ skipn (a + k) D) by (rewrite <- (skipn_skipn k a) || idtac; rewrite <- (firstn_skipn a D) at 1; f_equal; rewrite <- (firstn_skipn k (skipn a D)) at 1; f_equal; rewrite skipn_skipn; reflexivity).
  assert (EX : X = firstn a X ++ firstn k (skipn a X) ++ skipn (a + k) X) by (rewrite <- (firstn_skipn a X) at 1; f_equal; rewrite <- (firstn_skipn k (skipn a X)) at 1; f_equal; rewrite skipn_skipn; reflexivity).
  assert (La' : length (firstn a X) = a) by (subst a; rewrite firstn_length; lia). assert (Lm' : length (firstn k (skipn a X)) = k) by (subst a k; rewrite firstn_length, skipn_length; lia).
  rewrite EX at 1. rewrite ED at 4. rewrite EX at 4. rewrite !mdot_app by (rewrite ?zipadd_length; congruence). rewrite (zipadd_dot O) by (try assumption; congruence). lra.
Qed.

Section Back.
  Context (X : cells) (I nW : nat) (dc : cells).
  Context (HX : wide I X) (Hdc : wide I dc).
  Local Notation nF := (2 * nW + 1)%nat.
  Local Notation zc := (@zeros R _ I).
  Context (Ldc : length dc = (length X * nF)%nat).

  Lemma mdot_zeros_r n (A : cells) : mdot A (repeat (repeat 0 I) n) = 0.
  Proof. rewrite mdot_comm. apply mdot_zeros. Qed.
  Lemma split3 {A} (l : list A) a k b : length l = (a + (k + b))%nat -> l = firstn a l ++ firstn k (skipn a l) ++ skipn (a + k) l.
  Proof. intros E. rewrite <- (firstn_skipn a l) at 1. f_equal. rewrite <- (firstn_skipn k (skipn a l)) at 1. f_equal. apply skipn_skipn. Qed.

  Lemma back_row (P s Q : cells) i D : X = P ++ s ++ Q -> (i < length s)%nat -> length D = length X -> wide I D ->
    exists D', backprop_seq2col_row dc (Z.of_nat nW) (Z.of_nat (length P)) (Z.of_nat (length P + length s)) (Z.of_nat (length P + i)) D = Ok D' /\
      length D' = length D /\ wide I D' /\
      mdot D' X = mdot D X + mdot (firstn nF (skipn ((length P + i) * nF) dc)) (firstn nF (skipn i (repeat zc nW ++ s ++ repeat zc nW))).
  Proof.
    intros EX Hi LD WD. rewrite window_eq by exact Hi. set (a := (nW - i)%nat). set (n := (Nat.min (length s) (i + nW + 1) - (i - nW))%nat). set (b := (nF - a - n)%nat).
    assert (E : nF = (a + (n + b))%nat) by (subst a n b; lia).
    assert (Lx : length X = (length P + (length s + length Q))%nat) by (rewrite EX, !app_length; reflexivity).
    assert (Hj : ((length P + i) * nF + nF <= length dc)%nat) by (rewrite Ldc; nia).
    unfold backprop_seq2col_row.
    destruct (add_ok I D dc (Z.max (Z.of_nat (length P)) (Z.of_nat (length P + i) - Z.of_nat nW))
      (Z.of_nat (length P + i) * (Z.of_nat nW * 2 + 1) + (Z.max (Z.of_nat (length P)) (Z.of_nat (length P + i) - Z.of_nat nW) - (Z.of_nat (length P + i) - Z.of_nat nW)))
      (Z.min (Z.of_nat (length P + length s)) (Z.of_nat (length P + i) + Z.of_nat nW + 1) - Z.max (Z.of_nat (length P)) (Z.of_nat (length P + i) - Z.of_nat nW)) X) as (D' & A1 & A2 & A3 & A4); try assumption; try lia.
    exists D'. split; [exact A1|]. split; [exact A2|]. split; [exact A3|]. rewrite A4. f_equal.
    set (row := firstn nF (skipn ((length P + i) * nF) dc)). assert (Lr : length row = nF) by (subst row; rewrite firstn_length, skipn_length; lia).
    rewrite (split3 row a n b) by lia. rewrite mdot_app by (rewrite firstn_length, repeat_length; lia).
    assert (Lm : length (firstn n (skipn (i - nW) s)) = n) by (rewrite firstn_length, skipn_length; subst n; lia).
    rewrite mdot_app by (rewrite Lm, firstn_length, skipn_length; lia). unfold zeros. cbn [nZ num_R]. rewrite !mdot_zeros_r, Rplus_0_l, Rplus_0_r. f_equal.
    - subst row. rewrite skipn_firstn_comm, firstn_firstn, skipn_skipn. f_equal; [subst n a b; lia|]. f_equal. subst a. nia.
    - rewrite EX. replace (Z.to_nat (Z.max (Z.of_nat (length P)) (Z.of_nat (length P + i) - Z.of_nat nW))) with (length P + (i - nW))%nat by lia.
      rewrite skipn_app, skipn_all2 by lia. cbn [app]. replace (length P + (i - nW) - length P)%nat with (i - nW)%nat by lia. rewrite skipn_app. rewrite firstn_app, skipn_length.
      match goal with |- firstn ?k _ ++ firstn ?k2 _ = _ => replace k2 with 0%nat by (subst n; lia); replace k with n by (subst n; lia) end. rewrite firstn_O, app_nil_r. reflexivity.
  Qed.

  Lemma back_rows2 (P s Q : cells) : X = P ++ s ++ Q -> forall n i D, (i + n = length s)%nat -> length D = length X -> wide I D ->
    exists D', for_rows (backprop_seq2col_row dc (Z.of_nat nW) (Z.of_nat (length P)) (Z.of_nat (length P + length s))) (Z.of_nat (length P + i)) n D = Ok D' /\
      length D' = length D /\ wide I D' /\
      mdot D' X = mdot D X + mdot (firstn (n * nF) (skipn ((length P + i) * nF) dc)) (concat (map (fun i => firstn nF (skipn i (repeat zc nW ++ s ++ repeat zc nW))) (seq i n))).
  Proof.
    intros EX. induction n as [|n IH]; intros i D Hi LD WD.
    - exists D. cbn [for_rows seq map concat Nat.mul firstn]. rewrite mdot_nil_l. repeat split; try assumption. lra.
    - destruct (back_row P s Q i D EX) as (D1 & A1 & A2 & A3 & A4); try assumption; [lia|].
      destruct (IH (S i) D1) as (D2 & B1 & B2 & B3 & B4); try assumption; [lia | congruence|].
      exists D2. cbn [for_rows]. rewrite A1. cbn [bind]. replace (Z.of_nat (length P + i) + 1)%Z with (Z.of_nat (length P + S i)) by lia. split; [exact B1|]. split; [congruence|]. split; [exact B3|].
      rewrite B4, A4. cbn [seq map concat]. change (S n * nF)%nat with (nF + n * nF)%nat.
      assert (Lx : length X = (length P + (length s + length Q))%nat) by (rewrite EX, !app_length; reflexivity).
      assert (Hj : ((length P + i) * nF + (nF + n * nF) <= length dc)%nat) by (rewrite Ldc; nia).
      assert (Es : firstn (nF + n * nF) (skipn ((length P + i) * nF) dc) = firstn nF (skipn ((length P + i) * nF) dc) ++ firstn (n * nF) (skipn ((length P + S i) * nF) dc)).
      { rewrite <- (firstn_skipn nF (firstn (nF + n * nF) _)). rewrite firstn_firstn. f_equal; [f_equal; lia|]. rewrite skipn_firstn_comm, skipn_skipn. f_equal; [lia|]. f_equal. lia. }
      rewrite Es, mdot_app; [lra|]. rewrite window_length by lia. rewrite firstn_length, skipn_length. lia.
  Qed.

  Lemma back_seqs l : forall (P Y D : cells), X = P ++ Y -> nonneg l -> Z.of_nat (length Y) = zsum l -> length D = length X -> wide I D ->
    exists D', for_seqs (backprop_seq2col_row dc (Z.of_nat nW)) (Z.of_nat (length P)) l D = Ok D' /\ length D' = length D /\ wide I D' /\
      mdot D' X = mdot D X + mdot (skipn (length P * nF) dc) (concat (map (wcells I nW) (seqs_of l Y))).
  Proof.
    induction l as [|n l IH]; intros P Y D EX Hn Hs LD WD.
    - exists D. cbn [for_seqs seqs_of map chop concat]. repeat split; try assumption. rewrite (mdot_comm _ []), mdot_nil_l. lra.
    - apply Forall_cons_iff in Hn as [Hn1 Hn2]. pose proof (zsum_nonneg _ Hn2) as Hz. cbn [zsum fold_right] in Hs. fold (zsum l) in Hs.
      cbn [for_seqs seqs_of map chop]. fold (seqs_of l (skipn (Z.to_nat n) Y)).
      set (s := firstn (Z.to_nat n) Y). set (Q := skipn (Z.to_nat n) Y). assert (EY : Y = s ++ Q) by (symmetry; apply firstn_skipn).
      assert (Es : length s = Z.to_nat n) by (subst s; rewrite firstn_length; lia). assert (EQ : Z.of_nat (length Q) = zsum l) by (subst Q; rewrite skipn_length; lia).
      clearbody s Q. subst Y. destruct (back_rows2 P s Q EX (length s) 0 D) as (D1 & A1 & A2 & A3 & A4); try assumption; [reflexivity|]. rewrite Nat.add_0_r in A1, A4.
      replace (Z.of_nat (length P) + n)%Z with (Z.of_nat (length P + length s)) by lia. replace (Z.to_nat (Z.of_nat (length P + length s) - Z.of_nat (length P))) with (length s) by lia.
      rewrite A1. cbn [bind]. replace (length P + length s)%nat with (length (P ++ s)) by apply app_length.
      destruct (IH (P ++ s) Q D1) as (D2 & B1 & B2 & B3 & B4); try assumption; [now rewrite <- app_assoc | congruence|].
      exists D2. split; [exact B1|]. split; [congruence|]. split; [exact B3|]. rewrite B4, A4. cbn [concat]. fold (wcells I nW s).
      assert (Lx : length X = (length P + (length s + length Q))%nat) by (rewrite EX, !app_length; reflexivity).
      assert (Lw : length (wcells (T := R) I nW s) = (length s * nF)%nat).
      { unfold wcells. replace (length s * nF)%nat with (length (seq 0 (length s)) * nF)%nat by (now rewrite seq_length).
        assert (G : forall k, Forall (fun i => (i < length s)%nat) k -> length (concat (map (fun i => firstn nF (skipn i (repeat zc nW ++ s ++ repeat zc nW))) k)) = (length k * nF)%nat).
        { clear. induction k as [|i k IH]; intros Hk; [reflexivity|]. apply Forall_cons_iff in Hk as [H1 H2]. cbn [map concat length]. rewrite app_length, window_length, IH by assumption. lia. }
        apply G. apply Forall_forall. intros i Hi. apply in_seq in Hi. lia. }
      rewrite <- (firstn_skipn (length s * nF) (skipn (length P * nF) dc)) at 2.
      assert (Lf : length (firstn (length s * nF) (skipn (length P * nF) dc)) = (length s * nF)%nat) by (rewrite firstn_length, skipn_length, Ldc; nia).
      rewrite mdot_app by congruence. rewrite skipn_skipn, app_length. replace (length P * nF + length s * nF)%nat with ((length P + length s) * nF)%nat by lia. lra.
  Qed.
End Back.

Lemma cells_of_length {T} I n : forall flat : list T, length (cells_of I n flat) = n.
Proof. induction n as [|n IH]; intros flat; [reflexivity|]. cbn. now rewrite IH. Qed.
Lemma cells_of_app {T} I a b : forall l m : list T, length l = (a * I)%nat -> cells_of I (a + b) (l ++ m) = cells_of I a l ++ cells_of I b m.
Proof.
  induction a as [|a IH]; intros l m E; [destruct l; [reflexivity | discriminate]|]. cbn [Nat.add cells_of app].
  rewrite firstn_app, skipn_app. replace (I - length l)%nat with 0%nat by lia. cbn [firstn skipn]. rewrite app_nil_r. f_equal. apply IH. rewrite skipn_length. lia.
Qed.
Lemma cells_of_concat {T} I nF : forall rows : list (list T), Forall (fun r => length r = (nF * I)%nat) rows ->
  cells_of I (length rows * nF) (concat rows) = concat (map (cells_of I nF) rows).
Proof.
  induction rows as [|r rows IH]; intros Hw; [reflexivity|]. apply Forall_cons_iff in Hw as [H1 H2]. cbn [length concat map]. change (S (length rows) * nF)%nat with (nF + length rows * nF)%nat.
  rewrite cells_of_app by exact H1. now rewrite IH.
Qed.
Lemma cells_of_wide {T} I n : forall flat : list T, (n * I <= length flat)%nat -> Forall (fun r => length r = I) (cells_of I n flat).
Proof. induction n as [|n IH]; intros flat E; constructor; [rewrite firstn_length; lia | apply IH; rewrite skipn_length; lia]. Qed.
Lemma cells_of_dot I n : forall (flat : list R) w, length flat = (n * I)%nat -> length w = n -> wide I w -> mdot (cells_of I n flat) w = dot flat (concat w).
Proof.
  induction n as [|n IH]; intros flat w El Lw Hw; destruct w as [|c w]; try discriminate; [destruct flat; [reflexivity | discriminate]|].
  apply Forall_cons_iff in Hw as [H1 H2]. cbn [cells_of concat]. rewrite mdot_cons. rewrite IH by (try assumption; try (cbn in Lw; lia); rewrite skipn_length; lia).
  rewrite <- (firstn_skipn I flat) at 3. rewrite dot_app; [reflexivity|]. rewrite firstn_length. lia.
Qed.

Lemma window_wide nW I (s : cells) i : wide I s -> wide I (firstn (2 * nW + 1) (skipn i (repeat (@zeros R _ I) nW ++ s ++ repeat (zeros I) nW))).
Proof.
  intros Hs. apply wide_firstn, wide_skipn. apply Forall_app. split; [apply Forall_forall; intros r Hr; apply repeat_spec in Hr; subst r; apply repeat_length|].
  apply Forall_app. split; [exact Hs|]. apply Forall_forall; intros r Hr; apply repeat_spec in Hr; subst r; apply repeat_length.
Qed.
Lemma allw_wide nW I (seqs : list cells) : Forall (wide I) seqs -> Forall (wide I) (allw I nW seqs).
Proof.
  intros Hs. unfold allw. apply Forall_concat. apply Forall_map. eapply Forall_impl; [|exact Hs]. cbn. intros s H1. apply Forall_map. apply Forall_forall. intros i _. now apply window_wide.
Qed.

Lemma mdot_rows I nF : forall (rows : cells) (ws : list cells), length rows = length ws -> Forall (fun r => length r = (nF * I)%nat) rows -> Forall (fun w => length w = nF) ws -> Forall (wide I) ws ->
  mdot (concat (map (cells_of I nF) rows)) (concat ws) = mdot rows (map (@concat R) ws).
Proof.
  induction rows as [|r rows IH]; intros [|w ws] E H1 H2 H3; try discriminate; [reflexivity|].
  apply Forall_cons_iff in H1 as [A1 A2]. apply Forall_cons_iff in H2 as [B1 B2]. apply Forall_cons_iff in H3 as [C1 C2]. cbn [map concat].
  rewrite mdot_app by (rewrite cells_of_length; congruence). rewrite mdot_cons, IH by (try assumption; cbn in E; lia). f_equal. now apply cells_of_dot.
Qed.

Lemma seq2col_adjoint (dY : mat R) nW I l : wf_mat dY -> m_cols dY = ((2 * nW + 1) * I)%nat -> nonneg l -> zsum l = Z.of_nat (m_len dY) ->
  exists dX, np_backprop_seq2col dY (Z.of_nat nW) (Some l) = Ok dX /\ m_cols dX = I /\ wf_mat dX /\ m_len dX = m_len dY /\
    forall X, wf_mat X -> m_cols X = I -> m_len X = m_len dY ->
      mdot (m_rows dX) (m_rows X) = mdot (m_rows dY) (concat (map (windows nW I) (seqs_of l (m_rows X)))).
Proof.
  intros Hw Hc Hn Hs. unfold np_backprop_seq2col. rewrite lengths_ok by assumption. cbn [bind].
  replace (Z.quot (Z.of_nat (m_cols dY)) (Z.of_nat nW * 2 + 1)) with (Z.of_nat I).
  2:{ rewrite Hc, Nat2Z.inj_mul. replace (Z.of_nat (2 * nW + 1)) with (Z.of_nat nW * 2 + 1)%Z by lia. rewrite Z.mul_comm, Z.quot_mul by lia. reflexivity. }
  rewrite Nat2Z.id. replace (Z.to_nat (Z.of_nat nW * 2 + 1)) with (2 * nW + 1)%nat by lia.
  destruct (Z.ltb_spec (Z.of_nat I) 0); [lia|].
  assert (Hwin : forall X, wf_mat X -> m_cols X = I -> m_len X = m_len dY -> concat (map (windows nW I) (seqs_of l (m_rows X))) = map (@concat R) (allw I nW (seqs_of l (m_rows X))) /\
     length (allw I nW (seqs_of l (m_rows X))) = m_len dY /\ Forall (wide I) (allw I nW (seqs_of l (m_rows X)))).
  { intros X HX HcX HlX. split; [symmetry; apply allw_windows|]. split; [rewrite allw_length, seqs_concat by (try assumption; unfold m_len in *; lia); exact HlX|].
    apply allw_wide. unfold seqs_of. apply chop_width. rewrite <- HcX. exact HX. }
  destruct ((Z.of_nat I =? 0)%Z || (m_len dY * m_cols dY =? 0)%nat || (length l =? 0)%nat) eqn:Eb.
  - eexists. split; [reflexivity|]. cbn [mzeros m_cols m_rows]. split; [reflexivity|]. split; [unfold wf_mat; cbn [mzeros m_cols m_rows]; apply Forall_forall; intros r Hr; apply repeat_spec in Hr; subst r; apply repeat_length|].
    split; [unfold m_len; cbn [mzeros m_rows]; apply repeat_length|]. intros X HX HcX HlX. unfold zeros. cbn [nZ num_R]. rewrite mdot_zeros. symmetry.
    apply orb_true_iff in Eb as [Eb|Eb]; [apply orb_true_iff in Eb as [Eb|Eb]|].
    + apply Z.eqb_eq in Eb. assert (E0 : I = 0%nat) by lia. unfold wf_mat in Hw. rewrite Hc, E0, Nat.mul_0_r in Hw. clear -Hw.
      revert Hw. generalize (m_rows dY) as rows. induction rows as [|r rows IH]; intros Hw; [reflexivity|]. apply Forall_cons_iff in Hw as [H1 H2]. destruct r; [|discriminate].
      destruct (concat (map (windows nW I) (seqs_of l (m_rows X)))) as [|c cs] eqn:E; [reflexivity|]. clear E. rewrite mdot_cons. change (dot [] c) with 0. rewrite Rplus_0_l. clear IH.
      revert cs. induction rows as [|r rows IH]; intros [|d cs]; try reflexivity. apply Forall_cons_iff in H2 as [H2 H3]. destruct r; [|discriminate]. rewrite mdot_cons, IH by assumption. change (dot [] d) with 0. lra.
    + apply Nat.eqb_eq in Eb. apply Nat.eq_mul_0 in Eb as [Eb|Eb].
      * unfold m_len in Eb. apply length_zero_iff_nil in Eb. rewrite Eb. apply mdot_nil_l.
      * unfold wf_mat in Hw. rewrite Eb in Hw. clear -Hw. revert Hw. generalize (concat (map (windows nW I) (seqs_of l (m_rows X)))) as cs. generalize (m_rows dY) as rows.
        induction rows as [|r rows IH]; intros [|d cs] Hw; try reflexivity. apply Forall_cons_iff in Hw as [H2 H3]. destruct r; [|discriminate]. rewrite mdot_cons, IH by assumption. change (dot [] d) with 0. lra.
    + apply Nat.eqb_eq in Eb. apply length_zero_iff_nil in Eb. subst l. cbn [zsum fold_right] in Hs. assert (E0 : m_len dY = 0%nat) by lia. unfold m_len in E0. apply length_zero_iff_nil in E0. rewrite E0. apply mdot_nil_l.
  - clear Eb. set (dc := cells_of I (m_len dY * (2 * nW + 1)) (concat (m_rows dY))).
    assert (Hw' : Forall (fun r => length r = ((2 * nW + 1) * I)%nat) (m_rows dY)) by (unfold wf_mat in Hw; rewrite Hc in Hw; exact Hw).
    assert (Edc : dc = concat (map (cells_of I (2 * nW + 1)) (m_rows dY))) by (apply cells_of_concat; exact Hw').
    assert (Wdc : wide I dc).
    { rewrite Edc. apply Forall_concat. apply Forall_map. eapply Forall_impl; [|exact Hw']. cbn. intros r Hr. apply cells_of_wide. lia. }
    assert (Ldc : length dc = (m_len dY * (2 * nW + 1))%nat) by apply cells_of_length.
    assert (W0 : wide I (repeat (@zeros R _ I) (m_len dY))) by (apply Forall_forall; intros r Hr; apply repeat_spec in Hr; subst r; apply repeat_length).
    assert (G : forall X, wide I X -> length X = m_len dY -> exists D', for_seqs (backprop_seq2col_row dc (Z.of_nat nW)) 0 l (repeat (zeros I) (m_len dY)) = Ok D' /\ length D' = m_len dY /\ wide I D' /\
       mdot D' X = mdot dc (concat (map (wcells I nW) (seqs_of l X)))).
    { intros X WX LX. destruct (back_seqs X I nW dc Wdc ltac:(rewrite Ldc, LX; reflexivity) l [] X (repeat (zeros I) (m_len dY))) as (D' & A1 & A2 & A3 & A4); try assumption; [reflexivity | lia | rewrite repeat_length; lia|].
      exists D'. split; [exact A1|]. split; [rewrite A2; apply repeat_length|]. split; [exact A3|]. rewrite A4. unfold zeros. cbn [nZ num_R]. rewrite mdot_zeros. cbn [length Nat.mul skipn]. lra. }
    destruct (G (repeat (zeros I) (m_len dY)) W0 (repeat_length _ _)) as (D & A1 & A2 & A3 & _). rewrite A1. cbn [bind]. eexists. split; [reflexivity|]. cbn [m_cols m_rows]. split; [reflexivity|]. split; [exact A3|]. split; [exact A2|].
    intros X HX HcX HlX. assert (WX : wide I (m_rows X)) by (rewrite <- HcX; exact HX). destruct (G (m_rows X) WX HlX) as (D' & B1 & _ & _ & B4). rewrite A1 in B1. injection B1 as <-. rewrite B4.
    destruct (Hwin X HX HcX HlX) as (E1 & E2 & E3). rewrite E1, wcells_allw, Edc. apply mdot_rows; try assumption; [unfold m_len in E2; congruence | apply allw_width].
Qed.


(** ** The portable version *)
Lemma op_rows_eq {T} (z : list T) (X : list (list T)) : forall p,
  map (fun q => fst q ++ fst (snd q) ++ snd (snd q)) (combine (firstn (length X) (p :: removelast X)) (combine X (firstn (length X) (tl X ++ [z]))))
  = map (fun i => concat (firstn 3 (skipn i (p :: X ++ [z])))) (seq 0 (length X)).
Proof.
  induction X as [|x X IH]; intros p; [reflexivity|]. cbn [length seq map]. rewrite <- seq_shift, map_map.
  assert (EL : firstn (S (length X)) (p :: removelast (x :: X)) = p :: firstn (length X) (x :: removelast X)) by (cbn [firstn]; f_equal; destruct X; reflexivity).
  rewrite EL. assert (ER : firstn (S (length X)) (tl (x :: X) ++ [z]) = hd z (X ++ [z]) :: firstn (length X) (tl X ++ [z])) by (destruct X; reflexivity). rewrite ER. cbn [combine map fst snd].
  f_equal; [destruct X; cbn; now rewrite ?app_nil_r|]. exact (IH x).
Qed.
Lemma op_seq2col_ok {T} `{Num T} (X : mat T) : wf_mat X -> m_cols X <> 0%nat -> op_seq2col X 1 = np_seq2col X 1 None.
Proof.
  intros Hw Hc. change 1%Z with (Z.of_nat 1) at 2. rewrite seq2col_none_ok by exact Hw. unfold op_seq2col. cbn [Z.eqb Pos.eqb negb]. destruct (Nat.eqb_spec (m_cols X) 0); [contradiction|].
  do 2 f_equal; [lia|]. unfold m_len. rewrite op_rows_eq. reflexivity.
Qed.
Lemma op_seq2col_other {T} `{Num T} (X : mat T) nW : nW <> 1%Z -> op_seq2col X nW = Err AssertionError /\ op_backprop_seq2col X nW = Err AssertionError.
Proof. intros Hn. unfold op_seq2col, op_backprop_seq2col. destruct (Z.eqb_spec nW 1); [contradiction|]. split; reflexivity. Qed.

Lemma madd_dot O (A B X : cells) : length A = length B -> wide O A -> wide O B -> mdot (madd A B) X = mdot A X + mdot B X.
Proof.
  revert B X. induction A as [|a A IH]; intros [|b B] X E HA HB; try discriminate; [change (madd [] []) with (@nil (list R)); rewrite mdot_nil_l; lra|].
  apply Forall_cons_iff in HA as [HA1 HA2]. apply Forall_cons_iff in HB as [HB1 HB2]. destruct X as [|x X]; [unfold mdot; cbn; lra|].
  change (madd (a :: A) (b :: B)) with (vmap2 Rplus a b :: madd A B). rewrite !mdot_cons, IH by (try assumption; cbn in E; lia).
  assert (Ed : dot (vmap2 Rplus a b) x = dot a x + dot b x) by (rewrite <- dot_plus_l by congruence; reflexivity). rewrite Ed. lra.
Qed.
Lemma madd_shape O (A B : cells) : length A = length B -> wide O A -> wide O B -> length (madd A B) = length A /\ wide O (madd A B).
Proof.
  intros E HA HB. unfold madd. split; [rewrite map_length, combine_length; lia|]. revert B E HB. induction A as [|a A IH]; intros [|b B] E HB; try discriminate; [constructor|].
  apply Forall_cons_iff in HA as [HA1 HA2]. apply Forall_cons_iff in HB as [HB1 HB2]. cbn [combine map]. constructor; [|apply IH; try assumption; cbn in E; lia].
  cbn [fst snd]. unfold vmap2. rewrite map_length, combine_length. lia.
Qed.

(** Moving the shift from the gradient to the rows. *)
Lemma mdot_shift_left I (p X : cells) : length p = length X -> wide I p -> wide I X ->
  mdot (tl p ++ [repeat 0 I]) X = mdot p (repeat 0 I :: removelast X) \/ X = [].
Proof.
  intros E Hp HX. destruct p as [|q p]; [destruct X; [now right | discriminate]|]. left. cbn [tl]. destruct X as [|x X _] using rev_ind; [discriminate|].
  rewrite app_length in E. cbn [length] in E. rewrite removelast_last. rewrite mdot_app by lia. rewrite !mdot_cons. rewrite (dot_comm q), !dot_zeros_l, mdot_nil_l. lra.
Qed.
Lemma mdot_shift_right I (p X : cells) : length p = length X -> wide I p -> wide I X ->
  mdot (repeat 0 I :: removelast p) X = mdot p (tl X ++ [repeat 0 I]) \/ X = [].
Proof.
  intros E Hp HX. destruct X as [|x X]; [now right|]. left. cbn [tl]. destruct p as [|q p _] using rev_ind; [discriminate|].
  rewrite app_length in E. cbn [length] in E. rewrite removelast_last, mdot_cons, dot_zeros_l. rewrite mdot_app by lia. rewrite !mdot_cons, (dot_comm q), dot_zeros_l, mdot_nil_l. lra.
Qed.
Lemma mdot_split3 (I : nat) : forall dY L M Rr : cells, wide (3 * I)%nat dY -> wide I L -> wide I M -> wide I Rr -> length L = length dY -> length M = length dY -> length Rr = length dY ->
  mdot dY (map (fun q => fst q ++ fst (snd q) ++ snd (snd q)) (combine L (combine M Rr))) =
  mdot (map (fun r => firstn I (skipn (0 * I)%nat r)) dY) L + mdot (map (fun r => firstn I (skipn (1 * I)%nat r)) dY) M + mdot (map (fun r => firstn I (skipn (2 * I)%nat r)) dY) Rr.
Proof.
  induction dY as [|d dY IH]; intros [|a L] [|b M] [|c Rr] Hd HL HM HR E1 E2 E3; try discriminate; [unfold mdot; cbn; lra|].
  apply Forall_cons_iff in Hd as [Hd1 Hd2]. apply Forall_cons_iff in HL as [HL1 HL2]. apply Forall_cons_iff in HM as [HM1 HM2]. apply Forall_cons_iff in HR as [HR1 HR2].
  cbn [combine map fst snd]. rewrite !mdot_cons, IH by (try assumption; cbn in *; lia).
  assert (Ed : dot d (a ++ b ++ c) = dot (firstn I (skipn (0 * I)%nat d)) a + dot (firstn I (skipn (1 * I)%nat d)) b + dot (firstn I (skipn (2 * I)%nat d)) c).
  { rewrite (split3 d I I I) at 1 by lia. rewrite !dot_app by (rewrite firstn_length, ?skipn_length; lia). cbn [Nat.mul skipn]. rewrite Nat.add_0_r. rewrite (firstn_all2 (n := I) (skipn (I + I)%nat d)) by (rewrite skipn_length; lia). lra. }
  rewrite Ed. lra.
Qed.

Lemma op_seq2col_adjoint (dY : mat R) I : wf_mat dY -> m_cols dY = (3 * I)%nat -> I <> 0%nat ->
  exists dX, op_backprop_seq2col dY 1 = Ok dX /\ m_cols dX = I /\
    forall X, wf_mat X -> m_cols X = I -> m_len X = m_len dY -> mdot (m_rows dX) (m_rows X) = mdot (m_rows dY) (windows 1 I (m_rows X)).
Proof.
  intros Hw Hc HI. unfold op_backprop_seq2col. cbn [Z.eqb Pos.eqb negb]. rewrite Hc. replace (3 * I / 3)%nat with I by (rewrite Nat.mul_comm, Nat.div_mul by lia; reflexivity).
  rewrite Nat.eqb_refl. cbn [negb andb]. destruct (Nat.eqb_spec I 0); [contradiction|]. eexists. split; [reflexivity|]. cbn [m_cols m_rows]. split; [reflexivity|].
  intros X HX HcX HlX. assert (WX : wide I (m_rows X)) by (rewrite <- HcX; exact HX). assert (Wd : wide (3 * I)%nat (m_rows dY)) by (rewrite <- Hc; exact Hw).
  unfold m_len in *. set (p0 := map (fun r => firstn I (skipn (0 * I)%nat r)) (m_rows dY)). set (p1 := map (fun r => firstn I (skipn (1 * I)%nat r)) (m_rows dY)). set (p2 := map (fun r => firstn I (skipn (2 * I)%nat r)) (m_rows dY)).
  assert (Wp : forall k, (k < 3)%nat -> wide I (map (fun r => firstn I (skipn (k * I)%nat r)) (m_rows dY))).
  { intros k Hk. apply Forall_map. eapply Forall_impl; [|exact Wd]. cbn beta. intros r Hr. rewrite firstn_length, skipn_length, Hr. assert (k = 0 \/ k = 1 \/ k = 2)%nat as [->|[->| ->]] by lia; lia. }
  pose proof (Wp 0%nat ltac:(lia)) as W0. pose proof (Wp 1%nat ltac:(lia)) as W1. pose proof (Wp 2%nat ltac:(lia)) as W2. fold p0 in W0. fold p1 in W1. fold p2 in W2. clear Wp.
  assert (L0 : length p0 = length (m_rows dY)) by apply map_length. assert (L1 : length p1 = length (m_rows dY)) by apply map_length. assert (L2 : length p2 = length (m_rows dY)) by apply map_length.
  destruct (m_rows dY) as [|d0 dl] eqn:Ed; [destruct (m_rows X); [reflexivity | discriminate]|]. rewrite <- Ed in *.
  assert (Lpos : (0 < length (m_rows dY))%nat) by (rewrite Ed; cbn; lia).
  assert (Wz : wide I [repeat 0 I]) by (constructor; [apply repeat_length | constructor]).
  assert (HL : length (tl p0 ++ [repeat 0 I]) = length (m_rows dY) /\ wide I (tl p0 ++ [repeat 0 I])).
  { destruct p0 as [|q p0]; [cbn in L0; lia|]. cbn [tl]. split; [rewrite app_length; cbn in *; lia|]. apply Forall_app. split; [now apply Forall_cons_iff in W0 | exact Wz]. }
  assert (HR : length (repeat 0 I :: removelast p2) = length (m_rows dY) /\ wide I (repeat 0 I :: removelast p2)).
  { clearbody p2. destruct p2 as [|q p2 _] using rev_ind; [cbn in L2; lia|]. rewrite removelast_last. split; [rewrite app_length in L2; cbn in *; lia|]. constructor; [apply repeat_length|]. now apply Forall_app in W2 as [W2 _]. }
  destruct HL as [HL1 HL2]. destruct HR as [HR1 HR2]. unfold zeros. cbn [nZ num_R repeat].
  assert (Z0 : length (repeat (repeat 0 I) (length (m_rows dY))) = length (m_rows dY) /\ wide I (repeat (repeat 0 I) (length (m_rows dY)))) by (split; [apply repeat_length | apply Forall_forall; intros r Hr; apply repeat_spec in Hr; subst r; apply repeat_length]). destruct Z0 as [Z1 Z2].
  destruct (madd_shape I (repeat (repeat 0 I) (length (m_rows dY))) (tl p0 ++ [repeat 0 I])) as [M1 M2]; try assumption; [congruence|].
  destruct (madd_shape I (madd (repeat (repeat 0 I) (length (m_rows dY))) (tl p0 ++ [repeat 0 I])) p1) as [M3 M4]; try assumption; [congruence|].
  rewrite (madd_dot I) by (try assumption; congruence). rewrite (madd_dot I) by (try assumption; congruence). rewrite (madd_dot I) by (try assumption; congruence). rewrite mdot_zeros.
  assert (EX : m_rows X <> []) by (intros E; rewrite E in HlX; cbn in HlX; lia).
  destruct (mdot_shift_left I p0 (m_rows X)) as [E1|?]; try assumption; [congruence| |contradiction]. destruct (mdot_shift_right I p2 (m_rows X)) as [E2|?]; try assumption; [congruence| |contradiction].
  rewrite E1, E2. unfold windows. cbn [repeat app Nat.mul Nat.add]. unfold zeros. cbn [nZ num_R]. rewrite <- (op_rows_eq (repeat 0 I) (m_rows X) (repeat 0 I)).
  assert (EF1 : firstn (length (m_rows X)) (repeat 0 I :: removelast (m_rows X)) = repeat 0 I :: removelast (m_rows X)).
  { apply firstn_all2. clear -EX. destruct (m_rows X) as [|x l _] using rev_ind; [congruence|]. rewrite removelast_last, app_length. cbn. lia. }
  assert (EF2 : firstn (length (m_rows X)) (tl (m_rows X) ++ [repeat 0 I]) = tl (m_rows X) ++ [repeat 0 I]).
  { apply firstn_all2. clear -EX. destruct (m_rows X) as [|x l]; [congruence|]. cbn [tl]. rewrite app_length. cbn. lia. }
  rewrite EF1, EF2, (mdot_split3 I); try assumption.
  - subst p0 p1 p2. rewrite Ed. lra.
  - clear -WX EX. destruct (m_rows X) as [|x l _] using rev_ind; [congruence|]. rewrite removelast_last. constructor; [apply repeat_length | now apply Forall_app in WX as [WX _]].
  - clear -WX EX Wz. destruct (m_rows X) as [|x l]; [congruence|]. cbn [tl]. apply Forall_app. split; [now apply Forall_cons_iff in WX as [_ WX] | exact Wz].
  - rewrite <- HlX. clear -EX. destruct (m_rows X) as [|x l _] using rev_ind; [congruence|]. rewrite removelast_last, app_length. cbn. lia.
  - rewrite <- HlX. clear -EX. destruct (m_rows X) as [|x l]; [congruence|]. cbn [tl]. rewrite app_length. cbn. lia.
Qed.

(** ** The layer *)
Lemma expand_window_array (X : mat R) nW : wf_mat X ->
  exists Y back, expand_window_floats (Z.of_nat nW) X = Ok (Y, back) /\ m_cols Y = ((2 * nW + 1) * m_cols X)%nat /\ m_rows Y = windows nW (m_cols X) (m_rows X) /\
    forall dY, wf_mat dY -> m_cols dY = ((2 * nW + 1) * m_cols X)%nat -> m_len dY = m_len X ->
      exists dX, back dY = Ok dX /\ m_cols dX = m_cols X /\ wf_mat dX /\ m_len dX = m_len X /\ mdot (m_rows dX) (m_rows X) = mdot (m_rows dY) (m_rows Y).
Proof.
  intros Hw. unfold expand_window_floats.
  assert (E : (if (0 <? m_len X)%nat then np_seq2col X (Z.of_nat nW) None else Ok (mkM (m_cols X * Z.to_nat (Z.of_nat nW * 2 + 1)) [])) = Ok (mkM ((2 * nW + 1) * m_cols X) (windows nW (m_cols X) (m_rows X)))).
  { destruct (Nat.ltb_spec 0 (m_len X)) as [Hl|Hl]; [now apply seq2col_none_ok|]. unfold m_len in Hl. destruct (m_rows X); [|cbn in Hl; lia]. do 2 f_equal. replace (Z.to_nat (Z.of_nat nW * 2 + 1)) with (2 * nW + 1)%nat by lia. lia. }
  rewrite E. cbn [bind]. eexists. eexists. split; [reflexivity|]. cbn [m_cols m_rows]. split; [reflexivity|]. split; [reflexivity|]. intros dY HdY HcY HlY.
  assert (E2 : np_backprop_seq2col dY (Z.of_nat nW) None = np_backprop_seq2col dY (Z.of_nat nW) (Some [Z.of_nat (m_len dY)])) by (unfold np_backprop_seq2col; rewrite lengths_ok; [reflexivity | constructor; [lia | constructor] | cbn; lia]).
  destruct (seq2col_adjoint dY nW (m_cols X) [Z.of_nat (m_len dY)]) as (dX & A1 & A2 & A3 & A4 & A5); try assumption; [constructor; [lia | constructor] | cbn; lia|].
  exists dX. rewrite E2. split; [exact A1|]. split; [exact A2|]. split; [exact A3|]. split; [congruence|]. rewrite A5 by (try assumption; congruence). f_equal. cbn [seqs_of map chop concat]. rewrite app_nil_r, Nat2Z.id, HlY. unfold m_len. now rewrite firstn_all.
Qed.
Lemma expand_window_rag (X : mat R) nW l : wf_mat X -> nonneg l -> zsum l = Z.of_nat (m_len X) ->
  exists Y back, expand_window_ragged (Z.of_nat nW) X l = Ok (Y, back) /\ m_cols Y = ((2 * nW + 1) * m_cols X)%nat /\ m_rows Y = concat (map (windows nW (m_cols X)) (seqs_of l (m_rows X))) /\
    forall dY, wf_mat dY -> m_cols dY = ((2 * nW + 1) * m_cols X)%nat -> m_len dY = m_len X ->
      exists dX, back dY = Ok dX /\ m_cols dX = m_cols X /\ wf_mat dX /\ m_len dX = m_len X /\ mdot (m_rows dX) (m_rows X) = mdot (m_rows dY) (m_rows Y).
Proof.
  intros Hw Hn Hs. unfold expand_window_ragged. rewrite seq2col_ok by assumption. cbn [bind]. eexists. eexists. split; [reflexivity|]. cbn [m_cols m_rows]. split; [reflexivity|]. split; [reflexivity|]. intros dY HdY HcY HlY.
  destruct (seq2col_adjoint dY nW (m_cols X) l) as (dX & A1 & A2 & A3 & A4 & A5); try assumption; [congruence|].
  exists dX. split; [exact A1|]. split; [exact A2|]. split; [exact A3|]. split; [congruence|]. now rewrite A5 by (try assumption; congruence).
Qed.

Lemma wrong_width : exists dY : mat QArith_base.Q, wf_mat dY /\ (m_cols dY mod 3 <> 0)%nat /\
  np_backprop_seq2col dY 1 None = Ok (mkM 1 [[6]; [8]]%Q) /\ op_backprop_seq2col dY 1 = Err ValueError.
Proof.
  exists (mkM 4 [[1; 2; 3; 4]; [5; 6; 7; 8]]%Q). split; [repeat constructor|]. split; [discriminate|]. split; vm_compute; reflexivity.
Qed.
