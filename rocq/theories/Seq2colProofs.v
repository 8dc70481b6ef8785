From Verif Require Import BaseFacts Seq2colSpec SeqProofs PaddedProofs PackProofs AdaptProofs MatProofs ReduceProofs.
Set Default Goal Selector "!".

Section Move.
  Context {T : Type} `{Num T}.
  Local Notation cells := (list (list T)).

  Lemma copy_at (A z B src : cells) doff soff n : doff = Z.of_nat (length A) -> (0 <= soff)%Z -> (0 <= n)%Z -> Z.of_nat (length z) = n -> (soff + n <= Z.of_nat (length src))%Z ->
    copy_cells (A ++ z ++ B) doff src soff n = Ok (A ++ firstn (Z.to_nat n) (skipn (Z.to_nat soff) src) ++ B).
  Proof.
    intros Hd Hs Hn Hz Hb. unfold copy_cells. rewrite !app_length.
    destruct (Z.ltb_spec doff 0); [lia|]. destruct (Z.ltb_spec soff 0); [lia|]. destruct (Z.ltb_spec n 0); [lia|].
    destruct (Z.ltb_spec (Z.of_nat (length A + (length z + length B))) (doff + n)); [lia|]. destruct (Z.ltb_spec (Z.of_nat (length src)) (soff + n)); [lia|]. cbn [orb].
    subst doff. rewrite Nat2Z.id. rewrite firstn_app, firstn_all, Nat.sub_diag, firstn_O, app_nil_r. do 3 f_equal.
    rewrite skipn_app. rewrite skipn_all2 by lia. replace (length A + Z.to_nat n - length A)%nat with (length z) by lia. rewrite skipn_app, skipn_all, Nat.sub_diag. reflexivity.
  Qed.

  Lemma firstn_repeat {A} (x : A) n m : firstn n (repeat x m) = repeat x (Nat.min n m).
  Proof. revert m. induction n as [|n IH]; intros [|m]; try reflexivity. cbn. now rewrite IH. Qed.
  Lemma skipn_repeat {A} (x : A) n m : skipn n (repeat x m) = repeat x (m - n).
  Proof. revert m. induction n as [|n IH]; intros [|m]; try reflexivity. cbn. now rewrite IH. Qed.

  (** The window around row [i] of the padded sequence. *)
  Lemma window_eq {A} (x : A) (s : list A) nW i : i < length s ->
    firstn (2 * nW + 1) (skipn i (repeat x nW ++ s ++ repeat x nW)) =
    repeat x (nW - i) ++ firstn (Nat.min (length s) (i + nW + 1) - (i - nW)) (skipn (i - nW) s) ++ repeat x (2 * nW + 1 - (nW - i) - (Nat.min (length s) (i + nW + 1) - (i - nW))).
  Proof.
    intros Hi. rewrite skipn_app, repeat_length, skipn_repeat, skipn_app. replace (i - nW - length s) with 0 by lia. cbn [skipn].
    rewrite !firstn_app, !repeat_length, firstn_repeat, !skipn_length. f_equal; [f_equal; lia|].
    f_equal.
    - destruct (Nat.le_gt_cases (length s) (i + nW + 1)) as [Hl|Hl].
      + rewrite !firstn_all2 by (rewrite skipn_length; lia). reflexivity.
      + f_equal. lia.
    - rewrite firstn_repeat. f_equal. lia.
  Qed.

  Context (X : cells) (I nW : nat).
  Local Notation nF := (2 * nW + 1).
  Local Notation zc := (zeros I).

  Lemma row_ok (P s Q : cells) i A B : X = P ++ s ++ Q -> i < length s -> length A = (length P + i) * nF ->
    seq2col_row X (Z.of_nat nW) (Z.of_nat (length P)) (Z.of_nat (length P + length s)) (Z.of_nat (length P + i)) (A ++ repeat zc nF ++ B) =
    Ok (A ++ firstn nF (skipn i (repeat zc nW ++ s ++ repeat zc nW)) ++ B).
  Proof.
    intros EX Hi HA. rewrite window_eq by exact Hi.
    set (a := nW - i). set (n := Nat.min (length s) (i + nW + 1) - (i - nW)). set (b := nF - a - n).
    assert (E : nF = a + (n + b)) by (subst a n b; lia). unfold seq2col_row.
    replace (repeat zc nF) with (repeat zc a ++ repeat zc n ++ repeat zc b) by (rewrite <- !repeat_app; f_equal; lia).
    rewrite <- !app_assoc. rewrite (app_assoc A). rewrite copy_at.
    - rewrite <- !app_assoc. do 3 f_equal. f_equal. subst X.
      replace (Z.to_nat (Z.max (Z.of_nat (length P)) (Z.of_nat (length P + i) - Z.of_nat nW))) with (length P + (i - nW)) by lia.
      rewrite skipn_app, skipn_all2 by lia. cbn [app]. replace (length P + (i - nW) - length P) with (i - nW) by lia. rewrite skipn_app. rewrite firstn_app, skipn_length.
      match goal with |- firstn ?k _ ++ firstn ?k2 _ = _ => replace k2 with 0 by (subst n; lia); replace k with n by (subst n; lia) end. rewrite firstn_O, app_nil_r. reflexivity.
    - rewrite app_length, repeat_length, HA. subst a. nia.
    - lia.
    - lia.
    - rewrite repeat_length. subst n. lia.
    - subst X. rewrite !app_length. lia.
  Qed.

  (** Output cells of one sequence. *)
  Definition wcells (s : cells) : cells := concat (map (fun i => firstn nF (skipn i (repeat zc nW ++ s ++ repeat zc nW))) (seq 0 (length s))).
  Lemma window_length (s : cells) i : i < length s -> length (firstn nF (skipn i (repeat zc nW ++ s ++ repeat zc nW))) = nF.
  Proof. intros Hi. rewrite firstn_length, skipn_length, !app_length, !repeat_length. lia. Qed.

  Lemma rows_ok (P s Q : cells) B : X = P ++ s ++ Q -> forall n i A, i + n = length s -> length A = (length P + i) * nF ->
    for_rows (seq2col_row X (Z.of_nat nW) (Z.of_nat (length P)) (Z.of_nat (length P + length s))) (Z.of_nat (length P + i)) n (A ++ repeat zc (n * nF) ++ B) =
    Ok (A ++ concat (map (fun i => firstn nF (skipn i (repeat zc nW ++ s ++ repeat zc nW))) (seq i n)) ++ B).
  Proof.
    intros EX. induction n as [|n IH]; intros i A Hi HA; [reflexivity|]. cbn [for_rows]. change (S n * nF) with (nF + n * nF). rewrite repeat_app, <- !app_assoc.
    rewrite (row_ok P s Q) by (try assumption; lia). cbn [bind]. rewrite app_assoc. replace (Z.of_nat (length P + i) + 1)%Z with (Z.of_nat (length P + S i)) by lia.
    rewrite IH; [|lia | rewrite app_length, window_length, HA by lia; lia]. cbn [seq map concat]. now rewrite <- !app_assoc.
  Qed.

  Lemma seqs_ok l : forall (P Y A : cells), X = P ++ Y -> nonneg l -> Z.of_nat (length Y) = zsum l -> length A = length P * nF ->
    for_seqs (seq2col_row X (Z.of_nat nW)) (Z.of_nat (length P)) l (A ++ repeat zc (length Y * nF)) = Ok (A ++ concat (map wcells (seqs_of l Y))).
  Proof.
    induction l as [|n l IH]; intros P Y A EX Hn Hs HA.
    - cbn [zsum fold_right] in Hs. destruct Y; [|cbn in Hs; lia]. reflexivity.
    - apply Forall_cons_iff in Hn as [Hn1 Hn2]. pose proof (zsum_nonneg _ Hn2) as Hz. cbn [zsum fold_right] in Hs. fold (zsum l) in Hs.
      cbn [for_seqs seqs_of map chop]. fold (seqs_of l (skipn (Z.to_nat n) Y)).
      set (s := firstn (Z.to_nat n) Y). set (Q := skipn (Z.to_nat n) Y). assert (EY : Y = s ++ Q) by (symmetry; apply firstn_skipn).
      assert (Es : length s = Z.to_nat n) by (subst s; rewrite firstn_length; lia). assert (EQ : Z.of_nat (length Q) = zsum l) by (subst Q; rewrite skipn_length; lia).
      clearbody s Q. subst Y. rewrite app_length, Nat.mul_add_distr_r, repeat_app.
      pose proof (rows_ok P s Q (repeat zc (length Q * nF)) EX (length s) 0 A) as E. rewrite Nat.add_0_r in E.
      replace (Z.of_nat (length P) + n)%Z with (Z.of_nat (length P + length s)) by lia. replace (Z.to_nat (Z.of_nat (length P + length s) - Z.of_nat (length P))) with (length s) by lia.
      rewrite E by (try reflexivity; exact HA). cbn [bind]. fold (wcells s). rewrite app_assoc. replace (length P + length s) with (length (P ++ s)) by apply app_length.
      rewrite IH; [cbn [concat]; now rewrite <- app_assoc | now rewrite <- app_assoc | exact Hn2 | exact EQ |].
      rewrite app_length, HA. enough (El : length (wcells s) = length s * nF) by (rewrite El, app_length; lia).
      unfold wcells. replace (length s * nF) with (length (seq 0 (length s)) * nF) by (now rewrite seq_length).
      assert (G : forall k, Forall (fun i => i < length s) k -> length (concat (map (fun i => firstn nF (skipn i (repeat zc nW ++ s ++ repeat zc nW))) k)) = length k * nF).
      { clear. induction k as [|i k IH]; intros Hk; [reflexivity|]. apply Forall_cons_iff in Hk as [H1 H2]. cbn [map concat length]. rewrite app_length, window_length, IH by assumption. lia. }
      apply G. apply Forall_forall. intros i Hi. apply in_seq in Hi. lia.
  Qed.
End Move.

Section Out.
  Context {T : Type} `{Num T}.
  Local Notation cells := (list (list T)).

  Lemma rows_of_concat nF (ws : list cells) : Forall (fun w => length w = nF) ws -> forall n, n = length ws -> rows_of nF n (concat ws) = map (@concat T) ws.
  Proof.
    induction ws as [|w ws IH]; intros Hw n ->; [reflexivity|]. apply Forall_cons_iff in Hw as [H1 H2]. cbn [length rows_of concat map]. rewrite firstn_app, skipn_app, <- H1, firstn_all, skipn_all, Nat.sub_diag.
    cbn [firstn skipn app]. rewrite app_nil_r, H1. f_equal. now apply IH.
  Qed.
  Definition allw (I nW : nat) (seqs : list cells) : list cells :=
    concat (map (fun s : cells => map (fun i => firstn (2 * nW + 1) (skipn i (repeat (zeros I) nW ++ s ++ repeat (zeros I) nW))) (seq 0 (length s))) seqs).
  Lemma wcells_allw I nW seqs : concat (map (wcells I nW) seqs) = concat (allw I nW seqs).
  Proof. unfold allw. induction seqs as [|s l IH]; [reflexivity|]. cbn [map concat]. rewrite concat_app, IH. reflexivity. Qed.
  Lemma allw_windows I nW (seqs : list cells) : map (@concat T) (allw I nW seqs) = concat (map (windows nW I) seqs).
  Proof. unfold allw, windows. induction seqs as [|s l IH]; [reflexivity|]. cbn [map concat]. rewrite map_app, IH, map_map. reflexivity. Qed.
  Lemma allw_length I nW (seqs : list cells) : length (allw I nW seqs) = length (concat seqs).
  Proof. unfold allw. induction seqs as [|s l IH]; [reflexivity|]. cbn [map concat]. rewrite !app_length, IH, map_length, seq_length. reflexivity. Qed.
  Lemma allw_width I nW (seqs : list cells) : Forall (fun w => length w = 2 * nW + 1) (allw I nW seqs).
  Proof.
    unfold allw. apply Forall_concat. apply Forall_map. apply Forall_forall. intros s _. apply Forall_map. apply Forall_forall. intros i Hi. apply in_seq in Hi. apply window_length. lia.
  Qed.

  Lemma lengths_ok l B : nonneg l -> zsum l = Z.of_nat B -> check_seq2col_lengths (Some l) B = Ok l.
  Proof.
    intros Hn Hs. unfold check_seq2col_lengths. replace (forallb _ l) with true; [cbn [negb]; rewrite Hs, Z.eqb_refl; reflexivity|].
    symmetry. apply forallb_forall. intros x Hx. apply Z.leb_le. unfold nonneg in Hn. rewrite Forall_forall in Hn. now apply Hn.
  Qed.
  Lemma seqs_concat l (rows : cells) : nonneg l -> zsum l = Z.of_nat (length rows) -> concat (seqs_of l rows) = rows.
  Proof.
    intros Hn Hs. unfold seqs_of. apply concat_chop. pose proof (zsum_nat l Hn). lia.
  Qed.

  Lemma windows_empty nW I : windows (T := T) nW I [] = []. Proof. reflexivity. Qed.

  Lemma seq2col_ok (X : mat T) nW l : wf_mat X -> nonneg l -> zsum l = Z.of_nat (m_len X) ->
    np_seq2col X (Z.of_nat nW) (Some l) = Ok (mkM ((2 * nW + 1) * m_cols X) (concat (map (windows nW (m_cols X)) (seqs_of l (m_rows X))))).
  Proof.
    intros Hw Hn Hs. assert (Hs' : zsum l = Z.of_nat (length (m_rows X))) by exact Hs. unfold np_seq2col. rewrite lengths_ok by assumption. cbn [bind]. destruct (Z.ltb_spec ((2 * Z.of_nat nW + 1) * Z.of_nat (m_cols X)) 0); [lia|].
    replace (Z.to_nat ((2 * Z.of_nat nW + 1) * Z.of_nat (m_cols X))) with ((2 * nW + 1) * m_cols X) by lia.
    replace (Z.to_nat (2 * Z.of_nat nW + 1)) with (2 * nW + 1) by lia.
    destruct (Nat.eqb_spec (m_len X * m_cols X) 0) as [E0|E0]; cbn [orb].
    - unfold mzeros. do 2 f_equal. rewrite <- allw_windows.
      assert (El : length (allw (m_cols X) nW (seqs_of l (m_rows X))) = m_len X) by (rewrite allw_length, seqs_concat by assumption; reflexivity).
      destruct (m_len X) as [|m] eqn:Em.
      + apply length_zero_iff_nil in El. rewrite El. reflexivity.
      + assert (Ec : m_cols X = 0) by lia. rewrite Ec, Nat.mul_0_r. rewrite <- El. rewrite Ec.
        assert (G : Forall (fun w : cells => concat w = []) (allw 0 nW (seqs_of l (m_rows X)))).
        { unfold allw. apply Forall_concat. apply Forall_map. apply Forall_forall. intros s Hs2. apply Forall_map. apply Forall_forall. intros i _.
          assert (Hz : Forall (fun r : list T => r = []) (repeat (zeros 0) nW ++ s ++ repeat (zeros 0) nW)).
          { apply Forall_app. split; [apply Forall_forall; intros r Hr; now apply repeat_spec in Hr|]. apply Forall_app. split; [|apply Forall_forall; intros r Hr; now apply repeat_spec in Hr].
            apply Forall_forall. intros r Hr. assert (In r (m_rows X)) by (rewrite <- (seqs_concat l (m_rows X)) by assumption; apply in_concat; exists s; split; assumption).
            unfold wf_mat in Hw. rewrite Forall_forall in Hw. specialize (Hw r H1). rewrite Ec in Hw. now apply length_zero_iff_nil. }
          assert (Hf : Forall (fun r : list T => r = []) (firstn (2 * nW + 1) (skipn i (repeat (zeros 0) nW ++ s ++ repeat (zeros 0) nW)))).
          { revert Hz. generalize (repeat (zeros 0) nW ++ s ++ repeat (zeros 0) nW). intros c Hc. rewrite <- (firstn_skipn i c) in Hc. apply Forall_app in Hc as [_ Hc]. rewrite <- (firstn_skipn (2 * nW + 1) (skipn i c)) in Hc. now apply Forall_app in Hc as [Hc _]. }
          induction Hf as [|r c -> _ IH]; [reflexivity | exact IH]. }
        change (zeros 0) with (@nil T). revert G. generalize (allw 0 nW (seqs_of l (m_rows X))). clear. intros ws G. induction G as [|w ws Hw G IH]; [reflexivity|]. cbn [length repeat map]. now rewrite Hw, IH.
    - assert (Hl : length l <> 0) by (intros E; apply length_zero_iff_nil in E; subst l; cbn in Hs; lia). destruct (Nat.eqb_spec (length l) 0); [contradiction|].
      pose proof (seqs_ok (m_rows X) (m_cols X) nW l [] (m_rows X) [] eq_refl Hn (eq_sym Hs) eq_refl) as E. cbn [app length] in E. change (Z.of_nat 0) with 0%Z in E. unfold m_len. rewrite E. cbn [bind]. do 2 f_equal.
      rewrite wcells_allw, <- allw_windows. apply rows_of_concat; [apply allw_width|]. rewrite allw_length, seqs_concat by assumption. reflexivity.
  Qed.
  Lemma seq2col_none (X : mat T) nW : np_seq2col X nW None = np_seq2col X nW (Some [Z.of_nat (m_len X)]).
  Proof. unfold np_seq2col. rewrite lengths_ok; [reflexivity | constructor; [lia | constructor] | cbn; lia]. Qed.
  Lemma seq2col_none_ok (X : mat T) nW : wf_mat X ->
    np_seq2col X (Z.of_nat nW) None = Ok (mkM ((2 * nW + 1) * m_cols X) (windows nW (m_cols X) (m_rows X))).
  Proof.
    intros Hw. rewrite seq2col_none, seq2col_ok; [|exact Hw | constructor; [lia | constructor] | cbn; lia]. do 2 f_equal. cbn [seqs_of map chop concat]. rewrite app_nil_r, Nat2Z.id. unfold m_len. now rewrite firstn_all.
  Qed.
  Lemma check_fails l B : ~ (nonneg l /\ zsum l = Z.of_nat B) -> check_seq2col_lengths (Some l) B = Err AssertionError.
  Proof.
    intros Hb. unfold check_seq2col_lengths. destruct (forallb (fun n => (0 <=? n)%Z) l) eqn:E; [|reflexivity]. cbn [negb]. destruct (Z.eqb_spec (zsum l) (Z.of_nat B)); [|reflexivity].
    exfalso. apply Hb. split; [|assumption]. apply Forall_forall. intros x Hx. rewrite forallb_forall in E. now apply Z.leb_le, E.
  Qed.
  Lemma seq2col_bad (X : mat T) nW l : ~ (nonneg l /\ zsum l = Z.of_nat (m_len X)) ->
    np_seq2col X nW (Some l) = Err AssertionError /\ np_backprop_seq2col X nW (Some l) = Err AssertionError.
  Proof. intros Hb. unfold np_seq2col, np_backprop_seq2col. rewrite check_fails by exact Hb. split; reflexivity. Qed.
  Lemma seq2col_negative (X : mat T) nW : (nW < 0)%Z -> m_cols X <> 0 -> np_seq2col X nW None = Err ValueError.
  Proof. intros Hn Hc. unfold np_seq2col. cbn [check_seq2col_lengths bind]. destruct (Z.ltb_spec ((2 * nW + 1) * Z.of_nat (m_cols X)) 0); [reflexivity | nia]. Qed.
End Out.
