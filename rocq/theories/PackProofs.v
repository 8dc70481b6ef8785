From Verif Require Import BaseFacts SeqSpec SeqProofs PaddedProofs.
Set Default Goal Selector "!".

Section Pack.
  Context {T : Type} (z : T).
  Implicit Types (p : padded T) (rows : list (list T)).

  Lemma assign_rows_exact Y start n src : length src = n -> start + n <= length Y ->
    @assign_rows T Y start n src = Ok (firstn start Y ++ src ++ skipn (start + n) Y).
  Proof.
    intros Hs Hy. unfold assign_rows. rewrite !Nat.min_l by lia. replace (start + n - start) with n by lia. subst n.
    destruct src as [|r [|r' src]]; cbn [length] in *; rewrite ?Nat.eqb_refl; reflexivity.
  Qed.

  Lemma skipn_nth_error {A} (l : list A) t x : nth_error l t = Some x -> skipn t l = x :: skipn (S t) l.
  Proof. revert t. induction l as [|y l IH]; intros [|t] E; cbn in *; try discriminate; [congruence | now apply IH]. Qed.

  Definition packed (sizes : list nat) (cells : list (list (list T))) : list (list T) :=
    concat (map (fun q : nat * list (list T) => firstn (fst q) (snd q)) (combine sizes cells)).

  Lemma pack_loop_spec p : length (p_size_at_t p) = length (a3_cells (p_data p)) ->
    (forall t bs c, nth_error (p_size_at_t p) t = Some bs -> nth_error (a3_cells (p_data p)) t = Some c -> bs <= length c) ->
    forall k t0 pre rest, t0 + k = length (p_size_at_t p) -> length rest = list_sum_nat (skipn t0 (p_size_at_t p)) ->
    pack_loop p (seq t0 k) (length pre) (pre ++ rest) = Ok (pre ++ packed (skipn t0 (p_size_at_t p)) (skipn t0 (a3_cells (p_data p)))).
  Proof.
    intros Hlen Hbs. induction k as [|k IH]; intros t0 pre rest Ht Hr.
    - cbn [seq pack_loop]. rewrite (skipn_all2 (p_size_at_t p)) in Hr by lia. rewrite !skipn_all2 by lia. cbn in Hr. destruct rest; [|discriminate]. reflexivity.
    - cbn [seq pack_loop].
      destruct (nth_error (p_size_at_t p) t0) as [bs|] eqn:E1; [|apply nth_error_None in E1; lia].
      destruct (nth_error (a3_cells (p_data p)) t0) as [c|] eqn:E2; [|apply nth_error_None in E2; lia].
      unfold py_get. rewrite E1, E2. cbn [bind]. specialize (Hbs t0 bs c E1 E2) as Hc.
      rewrite (skipn_nth_error _ _ _ E1) in Hr. unfold list_sum_nat in Hr. cbn [fold_right] in Hr.
      rewrite assign_rows_exact; [|rewrite firstn_length; lia | rewrite app_length; lia]. cbn [bind].
      rewrite firstn_app, firstn_all, Nat.sub_diag, firstn_O, app_nil_r.
      rewrite skipn_app, skipn_all2 by lia. replace (length pre + bs - length pre) with bs by lia. cbn [app]. rewrite app_assoc.
      specialize (IH (S t0) (pre ++ firstn bs c) (skipn bs rest)). rewrite app_length, firstn_length, Nat.min_l in IH by exact Hc.
      rewrite IH; [|lia | rewrite skipn_length; unfold list_sum_nat; lia].
      rewrite (skipn_nth_error _ _ _ E1), (skipn_nth_error _ _ _ E2). unfold packed. cbn [combine map concat fst snd]. now rewrite app_assoc.
  Qed.

  Lemma packable_sizes p w t bs c : packable p w -> nth_error (p_size_at_t p) t = Some bs -> nth_error (a3_cells (p_data p)) t = Some c -> bs <= length c.
  Proof.
    intros (_ & _ & _ & Hc & Hs) E1 E2. apply nth_error_In in E1, E2. rewrite Forall_forall in Hc, Hs. destruct (Hc c E2) as [-> _]. now apply Hs.
  Qed.

  Lemma pack_ok p w : packable p w ->
    padded_to_packed z p = Ok (mk_ragged (mkA [w] (packed (p_size_at_t p) (a3_cells (p_data p)))) (p_size_at_t p)).
  Proof.
    intros Hp. pose proof Hp as (Ht & Hl & Hsum & Hc & Hs). unfold padded_to_packed. rewrite Hsum, Nat.eqb_refl. cbn [negb]. rewrite Ht.
    pose proof (pack_loop_spec p Hl (fun t bs c => packable_sizes p w t bs c Hp) (length (p_size_at_t p)) 0 []
      (zero_rows z (list_sum_nat (p_size_at_t p)) [w]) eq_refl) as E. cbn [length app skipn] in E. rewrite E; [reflexivity|].
    unfold zero_rows. apply repeat_length.
  Qed.

  Definition unpacked (n1 w : nat) (pieces : list (list (list T))) : list (list (list T)) :=
    map (fun c => c ++ zero_rows z (n1 - length c) [w]) pieces.

  Lemma unpack_loop_spec p w : Forall (fun n => n <= a3_n1 (p_data p)) (p_size_at_t p) ->
    forall k t0 pre xpre X, t0 + k = length (p_size_at_t p) -> length pre = t0 ->
    list_sum_nat (skipn t0 (p_size_at_t p)) = length X ->
    unpack_loop p (xpre ++ X) (seq t0 k) (length xpre) (pre ++ repeat (zero_rows z (a3_n1 (p_data p)) [w]) k)
    = Ok (pre ++ unpacked (a3_n1 (p_data p)) w (chop (skipn t0 (p_size_at_t p)) X)).
  Proof.
    intros Hf. induction k as [|k IH]; intros t0 pre xpre X Ht Hpre HX.
    - cbn [seq unpack_loop repeat]. now rewrite skipn_all2 by lia.
    - cbn [seq unpack_loop repeat].
      destruct (nth_error (p_size_at_t p) t0) as [bs|] eqn:E1; [|apply nth_error_None in E1; lia].
      unfold py_get. rewrite E1. cbn [bind]. rewrite nth_error_app2, Hpre, Nat.sub_diag by lia. cbn [nth_error bind].
      assert (Hbs : bs <= a3_n1 (p_data p)) by (rewrite Forall_forall in Hf; apply Hf; now apply nth_error_In with t0).
      rewrite (skipn_nth_error _ _ _ E1) in HX |- *. unfold list_sum_nat in HX. cbn [fold_right] in HX.
      assert (Esl : slice_rows (length xpre) (length xpre + bs) (xpre ++ X) = firstn bs X).
      { unfold slice_rows. rewrite skipn_app, skipn_all, Nat.sub_diag. cbn [app skipn]. f_equal. lia. }
      rewrite Esl. rewrite assign_rows_exact; [|rewrite firstn_length; lia | unfold zero_rows; rewrite repeat_length; lia]. cbn [firstn app bind Nat.add].
      assert (Eset : forall c0 c rest, set_nth t0 c (pre ++ c0 :: rest) = (pre ++ [c]) ++ rest).
      { intros c0 c rest. subst t0. clear. induction pre as [|x pre IHp]; cbn; [reflexivity|]. now rewrite IHp. }
      rewrite Eset.
      specialize (IH (S t0) (pre ++ [firstn bs X ++ skipn bs (zero_rows z (a3_n1 (p_data p)) [w])]) (xpre ++ firstn bs X) (skipn bs X)).
      rewrite <- app_assoc, firstn_skipn, !app_length, firstn_length, Nat.min_l in IH by lia. cbn [length] in IH.
      rewrite IH; [|lia|lia|rewrite skipn_length; unfold list_sum_nat; lia].
      rewrite <- app_assoc. cbn [chop app]. unfold unpacked. cbn [map]. do 4 f_equal.
      rewrite firstn_length, Nat.min_l by lia. unfold zero_rows.
      assert (Hrep : forall (A : Type) (x : A) a b, skipn a (repeat x b) = repeat x (b - a)).
      { intros A x a. induction a as [|a IHa]; intros [|b]; cbn; try reflexivity. apply IHa. }
      apply Hrep.
  Qed.

  Lemma unpack_ok p w X : length (p_size_at_t p) = length (a3_cells (p_data p)) -> Forall (fun n => n <= a3_n1 (p_data p)) (p_size_at_t p) ->
    0 < w -> X <> [] -> list_sum_nat (p_size_at_t p) = length X ->
    packed_to_padded z (mk_ragged (mkA [w] X) (p_size_at_t p)) p =
    Ok (mkPad (mkA3 (a3_n1 (p_data p)) [w] (map (fun c => c ++ zero_rows z (a3_n1 (p_data p) - length c) [w]) (chop (p_size_at_t p) X)))
          (p_size_at_t p) (p_lengths p) (p_indices p)).
  Proof.
    intros Hl Hf Hw Hne Hsum. unfold packed_to_padded, mk_ragged, a_size, a_len. cbn [a_tail a_rows shape_size fold_right].
    destruct (Nat.eqb_spec (length X * (w * 1)) 0) as [E|E]; [destruct X; [congruence | cbn in E; lia]|]. cbn [r_data a_tail a_rows].
    replace (fold_right Nat.mul 1 [w]) with w by (cbn; lia). rewrite <- Hl.
    pose proof (unpack_loop_spec p w Hf (length (p_size_at_t p)) 0 [] [] X eq_refl eq_refl Hsum) as G. cbn [length app skipn] in G.
    unfold shape_size in *. cbn [fold_right] in *. replace (w * 1) with w in * by lia. rewrite G. reflexivity.
  Qed.

  Lemma chop_packed sizes : forall cells, length sizes = length cells ->
    (forall t bs c, nth_error sizes t = Some bs -> nth_error cells t = Some c -> bs <= length c) ->
    chop sizes (packed sizes cells) = map (fun q => firstn (fst q) (snd q)) (combine sizes cells) /\ length (packed sizes cells) = list_sum_nat sizes.
  Proof.
    induction sizes as [|n sizes IH]; intros [|c cells] Hl Hb; try discriminate; [split; reflexivity|].
    cbn [packed]. unfold packed. cbn [combine map concat fst snd chop]. fold (packed sizes cells).
    assert (Hn : n <= length c) by (apply (Hb 0); reflexivity).
    destruct (IH cells) as [I1 I2]; [cbn in Hl; lia | intros t; apply (Hb (S t))|]. split.
    - rewrite firstn_app, firstn_firstn, Nat.min_id, firstn_length, Nat.min_l, Nat.sub_diag, firstn_O, app_nil_r by exact Hn.
      f_equal. rewrite skipn_app, firstn_length, Nat.min_l by exact Hn. rewrite skipn_all2 by (rewrite firstn_length; lia).
      rewrite Nat.sub_diag. cbn [app skipn]. exact I1.
    - rewrite app_length, firstn_length, I2. unfold list_sum_nat. cbn [fold_right]. lia.
  Qed.

  Lemma pack_round_trip p w : packable p w -> 0 < w -> 0 < list_sum_nat (p_size_at_t p) ->
    (forall t i bs c, nth_error (p_size_at_t p) t = Some bs -> nth_error (a3_cells (p_data p)) t = Some c ->
       bs <= i < length c -> nth i c [] = zero_row z [w]) ->
    exists r, padded_to_packed z p = Ok r /\ packed_to_padded z r p = Ok p.
  Proof.
    intros Hp Hw Hpos Hz. pose proof Hp as (Ht & Hl & Hsum & Hc & Hs). rewrite (pack_ok p w Hp). eexists. split; [reflexivity|].
    destruct (chop_packed (p_size_at_t p) (a3_cells (p_data p)) Hl (fun t bs c => packable_sizes p w t bs c Hp)) as [C1 C2].
    rewrite unpack_ok; try assumption.
    - rewrite C1. destruct p as [[n1 tl cells] sizes lens idx]. cbn [p_data p_size_at_t p_lengths p_indices a3_n1 a3_tail a3_cells] in *. subst tl.
      do 3 f_equal. rewrite map_map. clear C1 C2 Hp Hpos Hsum. revert cells Hl Hc Hz. induction sizes as [|n sizes IH]; intros [|c cells] Hl Hc Hz; try discriminate; [reflexivity|].
      cbn [combine map fst snd]. inversion Hc as [|? ? [Hcl Hcw] Hc']; subst. inversion Hs as [|? ? Hn Hs']; subst. f_equal.
      + rewrite firstn_length, Nat.min_l by exact Hn. rewrite <- (firstn_skipn n c) at 3. f_equal.
        apply nth_error_ext. intros i. destruct (Nat.lt_ge_cases i (length c - n)) as [Hi|Hi].
        * rewrite nth_error_skipn. rewrite (nth_error_nth' c [] (n := n + i)) by lia.
          rewrite (Hz 0 (n + i) n c eq_refl eq_refl) by lia. unfold zero_rows. now apply nth_error_repeat.
        * rewrite (proj2 (nth_error_None _ _)) by (unfold zero_rows; rewrite repeat_length; exact Hi).
          symmetry. apply nth_error_None. rewrite skipn_length. exact Hi.
      + apply IH; [exact Hs' | cbn in Hl; lia | exact Hc'|]. intros t i bs d E1 E2. apply (Hz (S t) i bs d E1 E2).
    - intros E. rewrite E in C2. cbn in C2. lia.
    - now rewrite C2.
  Qed.

  (** A batch made by list2padded can be packed, and its cells beyond the batch sizes are zero. *)
  Lemma rep_lengths_perm w p seqs : represents z w p seqs -> Permutation (p_lengths p) (map a_len seqs).
  Proof.
    intros R. destruct R.
    assert (E : p_lengths p = map (fun j => nth j (map a_len seqs) 0) (p_indices p)).
    { apply nth_error_ext. intros i. destruct (nth_error (p_indices p) i) as [j|] eqn:Ei.
      - rewrite (map_nth_error _ _ _ Ei). pose proof (perm_seq_bound _ _ _ _ rep_perm Ei) as Hj.
        destruct (nth_error seqs j) as [s|] eqn:Es; [|apply nth_error_None in Es; lia].
        rewrite (rep_len i j s Ei Es). f_equal. symmetry. apply nth_error_nth_some. now apply map_nth_error.
      - apply nth_error_None in Ei. rewrite (Permutation_length rep_perm), seq_length in Ei.
        rewrite (proj2 (nth_error_None (p_lengths p) i)) by lia. symmetry. apply nth_error_None.
        rewrite map_length, (Permutation_length rep_perm), seq_length. exact Ei. }
    rewrite E, rep_perm. clear. set (l := map a_len seqs). rewrite <- (map_length a_len seqs). fold l. clearbody l. clear seqs.
    replace (map (fun j => nth j l 0) (seq 0 (length l))) with l; [reflexivity|].
    apply nth_error_ext. intros i. destruct (Nat.lt_ge_cases i (length l)) as [Hi|Hi].
    - rewrite map_seq_nth_error by exact Hi. now apply nth_error_nth'.
    - rewrite (proj2 (nth_error_None l i)) by exact Hi. symmetry. apply nth_error_None. now rewrite map_length, seq_length.
  Qed.

  Lemma count_le_length t l : count t l <= length l.
  Proof. unfold count. induction l as [|x l IH]; cbn [filter length]; [lia|]. destruct (t <? x); cbn [length]; lia. Qed.

  Lemma count_ge t l c : c <= length l -> (forall i, i < c -> t < nth i l 0) -> c <= count t l.
  Proof.
    unfold count. revert c. induction l as [|x l IH]; intros c Hc Hi; cbn [length filter] in *; [lia|].
    destruct c as [|c]; [lia|]. pose proof (Hi 0 ltac:(lia)) as H0. cbn in H0. destruct (Nat.ltb_spec t x); [|lia]. cbn [length].
    apply le_n_S. apply IH; [lia|]. intros i Hlt. apply (Hi (S i)). lia.
  Qed.

  Lemma represents_packable w p seqs : represents z w p seqs -> like [w] seqs -> seqs <> [] ->
    packable p w /\
    (forall t i bs c, nth_error (p_size_at_t p) t = Some bs -> nth_error (a3_cells (p_data p)) t = Some c ->
       bs <= i < length c -> nth i c [] = zero_row z [w]).
  Proof.
    intros R Hl Hne. pose proof (rep_lengths_perm w p seqs R) as Pl. destruct R.
    assert (Hlt : forall t bs, nth_error (p_size_at_t p) t = Some bs -> t < max_len seqs /\ bs = count t (p_lengths p)).
    { intros t bs E. rewrite rep_sizes in E. assert (t < max_len seqs) by (apply nth_error_lt_some in E; now rewrite map_length, seq_length in E).
      split; [assumption|]. rewrite map_seq_nth_error in E by assumption. injection E as <-. rewrite (count_perm t _ _ Pl). symmetry. apply count_len. }
    assert (Hcell : forall t c i, nth_error (a3_cells (p_data p)) t = Some c -> i < length c ->
      exists j s, nth_error (p_indices p) i = Some j /\ nth_error seqs j = Some s /\ nth i c [] = nth t (a_rows s) (zero_row z [w])).
    { intros t c i Ec Hi. assert (t < max_len seqs) by (apply nth_error_lt_some in Ec; lia).
      assert (Hcl : length c = length seqs) by (rewrite Forall_forall in rep_width; apply rep_width; now apply nth_error_In with t).
      destruct (nth_error (p_indices p) i) as [j|] eqn:Ei.
      2:{ apply nth_error_None in Ei. rewrite (Permutation_length rep_perm), seq_length in Ei. lia. }
      pose proof (perm_seq_bound _ _ _ _ rep_perm Ei) as Hj. destruct (nth_error seqs j) as [s|] eqn:Es; [|apply nth_error_None in Es; lia].
      exists j, s. split; [reflexivity|]. split; [exact Es|]. rewrite <- (rep_data t i j s) by assumption. now rewrite (nth_error_nth_some _ _ _ [] Ec). }
    split.
    - split; [now apply rep_tail|]. split; [rewrite rep_sizes, map_length, seq_length; now symmetry|].
      split; [|split].
      + rewrite rep_sizes, (sum_perm _ _ Pl). symmetry. erewrite map_ext; [|intros t; symmetry; apply count_len]. apply sum_counts.
        intros x Hx. apply in_map_iff in Hx as (s & <- & Hs). now apply max_len_le.
      + apply Forall_forall. intros c Hc. apply In_nth_error in Hc as [t Ec]. rewrite Forall_forall in rep_width.
        assert (Hcl : length c = length seqs) by (apply rep_width; now apply nth_error_In with t). split; [congruence|].
        apply Forall_forall. intros r Hr. apply In_nth with (d := []) in Hr as (i & Hi & <-).
        destruct (Hcell t c i Ec Hi) as (j & s & _ & Es & ->). unfold like in Hl. rewrite Forall_forall in Hl.
        destruct (Hl s (nth_error_In _ _ Es)) as [Et Hw]. unfold wf_nda in Hw. rewrite Et in Hw. rewrite Forall_forall in Hw.
        destruct (Nat.lt_ge_cases t (length (a_rows s))) as [Hts|Hts].
        * assert (Hin : In (nth t (a_rows s) (zero_row z [w])) (a_rows s)) by now apply nth_In. rewrite (Hw _ Hin). cbn. lia.
        * rewrite nth_overflow by exact Hts. unfold zero_row. rewrite repeat_length. cbn. lia.
      + apply Forall_forall. intros n Hn. apply In_nth_error in Hn as [t En]. destruct (Hlt t n En) as [_ ->].
        pose proof (count_le_length t (p_lengths p)). lia.
    - intros t i bs c E1 E2 Hi. destruct (Hlt t bs E1) as [Ht ->]. destruct (Hcell t c i E2 ltac:(lia)) as (j & s & Ei & Es & ->).
      apply nth_overflow. pose proof (rep_len i j s Ei Es) as Hlen. apply Nat.nlt_ge. intros Hts.
      assert (Hil : i < length (p_lengths p)) by now apply nth_error_lt_some in Hlen.
      assert (S i <= count t (p_lengths p)); [|lia]. apply count_ge; [exact Hil|]. intros k Hk.
      assert (Hli : t < nth i (p_lengths p) 0) by (rewrite (nth_error_nth_some _ _ _ 0 Hlen); exact Hts).
      destruct (Nat.eq_dec k i) as [->|Hki]; [exact Hli|]. destruct (rep_sorted k i ltac:(lia)) as [G|[G _]]; lia.
  Qed.
End Pack.

(** *** Ragged indexing *)
Section Ragged.
  Context {T : Type}.
  Implicit Types (r : ragged T).

  Lemma chop_app {A} l1 : forall l2 (rows : list A), chop (l1 ++ l2) rows = chop l1 rows ++ chop l2 (skipn (list_sum_nat l1) rows).
  Proof.
    induction l1 as [|n l1 IH]; intros l2 rows; [reflexivity|]. cbn [app chop]. rewrite IH, skipn_skipn. reflexivity.
  Qed.
  Lemma chop_firstn {A} l : forall m (rows : list A), list_sum_nat l <= m -> chop l (firstn m rows) = chop l rows.
  Proof.
    induction l as [|n l IH]; intros m rows Hm; [reflexivity|]. unfold list_sum_nat in Hm. cbn [fold_right] in Hm. cbn [chop].
    rewrite firstn_firstn, Nat.min_l by lia. f_equal. rewrite skipn_firstn_comm. apply IH. unfold list_sum_nat. lia.
  Qed.
  Lemma sum_app l1 l2 : list_sum_nat (l1 ++ l2) = list_sum_nat l1 + list_sum_nat l2.
  Proof. unfold list_sum_nat. induction l1 as [|x l1 IH]; cbn; [reflexivity|]. rewrite IH. lia. Qed.

  (** A range of the pieces, from a range of the rows. *)
  Lemma chop_range {A} lens (rows : list A) a b : a <= b <= length lens -> list_sum_nat lens = length rows ->
    chop (firstn (b - a) (skipn a lens)) (slice_rows (list_sum_nat (firstn a lens)) (list_sum_nat (firstn b lens)) rows)
    = firstn (b - a) (skipn a (chop lens rows)).
  Proof.
    intros Hab Hs. unfold slice_rows. set (mid := firstn (b - a) (skipn a lens)).
    assert (E1 : firstn b lens = firstn a lens ++ mid).
    { unfold mid. rewrite <- (firstn_skipn a lens) at 1.
      rewrite firstn_app, firstn_length, firstn_firstn, Nat.min_r, Nat.min_l by lia. reflexivity. }
    assert (E2 : lens = (firstn a lens ++ mid) ++ skipn b lens) by (rewrite <- E1; symmetry; apply firstn_skipn).
    rewrite E1, sum_app. replace (list_sum_nat (firstn a lens) + list_sum_nat mid - list_sum_nat (firstn a lens)) with (list_sum_nat mid) by lia.
    assert (Lm : length mid = b - a) by (unfold mid; rewrite firstn_length, skipn_length; lia).
    rewrite chop_firstn by lia. clearbody mid. rewrite E2 at 2. rewrite <- app_assoc, !chop_app.
    assert (L1 : length (chop (firstn a lens) rows) = a) by (rewrite chop_length, firstn_length; lia).
    rewrite skipn_app, (skipn_all2 (chop (firstn a lens) rows)) by lia. rewrite L1, Nat.sub_diag. cbn [app skipn].
    assert (L2 : length (chop mid (skipn (list_sum_nat (firstn a lens)) rows)) = b - a) by (rewrite chop_length; exact Lm).
    rewrite firstn_app, L2, Nat.sub_diag, firstn_O, app_nil_r. symmetry. apply firstn_all2. lia.
  Qed.

  Lemma cumsum_nth lens : forall acc i, i < length lens -> nth i (cumsum_from acc lens) 0 = acc + list_sum_nat (firstn (S i) lens).
  Proof.
    induction lens as [|n lens IH]; intros acc i Hi; cbn [length] in Hi; [lia|]. destruct i as [|i].
    - cbn. unfold list_sum_nat. cbn. lia.
    - cbn [cumsum_from nth]. rewrite IH by lia. unfold list_sum_nat. cbn [firstn fold_right]. lia.
  Qed.
  Lemma cumsum_length acc lens : length (cumsum_from acc lens) = length lens.
  Proof. revert acc. induction lens as [|n lens IH]; intros acc; cbn; [reflexivity | now rewrite IH]. Qed.
  Lemma removelast_nth {A} (l : list A) i d : S i < length l -> nth i (removelast l) d = nth i l d.
  Proof.
    revert i. induction l as [|x l IH]; intros i Hi; [reflexivity|]. destruct l as [|y l]; [cbn in Hi; lia|].
    change (removelast (x :: y :: l)) with (x :: removelast (y :: l)). destruct i as [|i]; [reflexivity|]. cbn [nth]. apply IH. cbn [length] in *. lia.
  Qed.
  Lemma removelast_length {A} (l : list A) : length (removelast l) = length l - 1.
  Proof. induction l as [|x l IH]; [reflexivity|]. destruct l as [|y l]; [reflexivity|]. change (removelast (x :: y :: l)) with (x :: removelast (y :: l)). cbn [length] in *. rewrite IH. lia. Qed.

  Lemma ends_nth r i : i < length (r_lengths r) -> nth i (ends_of r) 0 = list_sum_nat (firstn (S i) (r_lengths r)).
  Proof. intros Hi. unfold ends_of, cumsum. now rewrite cumsum_nth. Qed.
  Lemma starts_nth r i : i < length (r_lengths r) -> nth i (starts_of r) 0 = list_sum_nat (firstn i (r_lengths r)).
  Proof.
    intros Hi. unfold starts_of, cumsum. rewrite removelast_nth by (cbn [length]; rewrite cumsum_length; lia).
    destruct i as [|i]; [reflexivity|]. cbn [nth]. rewrite cumsum_nth by lia. reflexivity.
  Qed.
  Lemma ends_length r : length (ends_of r) = length (r_lengths r).
  Proof. apply cumsum_length. Qed.
  Lemma starts_length r : length (starts_of r) = length (r_lengths r).
  Proof. unfold starts_of. rewrite removelast_length. cbn [length]. unfold cumsum. rewrite cumsum_length. lia. Qed.

  Lemma py_getz_nth (l : list nat) i : (0 <= i < Z.of_nat (length l))%Z -> py_getz l i = Ok (nth (Z.to_nat i) l 0).
  Proof.
    intros Hi. unfold py_getz, norm_index. destruct (Z.ltb_spec i 0); [lia|]. destruct (Z.ltb_spec i (Z.of_nat (length l))); [|lia].
    unfold py_get. now rewrite (nth_error_nth' l 0) by lia.
  Qed.

  Lemma mk_ragged_rows (a : nda T) lens : shape_size (a_tail a) <> 0 \/ a_rows a = [] ->
    a_rows (r_data (mk_ragged a lens)) = a_rows a /\ r_lengths (mk_ragged a lens) = lens /\ r_tail (mk_ragged a lens) = a_tail a.
  Proof.
    intros H. unfold mk_ragged, a_size, a_len. destruct (Nat.eqb_spec (length (a_rows a) * shape_size (a_tail a)) 0) as [E|E]; [|auto].
    cbn. destruct (a_rows a); [auto|]. destruct H as [H|H]; [cbn in E; lia | discriminate].
  Qed.

  Lemma wf_slice_ok r st en : wf_ragged r -> shape_size (a_tail (rows_slice (r_data r) st en)) <> 0 \/ a_rows (rows_slice (r_data r) st en) = [].
  Proof.
    intros (Hs & _ & _ & [[E _]|[_ E]]).
    - right. unfold rows_slice, slice_rows. cbn. rewrite E. now rewrite skipn_nil, firstn_nil.
    - left. cbn. rewrite E. cbn. lia.
  Qed.

  Lemma firstn1_skipn {A} (l : list A) i d : i < length l -> firstn 1 (skipn i l) = [nth i l d].
  Proof. revert i. induction l as [|x l IH]; intros [|i] Hi; cbn [length] in Hi; try lia; cbn [skipn nth]; [reflexivity|]. apply IH. lia. Qed.

  Lemma get_int_ok r i : wf_ragged r -> i < length (r_lengths r) ->
    exists r', ragged_get_int r (Z.of_nat i) = Ok r' /\ r_lengths r' = [nth i (r_lengths r) 0] /\ r_tail r' = a_tail (r_data r) /\
      ragged_seqs r' = [nth i (ragged_seqs r) []] /\
      a_rows (r_data r') = nth i (ragged_seqs r) [].
  Proof.
    intros Hw Hi. pose proof Hw as (_ & _ & Hsum & _). unfold ragged_get_int.
    rewrite (py_getz_nth (starts_of r)) by (rewrite starts_length; lia). rewrite (py_getz_nth (ends_of r)) by (rewrite ends_length; lia). cbn [bind].
    rewrite Nat2Z.id. rewrite starts_nth, ends_nth by exact Hi. eexists. split; [reflexivity|].
    set (a := rows_slice _ _ _).
    assert (El : py_slice (r_lengths r) (Z.of_nat i) (Z.of_nat i + 1) = [nth i (r_lengths r) 0]).
    { unfold py_slice. rewrite !clamp_index_nonneg by lia. rewrite Nat2Z.id. rewrite Nat.min_l by lia. rewrite Nat.min_l by lia.
      replace (Z.to_nat (Z.of_nat i + 1) - i) with 1 by lia. now apply firstn1_skipn. }
    rewrite El. destruct (mk_ragged_rows a [nth i (r_lengths r) 0] (wf_slice_ok r _ _ Hw)) as (A & B & C). rewrite B, C.
    assert (Er : chop [nth i (r_lengths r) 0] (a_rows a) = [nth i (ragged_seqs r) []]).
    { rewrite <- (firstn1_skipn (r_lengths r) i 0 Hi). replace 1 with (S i - i) by lia. unfold a, rows_slice. cbn [a_rows].
      rewrite chop_range by (unfold a_len in Hsum; lia || exact Hsum). replace (S i - i) with 1 by lia.
      apply firstn1_skipn. unfold ragged_seqs in *. now rewrite chop_length. }
    assert (Ea : a_rows a = nth i (ragged_seqs r) []).
    { cbn [chop] in Er. injection Er as <-. symmetry. apply firstn_all2. unfold a, rows_slice, slice_rows. cbn [a_rows]. rewrite firstn_length.
      assert (list_sum_nat (firstn (S i) (r_lengths r)) = list_sum_nat (firstn i (r_lengths r)) + nth i (r_lengths r) 0); [|lia].
      clear -Hi. revert i Hi. induction (r_lengths r) as [|x l IH]; intros i Hi; cbn [length] in Hi; [lia|]. destruct i as [|i].
      - unfold list_sum_nat. cbn. lia.
      - specialize (IH i ltac:(lia)). unfold list_sum_nat in *. cbn [firstn fold_right nth] in *. lia. }
    split; [reflexivity|]. split; [reflexivity|]. split; [unfold ragged_seqs; rewrite A, B; exact Er | now rewrite A].
  Qed.

  (** Slices with step 1. *)
  Lemma positions_step1 n a b : slice_positions n (mkSlice (Some a) b 1) =
    seq (clamp_index n a) (match b with Some j => clamp_index n j | None => n end - clamp_index n a).
  Proof.
    unfold slice_positions. cbn [sl_start sl_stop sl_step]. set (l := seq _ _). clearbody l.
    induction l as [|x l IH]; [reflexivity|]. cbn [filter]. rewrite Nat.mod_1_r. cbn [Nat.eqb]. now rewrite IH.
  Qed.
  Lemma take_seq {A} (l : list A) a k : a + k <= length l -> take_positions l (seq a k) = firstn k (skipn a l).
  Proof.
    unfold take_positions. revert a. induction k as [|k IH]; intros a Hk; [reflexivity|]. cbn [seq flat_map].
    destruct (nth_error l a) as [x|] eqn:E; [|apply nth_error_None in E; lia]. rewrite IH by lia.
    rewrite (skipn_nth_error l a x E). reflexivity.
  Qed.
  Lemma clamp_le n i : clamp_index n i <= n.
  Proof. unfold clamp_index. destruct (Z.ltb_spec i 0); lia. Qed.

  Lemma slice_get_step1 {A} (l : list A) a b : let st := clamp_index (length l) a in
    let en := match b with Some j => clamp_index (length l) j | None => length l end in
    py_slice_get l (mkSlice (Some a) b 1) = firstn (en - st) (skipn st l).
  Proof.
    cbv zeta. unfold py_slice_get. rewrite positions_step1. set (en := match b with Some j => _ | None => _ end).
    assert (en <= length l) by (unfold en; destruct b; [apply clamp_le | lia]). pose proof (clamp_le (length l) a).
    destruct (Nat.le_gt_cases (clamp_index (length l) a) en).
    - apply take_seq. lia.
    - replace (en - clamp_index (length l) a) with 0 by lia. reflexivity.
  Qed.

  Lemma get_slice_ok r a b : wf_ragged r -> (0 <= a)%Z -> let sl := mkSlice (Some a) b 1 in
    exists r', ragged_get r (RSlice sl) = Ok r' /\ r_lengths r' = py_slice_get (r_lengths r) sl /\ r_tail r' = r_tail r /\
      ragged_seqs r' = py_slice_get (ragged_seqs r) sl.
  Proof.
    intros Hw Ha sl. pose proof Hw as (Hs & _ & Hsum & _). unfold ragged_get. cbn [sl_step sl Nat.eqb].
    set (n := length (r_lengths r)).
    pose proof (slice_get_step1 (r_lengths r) a b) as E1. cbv zeta in E1. fold n in E1. fold sl in E1.
    set (st := clamp_index n a) in *. set (en := match b with Some j => clamp_index n j | None => n end) in *.
    assert (Hen : en <= n) by (unfold en; destruct b; [apply clamp_le | lia]). assert (Hst : st <= n) by apply clamp_le.
    assert (E2 : py_slice_get (ragged_seqs r) sl = firstn (en - st) (skipn st (ragged_seqs r))).
    { pose proof (slice_get_step1 (ragged_seqs r) a b) as E. cbv zeta in E. unfold ragged_seqs in *. rewrite chop_length in E. exact E. }
    assert (Hre : Nat.eqb (shape_size (r_tail r)) 0 = false) by (destruct (Nat.eqb_spec (shape_size (r_tail r)) 0); [contradiction | reflexivity]).
    destruct (Nat.le_gt_cases en st) as [Hle|Hlt].
    - replace (en - st) with 0 in * by lia. rewrite E1. cbn [firstn]. unfold reshape_tail. rewrite Hre. cbn [bind].
      eexists. split; [reflexivity|]. cbn [rows_slice slice_rows a_rows Nat.sub firstn].
      destruct (mk_ragged_rows (mkA (r_tail r) []) [] (or_introl Hs)) as (A & B & C). split; [exact B|]. split; [exact C|].
      unfold ragged_seqs at 1. rewrite A, B. rewrite E2. reflexivity.
    - assert (Hnn : py_slice_get (r_lengths r) sl <> []).
      { rewrite E1. intros El. apply (f_equal (@length nat)) in El. rewrite firstn_length, skipn_length in El. fold n in El. cbn [length] in El. lia. }
      destruct (py_slice_get (r_lengths r) sl) as [|l0 ls]; [congruence|]. cbn [sl sl_start].
      assert (Estart : (if (1 <=? a)%Z then py_get (py_slice_get (starts_of r) sl) 0 else Ok 0) = Ok (list_sum_nat (firstn st (r_lengths r)))).
      { destruct (Z.leb_spec 1 a) as [H1|H1].
        - pose proof (slice_get_step1 (starts_of r) a b) as E. cbv zeta in E. rewrite starts_length in E. fold n st en in E. fold sl in E. rewrite E.
          assert (Es : nth_error (starts_of r) st = Some (list_sum_nat (firstn st (r_lengths r)))).
          { rewrite (nth_error_nth' _ 0) by (rewrite starts_length; fold n; lia). now rewrite starts_nth by (fold n; lia). }
          rewrite (skipn_nth_error _ _ _ Es). destruct (en - st) eqn:Ed; [lia|]. reflexivity.
        - replace st with 0; [reflexivity|]. unfold st. replace a with 0%Z by lia. rewrite clamp_index_nonneg by lia. reflexivity. }
      fold sl. rewrite Estart. cbn [bind].
      assert (Eend : py_getz (py_slice_get (ends_of r) sl) (-1) = Ok (list_sum_nat (firstn en (r_lengths r)))).
      { pose proof (slice_get_step1 (ends_of r) a b) as E. cbv zeta in E. rewrite ends_length in E. fold n st en in E. fold sl in E. rewrite E.
        assert (Hln : length (firstn (en - st) (skipn st (ends_of r))) = en - st) by (rewrite firstn_length, skipn_length, ends_length; fold n; lia).
        unfold py_getz, norm_index. rewrite Hln. cbn [Z.ltb Z.compare]. destruct (Z.leb_spec 0 (-1 + Z.of_nat (en - st))); [|lia].
        unfold py_get. rewrite nth_error_firstn, nth_error_skipn by lia.
        replace (st + Z.to_nat (-1 + Z.of_nat (en - st))) with (en - 1) by lia.
        rewrite (nth_error_nth' _ 0) by (rewrite ends_length; fold n; lia). rewrite ends_nth by (fold n; lia). now replace (S (en - 1)) with en by lia. }
      rewrite Eend. cbn [bind]. unfold reshape_tail. rewrite Hre. cbn [bind]. eexists. split; [reflexivity|].
      set (a0 := mkA (r_tail r) _). destruct (mk_ragged_rows a0 (l0 :: ls) (or_introl Hs)) as (A & B & C).
      split; [exact B|]. split; [exact C|]. unfold ragged_seqs at 1. rewrite A, B, E1, E2. unfold a0, rows_slice. cbn [a_rows].
      apply chop_range; [fold n; lia | exact Hsum].
  Qed.

  (** Selection by positions. *)
  Lemma get_array_ok r (l : list nat) : wf_ragged r -> l <> [] -> Forall (fun i => i < length (r_lengths r) /\ 0 < nth i (r_lengths r) 0) l ->
    exists r', ragged_get r (RArray (map Z.of_nat l)) = Ok r' /\ r_lengths r' = map (fun i => nth i (r_lengths r) 0) l /\ r_tail r' = r_tail r /\
      ragged_seqs r' = map (fun i => nth i (ragged_seqs r) []) l.
  Proof.
    intros Hw Hne Hf. pose proof Hw as (Hs & Hwf & Hsum & Hd). unfold ragged_get.
    assert (Hlenseq : forall i, i < length (r_lengths r) -> length (nth i (ragged_seqs r) []) = nth i (r_lengths r) 0).
    { intros i Hi. unfold ragged_seqs. pose proof (chop_lengths (r_lengths r) (a_rows (r_data r)) Hsum) as E.
      rewrite <- E at 2. rewrite (nth_indep _ 0 (length (@nil (list T)))) by (rewrite map_length, chop_length; exact Hi). now rewrite map_nth. }
    assert (Hparts : exists parts, mapM (fun i => let* x := ragged_get_int r i in Ok (r_data x)) (map Z.of_nat l) = Ok parts /\
      Forall (fun x => a_tail x = [shape_size (r_tail r)]) parts /\ map a_rows parts = map (fun i => nth i (ragged_seqs r) []) l).
    { clear Hne. induction Hf as [|i l [Hi Hpos] Hf (parts & E & P1 & P2)]; [exists []; repeat constructor|].
      destruct (get_int_ok r i Hw Hi) as (x & Ex & _ & Et & _ & Er). cbn [map mapM]. rewrite Ex. cbn [bind]. rewrite E. cbn [bind].
      eexists. split; [reflexivity|]. split; [|cbn [map]; now rewrite P2, Er]. constructor; [|exact P1].
      unfold ragged_get_int in Ex. destruct (py_getz (starts_of r) (Z.of_nat i)) as [s|]; [|discriminate]. destruct (py_getz (ends_of r) (Z.of_nat i)) as [e|]; [|discriminate].
      cbn [bind] in Ex. injection Ex as <-. revert Er. unfold mk_ragged. destruct (Nat.eqb_spec (a_size (rows_slice (r_data r) s e)) 0) as [E0|E0]; cbn.
      - intros Er. specialize (Hlenseq i Hi) as Hls. rewrite <- Er in Hls. cbn in Hls. lia.
      - intros Er. destruct Hd as [[Hd _]|[_ Hd]].
        + exfalso. apply E0. unfold a_size, a_len. cbn. unfold slice_rows. rewrite Hd, skipn_nil, firstn_nil. reflexivity.
        + rewrite Hd. cbn. f_equal. lia. }
    destruct Hparts as (parts & E & P1 & P2). rewrite E. cbn [bind].
    rewrite (concatenate_ok [shape_size (r_tail r)] parts P1).
    2:{ intros ->. cbn in P2. destruct l; [congruence | discriminate]. }
    cbn [bind]. unfold reshape_tail. destruct (Nat.eqb_spec (shape_size (r_tail r)) 0); [contradiction|]. cbn [bind a_rows].
    assert (El : mapM (py_getz (r_lengths r)) (map Z.of_nat l) = Ok (map (fun i => nth i (r_lengths r) 0) l)).
    { clear Hne E P2. induction Hf as [|i l [Hi _] Hf IH]; [reflexivity|]. cbn [map mapM]. rewrite py_getz_nth by lia. cbn [bind]. rewrite IH. cbn [bind]. now rewrite Nat2Z.id. }
    rewrite El. cbn [bind]. eexists. split; [reflexivity|].
    set (a0 := mkA (r_tail r) _). destruct (mk_ragged_rows a0 (map (fun i => nth i (r_lengths r) 0) l) (or_introl Hs)) as (A & B & C).
    split; [exact B|]. split; [exact C|]. unfold ragged_seqs at 1. rewrite A, B. unfold a0. cbn [a_rows]. rewrite P2.
    rewrite <- (app_nil_r (concat _)).
    replace (map (fun i => nth i (r_lengths r) 0) l) with (map (@length _) (map (fun i => nth i (ragged_seqs r) []) l)); [apply chop_concat|].
    rewrite map_map. apply map_ext_in. intros i Hi. rewrite Forall_forall in Hf. apply Hlenseq. now apply Hf.
  Qed.

  Lemma get_last_loses_length r : r_lengths r <> [] ->
    exists r', ragged_get r (RInt (-1)) = Ok r' /\ r_lengths r' = [].
  Proof.
    intros Hne. unfold ragged_get, ragged_get_int.
    assert (G : forall l : list nat, length l = length (r_lengths r) -> exists v, py_getz l (-1) = Ok v).
    { intros l El. unfold py_getz, norm_index. cbn [Z.ltb Z.compare]. destruct (r_lengths r) as [|x xs] eqn:E; [congruence|]. cbn [length] in El.
      destruct (Z.leb_spec 0 (-1 + Z.of_nat (length l))); [|lia]. apply py_get_exists. lia. }
    destruct (G (starts_of r) (starts_length r)) as [s ->]. destruct (G (ends_of r) (ends_length r)) as [e ->]. cbn [bind].
    eexists. split; [reflexivity|]. assert (E : py_slice (r_lengths r) (-1) (-1 + 1) = []).
    { unfold py_slice. cbn [Z.add Z.pos_sub Pos.sub Z.opp]. assert (clamp_index (length (r_lengths r)) 0 = 0) by (rewrite clamp_index_nonneg by lia; reflexivity). rewrite H. reflexivity. }
    rewrite E. unfold mk_ragged. now destruct (Nat.eqb _ 0).
  Qed.

  Lemma get_open_slice_error r b step : py_slice_get (r_lengths r) (mkSlice None b step) <> [] -> 0 < step ->
    ragged_get r (RSlice (mkSlice None b step)) = Err TypeError.
  Proof.
    intros Hne Hs. unfold ragged_get. cbn [sl_step sl_start]. destruct (Nat.eqb_spec step 0); [lia|].
    destruct (py_slice_get (r_lengths r) (mkSlice None b step)); [congruence | reflexivity].
  Qed.
End Ragged.

Lemma list_pack {T} (z : T) w seqs : like [w] seqs -> 0 < w -> (exists s, In s seqs /\ 0 < a_len s) ->
  exists p r, list2padded z seqs = Ok p /\ padded_to_packed z p = Ok r /\ packed_to_padded z r p = Ok p /\ packable p w.
Proof.
  intros Hl Hw (s & Hin & Hlen). destruct (list2padded_ok z w seqs Hl) as (p & E & R).
  assert (Hne : seqs <> []) by (intros ->; contradiction).
  destruct (represents_packable z w p seqs R Hl Hne) as [Hp Hz].
  destruct (pack_round_trip z p w Hp Hw) as (r & E1 & E2); [|exact Hz | exists p, r; auto].
  pose proof (rep_lengths_perm z w p seqs R) as Pl. destruct Hp as (_ & _ & Hs & _). rewrite <- Hs, (sum_perm _ _ Pl).
  clear -Hin Hlen. induction seqs as [|x l IH]; [contradiction|]. unfold list_sum_nat in *. cbn. destruct Hin as [->|Hin]; [lia|]. specialize (IH Hin). lia.
Qed.

(** Witnesses of deviations. *)
Lemma zero_width : exists (Xs : list (nda nat)) F, like [0] Xs /\ flatten 0 Xs 0 2 = Ok F /\ unflatten F (map a_len Xs) 0 <> Xs.
Proof.
  exists [mkA [0] [[]; []]; mkA [0] [[]]]. eexists. split; [repeat constructor|]. split; [reflexivity|]. vm_compute. discriminate.
Qed.
Lemma pack_no_rows : exists (p p' : padded nat) r, packable p 2 /\ padded_to_packed 0 p = Ok r /\ packed_to_padded 0 r p = Ok p' /\ p' <> p.
Proof.
  exists (mkPad (mkA3 1 [2] []) [] [0] [0]). do 2 eexists. split; [repeat split; constructor|]. split; [reflexivity|]. split; [reflexivity|]. discriminate.
Qed.
Local Definition wr : ragged nat := mkRag (mkA [1] [[1]; [2]; [3]; [4]]) [1; 2; 0; 1] [1].
Lemma wr_wf : wf_ragged wr.
Proof. split; [discriminate|]. split; [repeat constructor|]. split; [reflexivity|]. right. split; [discriminate | reflexivity]. Qed.
Lemma negative_start : exists (r r' : ragged nat) sl, wf_ragged r /\ sl_step sl = 1 /\ ragged_get r (RSlice sl) = Ok r' /\
  ragged_seqs r' <> py_slice_get (ragged_seqs r) sl.
Proof.
  exists wr. eexists. exists (mkSlice (Some (-3)%Z) None 1). split; [exact wr_wf|]. split; [reflexivity|]. split; [reflexivity|]. vm_compute. discriminate.
Qed.
Lemma slice_step : exists (r r' : ragged nat) sl, wf_ragged r /\ sl_start sl = Some 0%Z /\ ragged_get r (RSlice sl) = Ok r' /\
  ragged_seqs r' <> py_slice_get (ragged_seqs r) sl.
Proof.
  exists wr. eexists. exists (mkSlice (Some 0%Z) None 3). split; [exact wr_wf|]. split; [reflexivity|]. split; [reflexivity|]. vm_compute. discriminate.
Qed.
Lemma array_with_empty : exists (r : ragged nat) l, wf_ragged r /\ Forall (fun i => i < length (r_lengths r)) l /\ l <> [] /\
  ragged_get r (RArray (map Z.of_nat l)) = Err ValueError.
Proof. exists wr, [1; 2]. split; [exact wr_wf|]. split; [repeat constructor|]. split; [discriminate | reflexivity]. Qed.
Lemma padded_index : exists (p p' : padded nat) seqs, list2padded 0 seqs = Ok p /\ padded_get p (PInt 0) = Ok p' /\
  p_size_at_t p' = p_lengths p' /\ p_size_at_t p' <> map (fun t => length (filter (fun n => t <? n) (p_lengths p'))) (seq 0 (length (a3_cells (p_data p')))) /\
  padded2list p' = Err IndexError.
Proof.
  do 2 eexists. exists [mkA [1] [[1]]; mkA [1] [[2]; [3]]]. split; [reflexivity|]. split; [reflexivity|].
  split; [reflexivity|]. split; [vm_compute; discriminate | reflexivity].
Qed.
