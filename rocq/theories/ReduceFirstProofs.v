From Verif Require Import BaseFacts ReduceSpec SeqProofs PaddedProofs PackProofs AdaptProofs MatProofs ReduceProofs ReduceMaxProofs.
Set Default Goal Selector "!".
Local Open Scope R_scope.

Local Notation rows := (list (list R)).
Local Notation wide O := (Forall (fun r : list R => length r = O)).

(** ** first and last *)

Fixpoint starts (a : Z) (l : list Z) : list Z := match l with [] => [] | x :: l' => a :: starts (a + x) l' end.
Definition lasts (a : Z) (l : list Z) : list Z := map (fun e => (e - 1)%Z) (zcumsum_from a l).
Lemma starts_eq l : forall a, removelast (a :: zcumsum_from a l) = starts a l.
Proof. induction l as [|x l IH]; intros a; [reflexivity|]. cbn [zcumsum_from starts]. change (a :: removelast ((a + x)%Z :: zcumsum_from (a + x) l) = a :: starts (a + x) l). now rewrite IH. Qed.
Lemma zcumsum_last l : forall a d, last (a :: zcumsum_from a l) d = (a + zsum l)%Z.
Proof. induction l as [|x l IH]; intros a d; [cbn; lia|]. cbn [zcumsum_from zsum fold_right]. change (last ((a + x)%Z :: zcumsum_from (a + x) l) d = (a + (x + zsum l))%Z). rewrite IH. lia. Qed.
Lemma lasts_last lengths : lengths <> [] -> last (lasts 0 lengths) 0%Z = (zsum lengths - 1)%Z.
Proof.
  intros Hne. unfold lasts. pose proof (zcumsum_last lengths 0 0%Z) as G. rewrite Z.add_0_l in G. rewrite <- G. destruct lengths as [|n l]; [congruence|]. cbn [zcumsum_from]. generalize (0 + n)%Z as c. intros c.
  change (last (0%Z :: c :: zcumsum_from c l) 0)%Z with (last (c :: zcumsum_from c l) 0)%Z. generalize (zcumsum_from c l). intros m. clear. revert c. induction m as [|y m IH]; intros c; [reflexivity|]. exact (IH y).
Qed.
Lemma py_getz_last {A} (l : list A) d : l <> [] -> py_getz l (-1) = Ok (last l d).
Proof.
  intros H. destruct l as [|x l] using rev_ind; [congruence|]. unfold py_getz, norm_index. rewrite app_length. cbn [length]. destruct (Z.ltb_spec (-1) 0); [|lia]. destruct (Z.leb_spec 0 (-1 + Z.of_nat (length l + 1))); [|lia].
  unfold py_get. replace (Z.to_nat (-1 + Z.of_nat (length l + 1))) with (length l) by lia. rewrite nth_error_app2, Nat.sub_diag by lia. cbn. now rewrite last_last.
Qed.
Lemma positive_forallb l : positive l <-> forallb (fun len => (0 <? len)%Z) l = true.
Proof. unfold positive. rewrite forallb_forall, Forall_forall. split; intros H x Hx; specialize (H x Hx); [now apply Z.ltb_lt | now apply Z.ltb_lt in H]. Qed.

(** Row at a non-negative position below the length. *)
Lemma py_getz_at {A} (P : list A) x Q k : k = Z.of_nat (length P) -> py_getz (P ++ x :: Q) k = Ok x.
Proof.
  intros ->. unfold py_getz, norm_index. rewrite app_length. cbn [length]. destruct (Z.ltb_spec (Z.of_nat (length P)) 0); [lia|]. destruct (Z.ltb_spec (Z.of_nat (length P)) (Z.of_nat (length P + S (length Q)))); [|lia].
  unfold py_get. rewrite Nat2Z.id, nth_error_app2, Nat.sub_diag by lia. reflexivity.
Qed.

Lemma first_rows (l : list Z) : forall (P X : rows), positive l -> Z.of_nat (length X) = zsum l ->
  mapM (py_getz (P ++ X)) (starts (Z.of_nat (length P)) l) = Ok (map (fun s => nth 0 s []) (seqs_of l X)).
Proof.
  induction l as [|n l IH]; intros P X Hp Hs; [reflexivity|]. apply Forall_cons_iff in Hp as [Hp1 Hp2]. cbn [zsum fold_right] in Hs. fold (zsum l) in Hs.
  assert (Hz : (0 <= zsum l)%Z) by (apply zsum_nonneg; eapply Forall_impl; [|exact Hp2]; cbn; intros; lia).
  cbn [starts mapM seqs_of map chop]. fold (seqs_of l (skipn (Z.to_nat n) X)).
  destruct X as [|x X]; [cbn in Hs; lia|]. rewrite py_getz_at by reflexivity. cbn [bind].
  specialize (IH (P ++ firstn (Z.to_nat n) (x :: X)) (skipn (Z.to_nat n) (x :: X)) Hp2). rewrite <- app_assoc, firstn_skipn in IH.
  assert (El : length (firstn (Z.to_nat n) (x :: X)) = Z.to_nat n) by (rewrite firstn_length; lia).
  rewrite app_length, El, Nat2Z.inj_add, Z2Nat.id in IH by lia. rewrite IH by (rewrite skipn_length; lia). cbn [bind]. do 2 f_equal.
  destruct (Z.to_nat n) eqn:E; [lia | reflexivity].
Qed.
Lemma last_rows (l : list Z) : forall (P X : rows), positive l -> Z.of_nat (length X) = zsum l ->
  mapM (py_getz (P ++ X)) (lasts (Z.of_nat (length P)) l) = Ok (map (fun s => last s []) (seqs_of l X)).
Proof.
  induction l as [|n l IH]; intros P X Hp Hs; [reflexivity|]. apply Forall_cons_iff in Hp as [Hp1 Hp2]. cbn [zsum fold_right] in Hs. fold (zsum l) in Hs.
  assert (Hz : (0 <= zsum l)%Z) by (apply zsum_nonneg; eapply Forall_impl; [|exact Hp2]; cbn; intros; lia).
  unfold lasts. cbn [zcumsum_from mapM seqs_of map chop]. fold (seqs_of l (skipn (Z.to_nat n) X)). fold (lasts (Z.of_nat (length P) + n) l).
  specialize (IH (P ++ firstn (Z.to_nat n) X) (skipn (Z.to_nat n) X) Hp2). rewrite <- app_assoc, firstn_skipn in IH.
  assert (El : length (firstn (Z.to_nat n) X) = Z.to_nat n) by (rewrite firstn_length; lia).
  rewrite app_length, El, Nat2Z.inj_add, Z2Nat.id in IH by lia. 
  assert (E : py_getz (P ++ X) (Z.of_nat (length P) + n - 1) = Ok (last (firstn (Z.to_nat n) X) [])).
  { rewrite <- (firstn_skipn (Z.to_nat n) X) at 1. destruct (firstn (Z.to_nat n) X) as [|y F] eqn:EF using rev_ind; [cbn in El; lia|]. clear IHF. rewrite last_last, <- app_assoc, app_assoc. apply py_getz_at. rewrite app_length in *. cbn [length] in El. lia. }
  rewrite E. cbn [bind]. rewrite IH by (rewrite skipn_length; lia). reflexivity.
Qed.

Lemma op_first_ok X lengths : lengths <> [] -> positive lengths -> Z.of_nat (m_len X) = zsum lengths ->
  op_reduce_first X lengths = Ok (mkM (m_cols X) (map (fun s => nth 0 s []) (seqs_of lengths (m_rows X))), 0%Z :: zcumsum lengths).
Proof.
  intros Hne Hp Hs. unfold op_reduce_first. destruct lengths as [|n l]; [congruence|]. apply positive_forallb in Hp as Hb. rewrite Hb. cbn [negb].
  rewrite (py_getz_last _ 0%Z) by discriminate. unfold zcumsum. rewrite zcumsum_last, Z.add_0_l. cbn [bind]. rewrite <- Hs, Z.eqb_refl. cbn [negb]. rewrite starts_eq.
  pose proof (first_rows (n :: l) [] (m_rows X) Hp Hs) as G. cbn [app length] in G. change (Z.of_nat 0) with 0%Z in G. rewrite G. reflexivity.
Qed.
Lemma op_last_ok X lengths : lengths <> [] -> positive lengths -> Z.of_nat (m_len X) = zsum lengths ->
  op_reduce_last X lengths = Ok (mkM (m_cols X) (map (fun s => last s []) (seqs_of lengths (m_rows X))), map (fun e => (e - 1)%Z) (zcumsum lengths)).
Proof.
  intros Hne Hp Hs. unfold op_reduce_last. destruct lengths as [|n l] eqn:E; [congruence|]. rewrite <- E in *. apply positive_forallb in Hp as Hb. rewrite Hb. cbn [negb].
  pose proof (lasts_last lengths Hne) as El. unfold lasts in El. fold (zcumsum lengths) in El.
  rewrite (py_getz_last _ 0%Z) by (subst lengths; discriminate). rewrite El. cbn [bind]. rewrite <- Hs. replace (Z.of_nat (m_len X) - 1 + 1)%Z with (Z.of_nat (m_len X)) by lia. rewrite Z.eqb_refl. cbn [negb].
  pose proof (last_rows lengths [] (m_rows X) Hp Hs) as G. cbn [app length] in G. unfold lasts in G. change (Z.of_nat 0) with 0%Z in G. unfold zcumsum. rewrite G. reflexivity.
Qed.
Lemma op_first_last_empty X : op_reduce_first (T := R) X [] = Ok (mkM (m_cols X) [], []) /\ op_reduce_last X [] = Ok (mkM (m_cols X) [], []).
Proof. split; reflexivity. Qed.
Lemma op_first_last_errors (X : mat R) lengths : lengths <> [] ->
  (~ positive lengths -> op_reduce_first X lengths = Err ValueError /\ op_reduce_last X lengths = Err ValueError) /\
  (positive lengths -> zsum lengths <> Z.of_nat (m_len X) -> op_reduce_first X lengths = Err IndexError /\ op_reduce_last X lengths = Err IndexError).
Proof.
  intros Hne. unfold op_reduce_first, op_reduce_last. destruct lengths as [|n l] eqn:E; [congruence|]. rewrite <- E in *. split.
  - intros Hp. destruct (forallb _ lengths) eqn:Eb; [apply positive_forallb in Eb; contradiction|]. split; reflexivity.
  - intros Hp Hs. apply positive_forallb in Hp as Hb. rewrite Hb. cbn [negb].
    rewrite (py_getz_last _ 0%Z) by discriminate. unfold zcumsum. rewrite zcumsum_last, Z.add_0_l. cbn [bind]. destruct (Z.eqb_spec (zsum lengths) (Z.of_nat (m_len X))); [contradiction|]. split; [reflexivity|].
    rewrite (py_getz_last _ 0%Z) by (subst lengths; discriminate).
  pose proof (lasts_last lengths Hne) as El. unfold lasts in El. fold (zcumsum lengths) in El.
    unfold zcumsum in El. rewrite El. cbn [bind]. destruct (Z.eqb_spec (zsum lengths - 1 + 1) (Z.of_nat (m_len X))); [lia|]. reflexivity.
Qed.

(** Backward: each gradient row is placed at the first (last) row of its sequence, zeros elsewhere. *)
Definition first_blocks (O : nat) (dY : rows) (l : list Z) : rows := concat (map (fun p => fst p :: repeat (repeat 0 O) (Z.to_nat (snd p) - 1)) (combine dY l)).
Definition last_blocks (O : nat) (dY : rows) (l : list Z) : rows := concat (map (fun p => repeat (repeat 0 O) (Z.to_nat (snd p) - 1) ++ [fst p]) (combine dY l)).

Lemma norm_at {A} (P Q : list A) k : (k < length Q)%nat -> norm_index (length (P ++ Q)) (Z.of_nat (length P + k)) = Some (length P + k)%nat.
Proof.
  intros H. unfold norm_index. rewrite app_length. destruct (Z.ltb_spec (Z.of_nat (length P + k)) 0); [lia|]. destruct (Z.ltb_spec (Z.of_nat (length P + k)) (Z.of_nat (length P + length Q))); [|lia].
  now rewrite Nat2Z.id.
Qed.

Lemma put_first O l : forall (dY P : rows), positive l -> length dY = length l ->
  put_rows (starts (Z.of_nat (length P)) l) dY (P ++ repeat (repeat 0 O) (Z.to_nat (zsum l))) = Ok (P ++ first_blocks O dY l).
Proof.
  induction l as [|n l IH]; intros dY P Hp El; [destruct dY; [reflexivity | discriminate]|]. destruct dY as [|d dY]; [discriminate|]. apply Forall_cons_iff in Hp as [Hp1 Hp2].
  assert (Hz : (0 <= zsum l)%Z) by (apply zsum_nonneg; eapply Forall_impl; [|exact Hp2]; cbn; intros; lia).
  cbn [starts put_rows zsum fold_right]. fold (zsum l). rewrite Z2Nat.inj_add by lia. 
  pose proof (norm_at P (repeat (repeat 0 O) (Z.to_nat n + Z.to_nat (zsum l))) 0) as E. rewrite Nat.add_0_r in E. rewrite E by (rewrite repeat_length; lia).
  rewrite <- (Nat.add_0_r (length P)) at 2. rewrite set_nth_app2. replace (Z.to_nat n) with (S (Z.to_nat n - 1)) at 1 by lia. cbn [Nat.add repeat set_nth].
  rewrite repeat_app. replace (P ++ d :: repeat (repeat 0 O) (Z.to_nat n - 1) ++ repeat (repeat 0 O) (Z.to_nat (zsum l))) with ((P ++ d :: repeat (repeat 0 O) (Z.to_nat n - 1)) ++ repeat (repeat 0 O) (Z.to_nat (zsum l))) by (rewrite <- app_assoc; reflexivity).
  replace (Z.of_nat (length P) + n)%Z with (Z.of_nat (length (P ++ d :: repeat (repeat 0 O) (Z.to_nat n - 1)))) by (rewrite app_length; cbn [length]; rewrite repeat_length; lia).
  rewrite IH by (try assumption; cbn in El; lia). rewrite <- app_assoc. reflexivity.
Qed.
Lemma put_last O l : forall (dY P : rows), positive l -> length dY = length l ->
  put_rows (lasts (Z.of_nat (length P)) l) dY (P ++ repeat (repeat 0 O) (Z.to_nat (zsum l))) = Ok (P ++ last_blocks O dY l).
Proof.
  induction l as [|n l IH]; intros dY P Hp El; [destruct dY; [reflexivity | discriminate]|]. destruct dY as [|d dY]; [discriminate|]. apply Forall_cons_iff in Hp as [Hp1 Hp2].
  assert (Hz : (0 <= zsum l)%Z) by (apply zsum_nonneg; eapply Forall_impl; [|exact Hp2]; cbn; intros; lia).
  unfold lasts. cbn [zcumsum_from map put_rows zsum fold_right]. fold (zsum l). fold (lasts (Z.of_nat (length P) + n) l). rewrite Z2Nat.inj_add by lia. 
  pose proof (norm_at P (repeat (repeat 0 O) (Z.to_nat n + Z.to_nat (zsum l))) (Z.to_nat n - 1)) as E.
  replace (Z.of_nat (length P) + n - 1)%Z with (Z.of_nat (length P + (Z.to_nat n - 1))) by lia. rewrite E by (rewrite repeat_length; lia).
  rewrite set_nth_app2. replace (Z.to_nat n + Z.to_nat (zsum l))%nat with ((Z.to_nat n - 1) + (1 + Z.to_nat (zsum l)))%nat by lia. rewrite repeat_app.
  assert (Es : set_nth (Z.to_nat n - 1) d (repeat (repeat 0 O) (Z.to_nat n - 1) ++ repeat (repeat 0 O) (1 + Z.to_nat (zsum l))) = (repeat (repeat 0 O) (Z.to_nat n - 1) ++ [d]) ++ repeat (repeat 0 O) (Z.to_nat (zsum l))).
  { rewrite <- app_assoc. generalize (Z.to_nat n - 1)%nat as m. clear. induction m as [|m IH]; [reflexivity|]. cbn [repeat app set_nth]. now rewrite IH. }
  rewrite Es, app_assoc.
  replace (Z.of_nat (length P) + n)%Z with (Z.of_nat (length (P ++ repeat (repeat 0 O) (Z.to_nat n - 1) ++ [d]))) by (rewrite !app_length; cbn [length]; rewrite repeat_length; lia).
  rewrite IH by (try assumption; cbn in El; lia). unfold last_blocks. cbn [combine map concat fst snd]. now rewrite <- !app_assoc.
Qed.

Lemma lasts_length a l : length (lasts a l) = length l.
Proof. unfold lasts. rewrite map_length. revert a. induction l as [|x l IH]; intros a; [reflexivity|]. cbn. now rewrite IH. Qed.
Lemma starts_length l : forall a, length (starts a l) = length l.
Proof. induction l as [|x l IH]; intros a; [reflexivity|]. cbn. now rewrite IH. Qed.

Lemma op_back_first_ok dY lengths : lengths <> [] -> positive lengths -> m_len dY = length lengths ->
  op_backprop_reduce_first dY (0%Z :: zcumsum lengths) = Ok (mkM (m_cols dY) (first_blocks (m_cols dY) (m_rows dY) lengths)).
Proof.
  intros Hne Hp El. assert (Hz : (0 <= zsum lengths)%Z) by (apply zsum_nonneg; eapply Forall_impl; [|exact Hp]; cbn; intros; lia).
  unfold op_backprop_reduce_first. destruct (zcumsum lengths) as [|c cs] eqn:Ec; [destruct lengths; [congruence | discriminate]|]. rewrite <- Ec. unfold zcumsum.
  rewrite (py_getz_last _ 0%Z) by discriminate. rewrite zcumsum_last, Z.add_0_l, starts_eq. cbn [bind]. destruct (Z.ltb_spec (zsum lengths) 0); [lia|]. unfold assign_rows. rewrite starts_length. unfold m_len in El. rewrite El, Nat.eqb_refl.
  pose proof (put_first (m_cols dY) lengths (m_rows dY) [] Hp El) as G. cbn [app length] in G. change (Z.of_nat 0) with 0%Z in G. cbn [mzeros m_rows]. unfold zeros. cbn [nZ num_R]. rewrite G. reflexivity.
Qed.
Lemma op_back_last_ok dY lengths : lengths <> [] -> positive lengths -> m_len dY = length lengths ->
  op_backprop_reduce_last dY (map (fun e => (e - 1)%Z) (zcumsum lengths)) = Ok (mkM (m_cols dY) (last_blocks (m_cols dY) (m_rows dY) lengths)).
Proof.
  intros Hne Hp El. assert (Hz : (0 <= zsum lengths)%Z) by (apply zsum_nonneg; eapply Forall_impl; [|exact Hp]; cbn; intros; lia).
  unfold op_backprop_reduce_last. fold (lasts 0 lengths). change (map (fun e => (e - 1)%Z) (zcumsum lengths)) with (lasts 0 lengths).
  assert (Hl : lasts 0 lengths <> []) by (destruct lengths; [congruence | discriminate]).
  pose proof (lasts_last lengths Hne) as Ell.
  destruct (lasts 0 lengths) as [|c cs] eqn:Ec; [congruence|]. rewrite <- Ec in *.
  rewrite (py_getz_last _ 0%Z) by exact Hl. rewrite Ell. cbn [bind]. replace (zsum lengths - 1 + 1)%Z with (zsum lengths) by lia. destruct (Z.ltb_spec (zsum lengths) 0); [lia|]. unfold assign_rows. rewrite lasts_length. unfold m_len in El. rewrite El, Nat.eqb_refl.
  pose proof (put_last (m_cols dY) lengths (m_rows dY) [] Hp El) as G. cbn [app length] in G. change (Z.of_nat 0) with 0%Z in G. cbn [mzeros m_rows]. unfold zeros. cbn [nZ num_R]. rewrite G. reflexivity.
Qed.

Lemma mdot_zeros O n : forall X : rows, mdot (repeat (repeat 0 O) n) X = 0.
Proof. induction n as [|n IH]; intros [|x X]; cbn [repeat]; try reflexivity. rewrite mdot_cons, dot_zeros_l, IH. lra. Qed.

Lemma blocks_gen (blk : list R -> nat -> rows) (pick : rows -> list R) O l : forall (dY X : rows),
  (forall d n s, (0 < n)%nat -> length s = n -> length d = O -> length (blk d n) = n /\ wide O (blk d n) /\ mdot (blk d n) s = dot d (pick s)) ->
  positive l -> length dY = length l -> wide O dY -> 
  let B := concat (map (fun p => blk (fst p) (Z.to_nat (snd p))) (combine dY l)) in
  Z.of_nat (length B) = zsum l /\ wide O B /\
  (Z.of_nat (length X) = zsum l -> mdot B X = mdot dY (map pick (seqs_of l X))).
Proof.
  intros dY X HB. revert dY X. induction l as [|n l IH]; intros dY X Hp El Hd.
  - destruct dY; [|discriminate]. cbn. repeat split. constructor.
  - destruct dY as [|d dY]; [discriminate|]. apply Forall_cons_iff in Hp as [Hp1 Hp2]. apply Forall_cons_iff in Hd as [Hd1 Hd2].
    cbn [combine map concat fst snd zsum fold_right]. fold (zsum l). assert (Hn : (0 < Z.to_nat n)%nat) by lia.
    destruct (HB d (Z.to_nat n) (repeat [] (Z.to_nat n)) Hn (repeat_length _ _) Hd1) as (L & W & _).
    destruct (IH dY (skipn (Z.to_nat n) X) Hp2) as (A & B & C); [cbn in El; lia | exact Hd2 |].
    split; [rewrite app_length, L; lia|]. split; [apply Forall_app; split; assumption|]. intros Hs.
    assert (Hz : (0 <= zsum l)%Z) by (apply zsum_nonneg; eapply Forall_impl; [|exact Hp2]; cbn; intros; lia).
    cbn [seqs_of map chop]. fold (seqs_of l (skipn (Z.to_nat n) X)). rewrite <- (firstn_skipn (Z.to_nat n) X) at 1. assert (Ef : length (firstn (Z.to_nat n) X) = Z.to_nat n) by (rewrite firstn_length; lia).
    rewrite mdot_app by congruence. rewrite mdot_cons, C by (rewrite skipn_length; lia). f_equal. apply HB; assumption.
Qed.

Lemma first_adjoint dY lengths : lengths <> [] -> positive lengths -> wf_mat dY -> m_len dY = length lengths ->
  exists dX, op_backprop_reduce_first dY (0%Z :: zcumsum lengths) = Ok dX /\ m_cols dX = m_cols dY /\ wf_mat dX /\ Z.of_nat (m_len dX) = zsum lengths /\
    forall X, wf_mat X -> m_cols X = m_cols dY -> Z.of_nat (m_len X) = zsum lengths ->
      mdot (m_rows dX) (m_rows X) = mdot (m_rows dY) (map (fun s => nth 0 s []) (seqs_of lengths (m_rows X))).
Proof.
  intros Hne Hp Hd El. rewrite op_back_first_ok by assumption. eexists. split; [reflexivity|]. cbn [m_cols m_rows]. split; [reflexivity|]. unfold first_blocks, wf_mat, m_len. cbn [m_cols m_rows].
  assert (HB : forall (d : list R) n s, (0 < n)%nat -> length s = n -> length d = m_cols dY -> length (d :: repeat (repeat 0 (m_cols dY)) (n - 1)) = n /\ wide (m_cols dY) (d :: repeat (repeat 0 (m_cols dY)) (n - 1)) /\ mdot (d :: repeat (repeat 0 (m_cols dY)) (n - 1)) s = dot d (nth 0 s [])).
  { intros d n s Hn Ls Ld. split; [cbn [length]; rewrite repeat_length; lia|]. split; [constructor; [exact Ld|]; apply Forall_forall; intros r Hr; apply repeat_spec in Hr; subst r; apply repeat_length|].
    destruct s as [|r s]; [cbn in Ls; lia|]. rewrite mdot_cons, mdot_zeros. cbn [nth]. lra. }
  split; [|split].
  - apply (blocks_gen _ _ _ lengths (m_rows dY) [] HB Hp El Hd).
  - apply (blocks_gen _ _ _ lengths (m_rows dY) [] HB Hp El Hd).
  - intros X _ _ Hs. apply (blocks_gen _ _ _ lengths (m_rows dY) (m_rows X) HB Hp El Hd). exact Hs.
Qed.
Lemma last_adjoint dY lengths : lengths <> [] -> positive lengths -> wf_mat dY -> m_len dY = length lengths ->
  exists dX, op_backprop_reduce_last dY (map (fun e => (e - 1)%Z) (zcumsum lengths)) = Ok dX /\ m_cols dX = m_cols dY /\ wf_mat dX /\ Z.of_nat (m_len dX) = zsum lengths /\
    forall X, wf_mat X -> m_cols X = m_cols dY -> Z.of_nat (m_len X) = zsum lengths ->
      mdot (m_rows dX) (m_rows X) = mdot (m_rows dY) (map (fun s => last s []) (seqs_of lengths (m_rows X))).
Proof.
  intros Hne Hp Hd El. rewrite op_back_last_ok by assumption. eexists. split; [reflexivity|]. cbn [m_cols m_rows]. split; [reflexivity|]. unfold last_blocks, wf_mat, m_len. cbn [m_cols m_rows].
  assert (HB : forall (d : list R) n s, (0 < n)%nat -> length s = n -> length d = m_cols dY -> length (repeat (repeat 0 (m_cols dY)) (n - 1) ++ [d]) = n /\ wide (m_cols dY) (repeat (repeat 0 (m_cols dY)) (n - 1) ++ [d]) /\ mdot (repeat (repeat 0 (m_cols dY)) (n - 1) ++ [d]) s = dot d (last s [])).
  { intros d n s Hn Ls Ld. split; [rewrite app_length; cbn [length]; rewrite repeat_length; lia|]. split; [apply Forall_app; split; [apply Forall_forall; intros r Hr; apply repeat_spec in Hr; subst r; apply repeat_length | constructor; [exact Ld | constructor]]|].
    destruct s as [|r s] using rev_ind; [cbn in Ls; lia|]. clear IHs. rewrite app_length in Ls. cbn [length] in Ls. rewrite mdot_app by (rewrite repeat_length; lia). rewrite mdot_zeros, last_last, mdot_cons, mdot_nil_l. lra. }
  split; [|split].
  - apply (blocks_gen _ _ _ lengths (m_rows dY) [] HB Hp El Hd).
  - apply (blocks_gen _ _ _ lengths (m_rows dY) [] HB Hp El Hd).
  - intros X _ _ Hs. apply (blocks_gen _ _ _ lengths (m_rows dY) (m_rows X) HB Hp El Hd). exact Hs.
Qed.

(** ** Statements in final form *)

Lemma np_gen scale (op : mat R -> list Z -> result (mat R)) red X lengths :
  (wf_mat X -> m_cols X <> 0%nat -> m_rows X <> [] -> np_reduce scale X lengths = op X lengths) ->
  op X lengths = Ok (mkM (m_cols X) (map (red (m_cols X)) (seqs_of lengths (m_rows X)))) -> (forall s, red 0%nat s = []) ->
  wf_mat X -> m_rows X <> [] -> np_reduce scale X lengths = Ok (mkM (m_cols X) (map (red (m_cols X)) (seqs_of lengths (m_rows X)))).
Proof.
  intros Hb Ho Hr Hw Hne. destruct (Nat.eq_dec (m_cols X) 0) as [E|E]; [|rewrite Hb by assumption; exact Ho].
  unfold np_reduce. rewrite E. cbn [Nat.eqb]. rewrite orb_true_r. unfold mzeros. do 2 f_equal. rewrite (map_ext _ (fun _ => []) Hr). change (zeros 0) with (@nil R).
  replace (length lengths) with (length (seqs_of lengths (m_rows X))) by (unfold seqs_of; rewrite chop_length; apply map_length).
  generalize (seqs_of lengths (m_rows X)). clear. intros l. induction l as [|x l IH]; [reflexivity|]. cbn [length map repeat]. now rewrite <- IH.
Qed.
Lemma sum_ok X lengths : wf_mat X -> nonneg lengths -> (zsum lengths <= Z.of_nat (m_len X))%Z ->
  op_reduce_sum X lengths = Ok (mkM (m_cols X) (map (colsum (m_cols X)) (seqs_of lengths (m_rows X)))) /\
  (m_rows X <> [] -> np_reduce_sum X lengths = Ok (mkM (m_cols X) (map (colsum (m_cols X)) (seqs_of lengths (m_rows X))))).
Proof.
  intros Hw Hn Hs. pose proof (op_sum_ok X lengths Hn Hs) as E. split; [exact E|]. intros Hne. apply (np_gen _ op_reduce_sum); try assumption; [intros; now apply sum_backends | reflexivity].
Qed.
Lemma mean_ok X lengths : wf_mat X -> nonneg lengths -> (zsum lengths <= Z.of_nat (m_len X))%Z ->
  op_reduce_mean X lengths = Ok (mkM (m_cols X) (map (colmean (m_cols X)) (seqs_of lengths (m_rows X)))) /\
  (m_rows X <> [] -> np_reduce_mean X lengths = Ok (mkM (m_cols X) (map (colmean (m_cols X)) (seqs_of lengths (m_rows X))))).
Proof.
  intros Hw Hn Hs. pose proof (op_mean_ok X lengths Hn Hs) as E. split; [exact E|]. intros Hne. apply (np_gen _ op_reduce_mean); try assumption; [intros; now apply mean_backends | reflexivity].
Qed.

(** The first bad length decides the exception, in both backends. *)
Lemma sum_mean_errors X pre n post : wf_mat X -> m_cols X <> 0%nat -> m_rows X <> [] -> nonneg pre -> (zsum pre <= Z.of_nat (m_len X))%Z ->
  let raises e := np_reduce_sum X (pre ++ n :: post) = Err e /\ op_reduce_sum X (pre ++ n :: post) = Err e /\
                  np_reduce_mean X (pre ++ n :: post) = Err e /\ op_reduce_mean X (pre ++ n :: post) = Err e in
  ((n < 0)%Z -> raises ValueError) /\ ((0 <= n)%Z -> (Z.of_nat (m_len X) < zsum pre + n)%Z -> raises IndexError).
Proof.
  intros Hw Hc Hr Hp Hs raises. subst raises. rewrite sum_backends, mean_backends by assumption. unfold op_reduce_sum, op_reduce_mean.
  destruct (op_loop_error (sum0 (m_cols X)) (m_cols X) (m_rows X) pre n post 0%nat) as [A1 A2]; try assumption.
  destruct (op_loop_error (mean0 (m_cols X)) (m_cols X) (m_rows X) pre n post 0%nat) as [B1 B2]; try assumption.
  split.
  - intros H. rewrite A1, B1 by exact H. repeat split.
  - intros H H1. rewrite A2, B2 by (try assumption; unfold m_len in *; lia). repeat split.
Qed.
Lemma max_errors X pre n post : wf_mat X -> m_cols X <> 0%nat -> m_rows X <> [] -> positive pre -> (zsum pre <= Z.of_nat (m_len X))%Z ->
  let raises e := np_reduce_max X (pre ++ n :: post) = Err e /\ op_reduce_max X (pre ++ n :: post) = Err e in
  ((n <= 0)%Z -> raises ValueError) /\ ((0 < n)%Z -> (Z.of_nat (m_len X) < zsum pre + n)%Z -> raises IndexError).
Proof.
  intros Hw Hc Hr Hp Hs raises. subst raises. rewrite max_backends by assumption. unfold op_reduce_max.
  destruct (op_max_error (m_cols X) (m_rows X) pre n post 0%nat) as [A1 A2]; try assumption. split.
  - intros H. rewrite A1 by exact H. repeat split.
  - intros H H1. rewrite A2 by (try assumption; unfold m_len in *; lia). repeat split.
Qed.

(** The compiled forward kernels never leave their arrays. *)
Lemma no_fault_max O X lengths start e : op_reduce_max_loop (T := R) O start X lengths = Err e -> e = ValueError \/ e = IndexError.
Proof.
  revert start. induction lengths as [|n l IH]; intros start E; [discriminate|]. cbn [op_reduce_max_loop] in E. destruct (n <=? 0)%Z; [left; congruence|]. destruct (_ <? _)%Z; [right; congruence|].
  destruct (op_reduce_max_loop O _ X l) eqn:E2; cbn [bind] in E; [discriminate|]. injection E as ->. exact (IH _ E2).
Qed.
Lemma no_fault_loop f O X lengths start e : op_reduce_loop (T := R) f O start X lengths = Err e -> e = ValueError \/ e = IndexError.
Proof.
  revert start. induction lengths as [|n l IH]; intros start E; [discriminate|]. cbn [op_reduce_loop] in E. destruct (n <? 0)%Z; [left; congruence|]. destruct (_ <? _)%Z; [right; congruence|].
  destruct (op_reduce_loop f O _ X l) eqn:E2; cbn [bind] in E; [discriminate|]. injection E as ->. exact (IH _ E2).
Qed.
Lemma no_fault X lengths : wf_mat X -> np_reduce_sum (T := R) X lengths <> Err MemFault /\ np_reduce_mean X lengths <> Err MemFault /\ np_reduce_max X lengths <> Err MemFault.
Proof.
  intros Hw. assert (G : forall s : Z -> R, m_cols X = 0%nat \/ m_rows X = [] -> np_reduce s X lengths <> Err MemFault /\ np_reduce_max X lengths <> Err MemFault).
  { intros s H. unfold np_reduce, np_reduce_max. destruct H as [->| ->]; [rewrite orb_true_r; split; discriminate|]. destruct (_ || _); split; discriminate. }
  destruct (Nat.eq_dec (m_cols X) 0) as [Ec|Ec]; [split; [apply G; now left | split; apply (G scale_inv); now left]|].
  destruct (m_rows X) as [|x l] eqn:Er; [split; [apply G; now right | split; apply (G scale_inv); now right]|]. assert (Hr : m_rows X <> []) by congruence.
  rewrite sum_backends, mean_backends, max_backends by assumption. unfold op_reduce_sum, op_reduce_mean, op_reduce_max. split; [|split].
  - destruct (op_reduce_loop _ _ _ _ lengths) eqn:E; cbn [bind]; [discriminate|]. apply no_fault_loop in E. destruct E; congruence.
  - destruct (op_reduce_loop _ _ _ _ lengths) eqn:E; cbn [bind]; [discriminate|]. apply no_fault_loop in E. destruct E; congruence.
  - destruct (op_reduce_max_loop _ _ _ lengths) eqn:E; cbn [bind]; [discriminate|]. apply no_fault_max in E. destruct E; congruence.
Qed.

(** Findings. *)
Lemma only_empty_raises :
  exists (X : mat R) lengths, wf_mat X /\ nonneg lengths /\ zsum lengths = Z.of_nat (m_len X) /\
    np_reduce_sum X lengths = Err IndexError /\ np_reduce_mean X lengths = Err IndexError /\
    op_reduce_sum X lengths = Ok (mkM 1 [[0]]) /\ op_reduce_mean X lengths = Ok (mkM 1 [[0]]).
Proof. exists (mkM 1 []), [0%Z]. repeat split; try constructor; try lia; constructor. Qed.
Lemma zero_width_unchecked : exists (X : mat R) lengths, wf_mat X /\ ~ nonneg lengths /\
  np_reduce_sum X lengths = Ok (mkM 0 [[]]) /\ op_reduce_sum X lengths = Err ValueError.
Proof. exists (mkM 0 [[]]), [(-1)%Z]. repeat split; [constructor; [reflexivity | constructor]|]. intros H. inversion H. lia. Qed.
Lemma negative_position : exists (dY : mat R) which lengths, wf_mat dY /\ positive lengths /\ m_len dY = length lengths /\ length which = length lengths /\
  np_backprop_reduce_max dY which lengths = Ok (mkM 1 [[2]; [0]; [0]]) /\ op_backprop_reduce_max dY which lengths = Ok (mkM 1 [[1]; [0]; [2]]).
Proof.
  exists (mkM 1 [[1]; [2]]), [[0%Z]; [(-1)%Z]], [1%Z; 2%Z]. split; [repeat constructor|]. split; [repeat constructor|]. repeat split; reflexivity.
Qed.
Lemma negative_position_fault : exists (dY : mat R) which lengths, wf_mat dY /\ positive lengths /\ m_len dY = length lengths /\ length which = length lengths /\
  np_backprop_reduce_max dY which lengths = Err MemFault.
Proof.
  exists (mkM 1 [[1]]), [[(-1)%Z]], [1%Z]. split; [repeat constructor|]. split; [repeat constructor|]. repeat split; reflexivity.
Qed.
Lemma few_rows_fault : exists (dY : mat R) lengths, wf_mat dY /\ nonneg lengths /\ m_len dY <> length lengths /\
  np_backprop_reduce_sum dY lengths = Err MemFault /\ op_backprop_reduce_sum dY lengths = Err IndexError.
Proof.
  exists (mkM 1 [[1]]), [1%Z; 1%Z]. split; [repeat constructor|]. split; [repeat constructor; lia|]. repeat split; [discriminate].
Qed.
