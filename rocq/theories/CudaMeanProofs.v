From Coq Require Import Reals Lra Lia QArith.
From Verif Require Import NumQ BaseFacts CudaSpec CudaProofs SeqProofs MatProofs ReduceProofs KernelProofs CudaRowProofs ReduceSpec KernelModel KernelSpec CudaSpec.
Set Default Goal Selector "!".
Local Open Scope nat_scope.

Lemma mean_cu c (X : mat R) lengths : has_threads c -> wf_mat X -> nonneg lengths -> zsum lengths = Z.of_nat (m_len X) ->
  cu_reduce_mean c X lengths = Ok (mkM (m_cols X) (map (fun s => map (fun x => (x / (INR (length s) + / 10000000000))%R) (colsum (m_cols X) s)) (seqs_of lengths (m_rows X)))).
Proof.
  intros HT Hw Hn Hs. unfold cu_reduce_mean. rewrite sum_cu by assumption. rewrite op_sum_ok by (try assumption; lia). cbn [bind m_cols m_rows]. do 2 f_equal.
  unfold seqs_of. assert (El : forall ls (rows : list (list R)), nonneg ls -> zsum ls = Z.of_nat (length rows) ->
    map (fun p => map (fun x => ndiv x (nadd (nZ (snd p)) (ndiv (nZ 1) (nZ 10000000000)))) (fst p)) (combine (map (colsum (m_cols X)) (chop (map Z.to_nat ls) rows)) ls)
    = map (fun s => map (fun x => (x / (INR (length s) + / 10000000000))%R) (colsum (m_cols X) s)) (chop (map Z.to_nat ls) rows)); [|now apply El].
  induction ls as [|n ls IH]; intros rows H0 H1; [reflexivity|]. apply Forall_cons_iff in H0 as [Hn0 H0]. cbn [zsum fold_right] in H1. fold (zsum ls) in H1. pose proof (zsum_nonneg ls H0).
  cbn [map chop combine fst snd]. rewrite IH by (try assumption; rewrite skipn_length; lia). f_equal. apply map_ext. intros x. cbn. rewrite firstn_length, Nat.min_l by lia. rewrite INR_IZR_INZ, Z2Nat.id by lia. unfold Rdiv. now rewrite Rmult_1_l.
Qed.
Local Open Scope R_scope.
Lemma mean_gap (s : R) n : s <> 0 -> n <> O -> s / (INR n + / 10000000000) <> s / INR n.
Proof.
  intros Hs Hn E. assert (Hp : 0 < INR n) by (apply lt_0_INR; lia). apply Rmult_eq_reg_l in E; [|exact Hs]. assert (E2 : / / (INR n + / 10000000000) = / / INR n) by now rewrite E. rewrite !Rinv_inv in E2. lra.
Qed.
Lemma mean_close (s : R) n : n <> O -> Rabs (s / (INR n + / 10000000000) - s / INR n) <= Rabs (s / INR n) * / 10000000000.
Proof.
  intros Hn. assert (Hp : 1 <= INR n) by (change 1 with (INR 1); apply le_INR; lia).
  replace (s / (INR n + / 10000000000) - s / INR n) with (s / INR n * (- (/ 10000000000 / (INR n + / 10000000000)))) by (field; lra).
  rewrite Rabs_mult, Rabs_Ropp. apply Rmult_le_compat_l; [apply Rabs_pos|]. rewrite Rabs_right.
  - unfold Rdiv. rewrite <- (Rmult_1_r (/ 10000000000)) at 3. apply Rmult_le_compat_l; [lra|]. rewrite <- Rinv_1. apply Rinv_le_contravar; lra.
  - apply Rle_ge. unfold Rdiv. apply Rmult_le_pos; [lra|]. left. apply Rinv_0_lt_compat. lra.
Qed.
Local Open Scope nat_scope.
Section Errors.
  Context {T : Type} `{Num T}.
  Lemma lengths_negative f c junk jz (X dY : mat T) nW which lengths : ~ nonneg lengths ->
    cu_reduce_sum c X lengths = Err ValueError /\ cu_reduce_mean c X lengths = Err ValueError /\ cu_reduce_max c jz X lengths = Err ValueError /\
    cu_backprop_reduce f c junk dY lengths = Err ValueError /\ cu_backprop_reduce_max c dY which lengths = Err ValueError /\
    cu_seq2col c X nW (Some lengths) = Err ValueError /\ cu_backprop_seq2col c dY nW (Some lengths) = Err ValueError.
  Proof.
    intros Hn. assert (H1 : ~ Forall (fun k => (1 <= k)%Z) lengths). { intros F. apply Hn. eapply Forall_impl; [|exact F]. cbn. intros; lia. }
    unfold cu_reduce_mean, cu_reduce_sum, cu_reduce_max, cu_backprop_reduce, cu_backprop_reduce_max, cu_seq2col, cu_backprop_seq2col, cu_seq2col_lengths.
    rewrite !check_lengths_bad by assumption. repeat split.
  Qed.
  Lemma lengths_sum c jz (X : mat T) nW lengths : nonneg lengths -> zsum lengths <> Z.of_nat (m_len X) ->
    cu_reduce_sum c X lengths = Err IndexError /\ cu_reduce_mean c X lengths = Err IndexError /\
    (ReduceSpec.positive lengths -> cu_reduce_max c jz X lengths = Err IndexError) /\
    cu_seq2col c X nW (Some lengths) = Err IndexError /\ cu_backprop_seq2col c X nW (Some lengths) = Err IndexError.
  Proof.
    intros Hn Hs. unfold cu_reduce_mean, cu_reduce_sum, cu_reduce_max, cu_seq2col, cu_backprop_seq2col, cu_seq2col_lengths. rewrite !(check_lengths_sum lengths _ 0) by assumption.
    repeat split. intros Hp. rewrite check_lengths_sum; [reflexivity| |exact Hs]. eapply Forall_impl; [|exact Hp]. cbn. intros; lia.
  Qed.
  Lemma lengths_empty_max c jz (X dY : mat T) which lengths : ~ ReduceSpec.positive lengths ->
    cu_reduce_max c jz X lengths = Err ValueError /\ cu_backprop_reduce_max c dY which lengths = Err ValueError.
  Proof.
    intros Hp. assert (H1 : ~ Forall (fun k => (1 <= k)%Z) lengths). { intros F. apply Hp. eapply Forall_impl; [|exact F]. cbn. intros; lia. }
    unfold cu_reduce_max, cu_backprop_reduce_max. rewrite !check_lengths_bad by assumption. split; reflexivity.
  Qed.
  Lemma forallb_false {A} (p : A -> bool) (P : A -> Prop) l : (forall x, p x = true <-> P x) -> ~ Forall P l -> forallb p l = false.
  Proof.
    intros Hp Hn. destruct (forallb p l) eqn:E; [|reflexivity]. exfalso. apply Hn. rewrite forallb_forall in E. apply Forall_forall. intros x Hx. apply Hp. now apply E.
  Qed.
  Lemma which_checked c (dY : mat T) which P lengths :
    (((0 <= P)%Z -> length which <> m_len dY \/ ~ Forall (fun w => length w = m_cols dY) which -> cu_backprop_maxout c dY which P = Err ValueError) /\
     ((0 <= P)%Z -> length which = m_len dY -> Forall (fun w => length w = m_cols dY) which -> ~ Forall (Forall (fun k => (0 <= k < P)%Z)) which -> cu_backprop_maxout c dY which P = Err IndexError) /\
     ((P < 0)%Z -> cu_backprop_maxout c dY which P = Err ValueError)) /\
    (ReduceSpec.positive lengths -> length which <> length lengths \/ ~ Forall (fun w => length w = m_cols dY) which -> cu_backprop_reduce_max c dY which lengths = Err ValueError) /\
    (ReduceSpec.positive lengths -> length which = length lengths -> Forall (fun w => length w = m_cols dY) which -> ~ in_seqs (m_cols dY) which lengths -> cu_backprop_reduce_max c dY which lengths = Err IndexError).
  Proof.
    assert (Shape : forall n O, length which <> n \/ ~ Forall (fun w => length w = O) which -> (length which =? n) && forallb (fun w : list Z => length w =? O) which = false).
    { intros n O [Hl|Hw]; [now rewrite (proj2 (Nat.eqb_neq _ _) Hl)|]. rewrite (forallb_false _ (fun w => length w = O)); [apply andb_false_r|intros; apply Nat.eqb_eq|exact Hw]. }
    assert (Shape1 : forall n O, length which = n -> Forall (fun w => length w = O) which -> (length which =? n) && forallb (fun w : list Z => length w =? O) which = true).
    { intros n O Hl Hw. rewrite Hl, Nat.eqb_refl. cbn. apply forallb_forall. intros w Hin. rewrite Forall_forall in Hw. now apply Nat.eqb_eq, Hw. }
    assert (In1 : forall hi w, within_range w 0 hi = true <-> Forall (fun k => (0 <= k < hi)%Z) w).
    { intros hi w. unfold within_range. rewrite forallb_forall, Forall_forall. split; intros F k Hk; specialize (F k Hk); [apply andb_true_iff in F; destruct F as [F1 F2]; apply Z.leb_le in F1; apply Z.ltb_lt in F2; lia|].
      apply andb_true_iff. split; [apply Z.leb_le|apply Z.ltb_lt]; lia. }
    split; [split; [|split]|split].
    - intros HP Hb. unfold cu_backprop_maxout, check_which_maxout. destruct (Z.ltb_spec P 0); [lia|]. now rewrite (Shape _ _ Hb).
    - intros HP Hl Hw Hk. unfold cu_backprop_maxout, check_which_maxout. destruct (Z.ltb_spec P 0); [lia|]. rewrite (Shape1 _ _ Hl Hw). cbn [negb].
      destruct (within_range (concat which) 0 P) eqn:E; [|reflexivity]. exfalso. apply Hk. apply In1 in E. apply Forall_forall. intros w Hin. apply Forall_forall. intros k Hk'. rewrite Forall_forall in E. apply E. apply in_concat. exists w. auto.
    - intros HP. unfold cu_backprop_maxout. destruct (Z.ltb_spec P 0); [reflexivity|lia].
    - intros Hp Hb. unfold cu_backprop_reduce_max, check_which_reduce_max. rewrite check_lengths_ok; [|eapply Forall_impl; [|exact Hp]; cbn; intros; lia|reflexivity]. cbn [bind]. now rewrite (Shape _ _ Hb).
    - intros Hp Hl Hw Hk. unfold cu_backprop_reduce_max, check_which_reduce_max. rewrite check_lengths_ok; [|eapply Forall_impl; [|exact Hp]; cbn; intros; lia|reflexivity]. cbn [bind]. rewrite (Shape1 _ _ Hl Hw). cbn [negb].
      destruct (forallb (fun p => within_range (fst p) 0 (snd p)) (combine which lengths)) eqn:E; [|reflexivity]. exfalso. apply Hk. unfold in_seqs.
      clear -Hl Hw E In1. revert lengths Hl E. induction Hw as [|w ws Hw1 Hw IH]; intros [|n ls] Hl E; try discriminate; constructor.
      + cbn in E. apply andb_true_iff in E. destruct E as [E _]. apply In1 in E. auto.
      + apply IH; [now injection Hl|]. cbn in E. apply andb_true_iff in E. tauto.
  Qed.
  Lemma no_return c jz junk (X : mat T) which lengths r1 r2 r3 r4 :
    op_reduce_mean X lengths = Ok r1 -> op_reduce_max X lengths = Ok r2 -> op_backprop_reduce_mean X lengths = Ok r3 -> op_backprop_reduce_max X which lengths = Ok r4 ->
    cupy_reduce_mean false c X lengths = Ok None /\ cupy_reduce_max false c jz X lengths = Ok None /\
    cupy_backprop_reduce_mean false c junk X lengths = Ok None /\ cupy_backprop_reduce_max false c X which lengths = Ok None.
  Proof. intros E1 E2 E3 E4. unfold cupy_reduce_mean, cupy_reduce_max, cupy_backprop_reduce_mean, cupy_backprop_reduce_max. rewrite E1, E2, E3, E4. repeat split. Qed.
End Errors.
Lemma empty_grid {V S} c N (body : nat -> S -> result (S * list (instr V))) s m : ~ has_threads c -> launch c N body s m = Err RuntimeError.
Proof. intros Hn. unfold launch. destruct (num_blocks c * threads_per_block c =? 0) eqn:E; [reflexivity|]. apply Nat.eqb_neq in E. exfalso. exact (Hn E). Qed.
Lemma mean_off : exists (X : mat R) lengths, wf_mat X /\ nonneg lengths /\ zsum lengths = Z.of_nat (m_len X) /\
  forall c, has_threads c -> cu_reduce_mean c X lengths <> op_reduce_mean X lengths.
Proof.
  exists (mkM 1 [[1%R]]), [1%Z]. split; [repeat constructor|]. split; [repeat constructor; lia|]. split; [reflexivity|].
  assert (Hw : wf_mat (mkM 1 [[1%R]])) by repeat constructor.
  assert (Hn : nonneg [1%Z]) by (repeat constructor; lia). intros c HT. rewrite mean_cu by (assumption || reflexivity).
  intros E. cbn in E. injection E as E. lra.
Qed.
Lemma lost_addition : exists (work : nat -> list (instr nat)) s s',
  launch (mkC 1 2 s) 2 (fun b (u : unit) => Ok (u, work b)) tt [0] = Ok [2] /\ launch (mkC 1 2 s') 2 (fun b (u : unit) => Ok (u, work b)) tt [0] = Ok [1].
Proof. exists (fun _ => [Rmw 0 S]), [], [0; 1; 0; 1]. split; reflexivity. Qed.
Lemma reads_outside : exists (c : config) (dY : mat Q) lengths which lengths', has_threads c /\ nonneg lengths /\ ReduceSpec.positive lengths' /\ in_seqs (m_cols dY) which lengths' /\
  forall junk junk', cu_backprop_reduce_sum c junk dY lengths = Err MemFault /\ cu_backprop_reduce_mean c junk dY lengths = Err MemFault /\
  cu_backprop_reduce_max c dY which lengths' = Err MemFault /\
  cu_maxout c junk' (mk3 (T := Q) 1 1 0 [[]]) = Err MemFault /\ op_maxout (T := Q) (mk3 1 1 0 [[]]) = Err ValueError.
Proof.
  exists (mkC 2 2 [3; 1; 0]), (mkM 2 [[1%Q; 2%Q]]), [2; 0; 1]%Z, [[1; 0]; [0; 0]]%Z, [2; 1]%Z. split; [discriminate|]. split; [repeat constructor; discriminate|]. split; [repeat constructor|].
  split; [repeat constructor; lia|]. intros junk junk'. repeat split; vm_compute; reflexivity.
Qed.
