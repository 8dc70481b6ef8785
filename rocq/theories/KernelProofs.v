From Coq Require QArith.
From Verif Require Import NumQ.
From Verif Require Import BaseFacts KernelSpec SeqProofs PaddedProofs PackProofs AdaptProofs MatProofs ReduceProofs ReduceMaxProofs ReduceFirstProofs Seq2colProofs Seq2colBackProofs.
Set Default Goal Selector "!".
Local Open Scope R_scope.

Local Notation rows := (list (list R)).
Local Notation wide O := (Forall (fun r : list R => length r = O)).

(** ** maxout *)
Lemma first_max_cons a l w m : first_max l w m -> a < m -> first_max (a :: l) (w + 1) m.
Proof.
  intros (H0 & H1 & H2) Ha. split; [lia|]. replace (Z.to_nat (w + 1)) with (S (Z.to_nat w)) by lia. split; [exact H1|].
  intros [|k] x E; cbn in E; [injection E as <-; split; [lra | intros _; exact Ha] |]. destruct (H2 k x E) as [A B]. split; [exact A | intros Hk; apply B; lia].
Qed.
Lemma argmax_args_ok (l : list R) : forall a, first_max (a :: l) (snd (argmax_args a l)) (fst (argmax_args a l)).
Proof.
  induction l as [|b l IH]; intros a.
  - cbn. split; [lia|]. split; [reflexivity|]. intros [|[|k]] x E; cbn in E; try discriminate. injection E as <-. split; [lra | intros C; change (Z.to_nat 0) with 0%nat in C; lia].
  - cbn [argmax_args]. specialize (IH b). destruct (argmax_args b l) as [m w]. cbn [fst snd] in *. unfold nltb, num_R. destruct (Rlt_dec a m) as [Ha|Ha]; cbn [fst snd].
    + now apply first_max_cons.
    + split; [lia|]. split; [reflexivity|]. intros [|k] x E; cbn in E; [injection E as <-; split; [lra | intros C; change (Z.to_nat 0) with 0%nat in C; lia]|].
      split; [destruct IH as (_ & _ & IH); destruct (IH k x E); lra | intros C; change (Z.to_nat 0) with 0%nat in C; lia].
Qed.
Lemma argmax_args_eq (a : R) l : argmax_args a l = argmax (a :: l).
Proof.
  destruct (first_max_unique _ _ _ _ _ (argmax_args_ok l a) (argmax_ok (a :: l) ltac:(discriminate))) as [E1 E2].
  rewrite (surjective_pairing (argmax_args a l)), (surjective_pairing (argmax (a :: l))). now rewrite E1, E2.
Qed.
Lemma maxout_cell_eq P (c : list R) : length c = P -> P <> 0%nat -> maxout_cell P c = Ok (argmax c).
Proof.
  intros E HP. destruct P as [|[|[|[|P]]]]; [congruence| | | |].
  - destruct c as [|a [|b c]]; try discriminate. reflexivity.
  - destruct c as [|a [|b [|d c]]]; try discriminate. unfold maxout_cell. now rewrite argmax_args_eq.
  - destruct c as [|a [|b [|d [|e c]]]]; try discriminate. unfold maxout_cell. now rewrite argmax_args_eq.
  - destruct c as [|a c]; try discriminate. reflexivity.
Qed.
Lemma cells_of_flat {T} O n : forall l : list T, length l = (n * O)%nat -> concat (cells_of O n l) = l.
Proof.
  induction n as [|n IH]; intros l E; [destruct l; [reflexivity | discriminate]|]. cbn [cells_of concat]. rewrite IH by (rewrite skipn_length; lia). apply firstn_skipn.
Qed.
Lemma maxout_run (X : arr3 R) : wf3 X -> t_o X <> 0%nat -> t_p X <> 0%nat ->
  np_maxout X = op_maxout X /\ op_maxout X = Ok (mkM (t_o X) (cells_of (t_o X) (t_b X) (map fst (map argmax (t_cells X)))), cells_of (t_o X) (t_b X) (map snd (map argmax (t_cells X)))).
Proof.
  intros (Hl & Hw) Ho Hp. unfold np_maxout, op_maxout. destruct (Nat.eqb_spec (t_p X) 0) as [|_]; [contradiction|]. cbn [andb]. split; [|reflexivity].
  destruct (Nat.eqb_spec (t_b X) 0) as [Eb|Eb].
  - rewrite Eb in Hl. destruct (t_cells X); [|discriminate]. rewrite Eb. reflexivity.
  - destruct (Nat.eqb_spec (t_o X) 0) as [|_]; [contradiction|]. cbn [orb].
    rewrite (mapM_ok_map (maxout_cell (t_p X)) argmax); [reflexivity|].
    intros c Hc. apply maxout_cell_eq; [|exact Hp]. rewrite Forall_forall in Hw. now apply Hw.
Qed.
Lemma maxout_ok (X : arr3 R) : wf3 X -> t_o X <> 0%nat -> t_p X <> 0%nat ->
  exists best which, np_maxout X = Ok (best, which) /\ op_maxout X = Ok (best, which) /\
    m_cols best = t_o X /\ m_len best = t_b X /\ wf_mat best /\ positions_in (Z.of_nat (t_p X)) which best /\
    forall i c, nth_error (t_cells X) i = Some c ->
      exists w m, nth_error (concat which) i = Some w /\ nth_error (concat (m_rows best)) i = Some m /\ first_max c w m.
Proof.
  intros Hw Ho Hp. destruct (maxout_run X Hw Ho Hp) as [E1 E2]. destruct Hw as (Hl & Hw). eexists. eexists. split; [rewrite E1; exact E2|]. split; [exact E2|].
  cbn [m_cols m_rows]. split; [reflexivity|].
  assert (L1 : length (map fst (map argmax (t_cells X))) = (t_b X * t_o X)%nat) by (rewrite !map_length; exact Hl).
  assert (L2 : length (map snd (map argmax (t_cells X))) = (t_b X * t_o X)%nat) by (rewrite !map_length; exact Hl).
  assert (NE : Forall (fun c => c <> []) (t_cells X)). { eapply Forall_impl; [|exact Hw]. intros c Hc ->. apply Hp. rewrite <- Hc. reflexivity. }
  split; [apply cells_of_length|]. split; [apply (cells_of_wide (t_o X) (t_b X)); lia|]. split.
  - unfold positions_in. cbn [m_cols]. unfold m_len. cbn [m_rows]. rewrite !cells_of_length. split; [reflexivity|]. split; [apply cells_of_wide; lia|].
    assert (G : Forall (fun k => (0 <= k < Z.of_nat (t_p X))%Z) (map snd (map argmax (t_cells X)))).
    { rewrite map_map. apply Forall_map. rewrite Forall_forall in NE, Hw |- *. intros c Hc. destruct (argmax_ok c (NE c Hc)) as (A & B & _). split; [exact A|].
      assert (Z.to_nat (snd (argmax c)) < length c)%nat by (apply nth_error_Some; rewrite B; discriminate). rewrite <- (Hw c Hc). lia. }
    rewrite <- (cells_of_flat (t_o X) (t_b X) _ L2) in G. clear -G. revert G. generalize (cells_of (t_o X) (t_b X) (map snd (map argmax (t_cells X)))). intros l. induction l as [|r l IH]; intros G; constructor.
    + apply Forall_app in G. tauto.
    + apply IH. cbn [concat] in G. apply Forall_app in G. tauto.
  - intros i c Hi. rewrite (cells_of_flat _ _ _ L1), (cells_of_flat _ _ _ L2), !map_map, !nth_error_map, Hi. cbn. eexists. eexists. split; [reflexivity|]. split; [reflexivity|].
    apply argmax_ok. rewrite Forall_forall in NE. apply NE. eapply nth_error_In. exact Hi.
Qed.
Lemma maxout_errors (X : arr3 R) : wf3 X -> t_b X <> 0%nat -> (t_o X = 0%nat \/ t_p X = 0%nat) -> np_maxout X = Err IndexError.
Proof.
  intros _ Hb H. unfold np_maxout. destruct (Nat.eqb_spec (t_b X) 0); [contradiction|]. destruct H as [-> | ->]; [reflexivity|]. now rewrite orb_true_r.
Qed.

Section Back.
  Context {T : Type} `{N : Num T}.
  Local Notation rowsT := (list (list T)).
  Lemma only_at_set P w (d : T) : (0 <= w)%Z -> set_nth (Z.to_nat w) d (zeros P) = only_at P w d.
  Proof.
    intros Hw. unfold zeros. rewrite repeat_vec, set_nth_vec. unfold only_at. apply vec_ext. intros j _. destruct (Nat.eqb_spec j (Z.to_nat w)), (Z.eqb_spec (Z.of_nat j) w); try lia; reflexivity.
  Qed.
  Lemma only_at_length P w (d : T) : length (only_at P w d) = P. Proof. apply vec_length. Qed.
  Definition routed (P : nat) (which : list Z) (dY : list T) : rowsT := map (fun p => only_at P (fst p) (snd p)) (combine which dY).
  Lemma cpu_back_ok P n : forall i (dY : list T) which pre, Forall (fun k => (0 <= k < Z.of_nat P)%Z) which -> length which = n -> length dY = n -> length pre = (i * P)%nat ->
    cpu_backprop_maxout P i n dY which (pre ++ zeros (n * P)) = Ok (pre ++ concat (routed P which dY)).
  Proof.
    induction n as [|n IH]; intros i dY which pre Hw Lw Ld Lp.
    - destruct which; [|discriminate]. reflexivity.
    - destruct which as [|w which]; [discriminate|]. destruct dY as [|d dY]; [discriminate|]. apply Forall_cons_iff in Hw as [Hw1 Hw2]. cbn [cpu_backprop_maxout].
      destruct (Z.leb_spec (Z.of_nat P) w) as [|_]; [lia|]. rewrite app_length, Lp. unfold zeros at 1. rewrite repeat_length.
      destruct (Z.ltb_spec (Z.of_nat (i * P) + w) 0) as [|_]; [lia|]. cbn [orb]. destruct (Z.leb_spec (Z.of_nat (i * P + S n * P)) (Z.of_nat (i * P) + w)) as [|_]; [lia|].
      replace (Z.to_nat (Z.of_nat (i * P) + w)) with (length pre + Z.to_nat w)%nat by lia. unfold zeros. cbn [Nat.mul]. rewrite repeat_app, set_nth_app2, set_nth_app1 by (rewrite repeat_length; lia).
      change (repeat (nZ 0) P) with (@zeros T N P). rewrite only_at_set by lia. rewrite app_assoc, IH; [|exact Hw2 | cbn in Lw; lia | cbn in Ld; lia | rewrite app_length, only_at_length; lia].
      cbn [routed combine map concat fst snd]. now rewrite app_assoc.
  Qed.
  Lemma routed_length P which (dY : list T) : length which = length dY -> length (routed P which dY) = length dY.
  Proof. intros E. unfold routed. rewrite map_length, combine_length. lia. Qed.
  Lemma routed_wide P which (dY : list T) : Forall (fun c => length c = P) (routed P which dY).
  Proof. apply Forall_map. apply Forall_forall. intros p _. apply only_at_length. Qed.
  Lemma cells_of_concat1 P : forall l : rowsT, Forall (fun c => length c = P) l -> cells_of P (length l) (concat l) = l.
  Proof.
    induction l as [|c l IH]; intros Hl; [reflexivity|]. apply Forall_cons_iff in Hl as [H1 H2]. cbn [length cells_of concat].
    rewrite firstn_app, skipn_app, H1, Nat.sub_diag, firstn_all2, skipn_all2 by lia. cbn [firstn skipn app]. rewrite app_nil_r. now rewrite IH.
  Qed.
  Lemma concat_length_const {A} O : forall l : list (list A), Forall (fun r => length r = O) l -> length (concat l) = (length l * O)%nat.
  Proof. induction l as [|r l IH]; intros Hl; [reflexivity|]. apply Forall_cons_iff in Hl as [H1 H2]. cbn. rewrite app_length, IH by exact H2. lia. Qed.
  Lemma routed_app P w1 : forall w2 (d1 d2 : list T), length w1 = length d1 -> routed P (w1 ++ w2) (d1 ++ d2) = routed P w1 d1 ++ routed P w2 d2.
  Proof. induction w1 as [|w w1 IH]; intros w2 [|d d1] d2 E; try discriminate; [reflexivity|]. cbn [app]. unfold routed. cbn [combine map app]. f_equal. apply IH. cbn in E; lia. Qed.
  Lemma op_back_row P (d : list T) : forall w, length w = length d -> Forall (fun k => (0 <= k < Z.of_nat P)%Z) w -> op_backprop_row P d w = Ok (routed P w d).
  Proof.
    induction d as [|x d IH]; intros [|k w] E Hw; try discriminate; [reflexivity|]. apply Forall_cons_iff in Hw as [H1 H2]. cbn [op_backprop_row]. unfold norm_index.
    destruct (Z.ltb_spec k 0) as [|_]; [lia|]. destruct (Z.ltb_spec k (Z.of_nat P)) as [_|]; [|lia]. rewrite IH; [|cbn in E; lia | exact H2]. cbn. now rewrite only_at_set by lia.
  Qed.
  Lemma op_back_rows P O (dY : rowsT) : forall which, length which = length dY -> Forall (fun r => length r = O) dY -> Forall (fun r => length r = O) which ->
    Forall (Forall (fun k => (0 <= k < Z.of_nat P)%Z)) which -> op_backprop_rows P dY which = Ok (routed P (concat which) (concat dY)).
  Proof.
    induction dY as [|d dY IH]; intros [|w which] E Hd Hw Hk; try discriminate; [reflexivity|].
    apply Forall_cons_iff in Hd as [Hd1 Hd2]. apply Forall_cons_iff in Hw as [Hw1 Hw2]. apply Forall_cons_iff in Hk as [Hk1 Hk2].
    cbn [op_backprop_rows]. rewrite op_back_row; [|congruence | exact Hk1]. cbn [bind]. rewrite IH; [|cbn in E; lia | exact Hd2 | exact Hw2 | exact Hk2]. cbn [bind concat]. rewrite routed_app by congruence. reflexivity.
  Qed.
  Lemma nth_error_combine {A B} : forall (a : list A) (b : list B) i x y, nth_error a i = Some x -> nth_error b i = Some y -> nth_error (combine a b) i = Some (x, y).
  Proof. induction a as [|u a IH]; intros [|v b] [|i] x y H1 H2; cbn in *; try discriminate; [congruence | eauto]. Qed.
  Lemma Forall_concat_in {A} (Q : A -> Prop) l : Forall (Forall Q) l -> Forall Q (concat l).
  Proof. induction 1 as [|r l H1 H2 IH]; [constructor|]. apply Forall_app. split; assumption. Qed.

  Lemma maxout_back_run (dY : mat T) which P : wf_mat dY -> m_len dY <> 0%nat -> m_cols dY <> 0%nat -> positions_in P which dY ->
    np_backprop_maxout dY which P = Ok (mk3 (m_len dY) (m_cols dY) (Z.to_nat P) (routed (Z.to_nat P) (concat which) (concat (m_rows dY)))).
  Proof.
    intros Hw Hl Hc (Lw & Ww & Kw). unfold np_backprop_maxout.
    assert (HP : (0 < P)%Z). { destruct which as [|w which]; [cbn in Lw; lia|]. apply Forall_cons_iff in Ww as [W1 _]. apply Forall_cons_iff in Kw as [K1 _]. destruct w as [|k w]; [cbn in W1; lia|]. apply Forall_cons_iff in K1 as [K1 _]. lia. }
    destruct (Z.ltb_spec P 0) as [|_]; [lia|]. destruct (Nat.eqb_spec (m_len dY) 0) as [|_]; [contradiction|]. destruct (Nat.eqb_spec (m_cols dY) 0) as [|_]; [contradiction|]. cbn [orb].
    pose proof (concat_length_const _ _ Ww) as L1. rewrite Lw in L1. pose proof (concat_length_const _ _ Hw) as L2. fold (m_len dY) in L2.
    destruct (Nat.eqb_spec (length (concat which)) 0) as [E|_]; [rewrite L1 in E; apply Nat.eq_mul_0 in E; lia|].
    pose proof (cpu_back_ok (Z.to_nat P) (m_len dY * m_cols dY) 0 (concat (m_rows dY)) (concat which) []) as E. cbn [app] in E. rewrite E; [|rewrite Z2Nat.id by lia; now apply Forall_concat_in | exact L1 | exact L2 | reflexivity].
    cbn [bind]. do 2 f_equal. rewrite <- L2 at 1. rewrite <- (routed_length (Z.to_nat P) (concat which)) by congruence. apply cells_of_concat1. apply routed_wide.
  Qed.
  Lemma maxout_back_op (dY : mat T) which P : wf_mat dY -> (0 <= P)%Z -> positions_in P which dY ->
    op_backprop_maxout dY which P = Ok (mk3 (m_len dY) (m_cols dY) (Z.to_nat P) (routed (Z.to_nat P) (concat which) (concat (m_rows dY)))).
  Proof.
    intros Hw HP (Lw & Ww & Kw). unfold op_backprop_maxout. destruct (Z.ltb_spec P 0) as [|_]; [lia|]. rewrite (op_back_rows _ (m_cols dY)); [reflexivity | exact Lw | exact Hw | exact Ww |].
    eapply Forall_impl; [|exact Kw]. intros w Hk. eapply Forall_impl; [|exact Hk]. cbn. lia.
  Qed.
  Lemma maxout_back (dY : mat T) which P : wf_mat dY -> m_len dY <> 0%nat -> m_cols dY <> 0%nat -> positions_in P which dY ->
    exists dX, np_backprop_maxout dY which P = Ok dX /\ op_backprop_maxout dY which P = Ok dX /\
      t_b dX = m_len dY /\ t_o dX = m_cols dY /\ Z.of_nat (t_p dX) = P /\ wf3 dX /\
      forall i w d, nth_error (concat which) i = Some w -> nth_error (concat (m_rows dY)) i = Some d -> nth_error (t_cells dX) i = Some (only_at (t_p dX) w d).
  Proof.
    intros Hw Hl Hc Hp. pose proof Hp as (Lw & Ww & Kw).
    assert (HP : (0 < P)%Z). { destruct which as [|w which]; [cbn in Lw; lia|]. apply Forall_cons_iff in Ww as [W1 _]. apply Forall_cons_iff in Kw as [K1 _]. destruct w as [|k w]; [cbn in W1; lia|]. apply Forall_cons_iff in K1 as [K1 _]. lia. }
    eexists. split; [apply maxout_back_run; assumption|]. split; [apply maxout_back_op; [exact Hw | lia | exact Hp]|]. cbn [t_b t_o t_p t_cells]. split; [reflexivity|]. split; [reflexivity|]. split; [lia|].
    pose proof (concat_length_const _ _ Ww) as L1. rewrite Lw in L1. pose proof (concat_length_const _ _ Hw) as L2. fold (m_len dY) in L2.
    split.
    - split; cbn [t_b t_o t_p t_cells]; [rewrite routed_length by congruence; exact L2 | apply routed_wide].
    - intros i w d H1 H2. unfold routed. rewrite nth_error_map, (nth_error_combine _ _ _ _ _ H1 H2). reflexivity.
  Qed.
  Lemma cpu_back_bad P n : forall i (dY : list T) which D, Forall (fun k => (0 <= k)%Z) which -> ~ Forall (fun k => (k < Z.of_nat P)%Z) which -> length which = n -> length dY = n -> length D = ((i + n) * P)%nat ->
    cpu_backprop_maxout P i n dY which D = Err IndexError.
  Proof.
    induction n as [|n IH]; intros i dY which D H0 H1 Lw Ld LD.
    - destruct which; [|discriminate]. exfalso. apply H1. constructor.
    - destruct which as [|w which]; [discriminate|]. destruct dY as [|d dY]; [discriminate|]. apply Forall_cons_iff in H0 as [H0 H0']. cbn [cpu_backprop_maxout].
      destruct (Z.leb_spec (Z.of_nat P) w) as [Hle|Hlt]; [reflexivity|].
      destruct (Z.ltb_spec (Z.of_nat (i * P) + w) 0) as [|_]; [lia|]. cbn [orb]. rewrite LD. destruct (Z.leb_spec (Z.of_nat ((i + S n) * P)) (Z.of_nat (i * P) + w)) as [|_]; [nia|].
      apply IH; [exact H0' | intros C; apply H1; constructor; assumption | cbn in Lw; lia | cbn in Ld; lia | rewrite set_nth_length; lia].
  Qed.
  Lemma maxout_back_bad (dY : mat T) which P : wf_mat dY -> (0 <= P)%Z -> length which = m_len dY -> Forall (fun w => length w = m_cols dY) which ->
    Forall (Forall (fun k => (0 <= k)%Z)) which -> ~ Forall (Forall (fun k => (k < P)%Z)) which -> np_backprop_maxout dY which P = Err IndexError.
  Proof.
    intros Hw HP Lw Ww K0 K1. unfold np_backprop_maxout. destruct (Z.ltb_spec P 0) as [|_]; [lia|]. destruct ((m_len dY =? 0)%nat || (m_cols dY =? 0)%nat || (length (concat which) =? 0)%nat); [reflexivity|].
    pose proof (concat_length_const _ _ Ww) as L1. rewrite Lw in L1. pose proof (concat_length_const _ _ Hw) as L2. fold (m_len dY) in L2.
    rewrite cpu_back_bad; [reflexivity | now apply Forall_concat_in | | exact L1 | exact L2 | unfold zeros; now rewrite repeat_length].
    rewrite Z2Nat.id by lia. intros C. apply K1. clear -C. induction which as [|w which IH]; constructor; cbn [concat] in C; apply Forall_app in C as [C1 C2]; auto.
  Qed.
End Back.

Lemma dot_only_at P w d (c : list R) : length c = P -> (0 <= w < Z.of_nat P)%Z -> dot (only_at P w d) c = d * nth (Z.to_nat w) c 0.
Proof.
  intros Lc Hw. rewrite (vec_of_len 0 P c Lc) at 1. unfold only_at. change (map ?f (seq 0 P)) with (vec P f). rewrite dot_vec.
  rewrite <- (msum_pick (fun k => d * nth k c 0) (Z.to_nat w) P) by lia. f_equal. apply vec_ext. intros j _.
  destruct (Z.eqb_spec (Z.of_nat j) w), (Nat.eqb_spec j (Z.to_nat w)); try lia; cbn; lra.
Qed.
Lemma maxout_adjoint (X : arr3 R) (dY : mat R) best which : wf3 X -> t_b X <> 0%nat -> t_o X <> 0%nat -> t_p X <> 0%nat -> np_maxout X = Ok (best, which) ->
  wf_mat dY -> m_len dY = t_b X -> m_cols dY = t_o X ->
  exists dX, np_backprop_maxout dY which (Z.of_nat (t_p X)) = Ok dX /\ mdot (t_cells dX) (t_cells X) = mdot (m_rows dY) (m_rows best).
Proof.
  intros Hw Hb Ho Hp E Hd L1 L2. destruct (maxout_ok X Hw Ho Hp) as (best' & which' & E1 & _ & C1 & Lb & Wb & (P1 & P2 & P3) & Hf). rewrite E in E1. injection E1 as <- <-.
  assert (Hpos : positions_in (Z.of_nat (t_p X)) which dY). { split; [congruence|]. split; [rewrite L2, <- C1; exact P2 | exact P3]. }
  eexists. split; [apply maxout_back_run; [exact Hd | congruence | congruence | exact Hpos]|]. cbn [t_cells]. rewrite Nat2Z.id.
  destruct Hw as (Lc & Wc). assert (Q : forall l c, Forall (fun r : list R => length r = c) l -> mdot l (m_rows best) = mdot l (m_rows best)) by reflexivity. clear Q.
  pose proof (concat_length_const _ _ P2) as Lw. pose proof (concat_length_const _ _ Hd) as Ld. pose proof (concat_length_const _ _ Wb) as Lbb. fold (m_len dY) in Ld. fold (m_len best) in Lbb. rewrite P1 in Lw.
  assert (M : mdot (m_rows dY) (m_rows best) = dot (concat (m_rows dY)) (concat (m_rows best))).
  { rewrite <- (cells_of_concat1 (m_cols dY) (m_rows dY) Hd) at 1. apply cells_of_dot; [exact Ld | unfold m_len in *; congruence | rewrite L2, <- C1; exact Wb]. }
  rewrite M. apply Forall_concat_in in P3.
  assert (LL : length (concat which) = length (t_cells X)) by (rewrite Lw, Lc; congruence). assert (LD : length (concat (m_rows dY)) = length (t_cells X)) by (rewrite Ld, Lc; congruence).
  assert (LB : length (concat (m_rows best)) = length (t_cells X)) by (rewrite Lbb, Lc; congruence).
  clear - P3 LL LD LB Wc Hf. revert Hf Wc LL LD LB P3. generalize (concat which) (concat (m_rows dY)) (concat (m_rows best)). induction (t_cells X) as [|c cs IH]; intros ws ds bs Hf Wc LL LD LB P3.
  - destruct ws, ds; try discriminate. reflexivity.
  - destruct ws as [|w ws], ds as [|d ds], bs as [|b bs]; try discriminate. apply Forall_cons_iff in P3 as [P3 P3']. apply Forall_cons_iff in Wc as [Wc Wc'].
    cbn [routed combine map]. unfold routed. cbn [combine map fst snd]. rewrite mdot_cons, dot_cons, (dot_only_at _ _ _ _ Wc P3).
    destruct (Hf 0%nat c eq_refl) as (w' & m & E1 & E2 & (_ & E3 & _)). cbn in E1, E2. injection E1 as <-. injection E2 as <-. rewrite (nth_error_nth _ _ _ E3). f_equal.
    apply IH; [intros i c' Hc; apply (Hf (S i) c' Hc) | exact Wc' | cbn in LL; lia | cbn in LD; lia | cbn in LB; lia | exact P3'].
Qed.

(** ** Findings *)
Lemma maxout_negative {T} `{Num T} (d e : T) :
  np_backprop_maxout (mkM 2 [[d; e]]) [[0; -1]]%Z 2 = Ok (mk3 1 2 2 [[d; e]; [nZ 0; nZ 0]]) /\
  np_backprop_maxout (mkM 1 [[d]]) [[-1]]%Z 2 = Err MemFault /\
  op_backprop_maxout (mkM 2 [[d; e]]) [[0; -1]]%Z 2 = Ok (mk3 1 2 2 [[d; nZ 0]; [nZ 0; e]]).
Proof. repeat split. Qed.
Lemma maxout_empty {T} `{Num T} O P : (0 <= P)%Z -> np_backprop_maxout (mkM O []) [] P = Err IndexError /\ op_backprop_maxout (mkM O []) [] P = Ok (mk3 0 O (Z.to_nat P) []).
Proof. intros HP. unfold np_backprop_maxout, op_backprop_maxout. destruct (Z.ltb_spec P 0); [lia|]. split; reflexivity. Qed.
