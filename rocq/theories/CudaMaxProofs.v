From Coq Require Import Reals Lra Lia.
From Verif Require Import BaseFacts CudaSpec CudaProofs SeqProofs MatProofs ReduceProofs ReduceMaxProofs KernelProofs CudaRowProofs ReduceSpec KernelModel KernelSpec CudaSpec.
Set Default Goal Selector "!".
Local Open Scope nat_scope.

Lemma in_row b O a : b * O <= a < b * O + O -> exists o, o < O /\ a = b * O + o.
Proof. intros Ha. exists (a - b * O). lia. Qed.

(** ** reduce_max *)
Lemma argmax_fold (x : nat -> R) n : forall k y, fold_left (fun y i => if (fst y <? x (S i))%num then (x (S i), Z.of_nat (S i)) else y) (seq k n) y
  = argmax_from (fst y) (snd y) (Z.of_nat (S k)) (map x (seq (S k) n)).
Proof.
  induction n as [|n IH]; intros k [b w]; [reflexivity|]. cbn [seq fold_left map argmax_from]. rewrite IH.
  replace (Z.of_nat (S (S k))) with (Z.of_nat (S k) + 1)%Z by lia. cbn [fst snd]. destruct (nltb b (x (S k))); reflexivity.
Qed.
Section Max.
  Variables (X : mat R) (lengths : list Z) (c : config) (junk : nat -> R * Z).
  Hypotheses (HT : has_threads c) (Hw : wf_mat X) (Hp : ReduceSpec.positive lengths) (Hs : zsum lengths = Z.of_nat (m_len X)).
  Let B := length lengths.
  Let O := m_cols X.
  Let Hn : nonneg lengths. Proof. eapply Forall_impl; [|exact Hp]. cbn. intros; lia. Qed.
  Let x b k o := nth o (nth (off (nats lengths) b + k) (m_rows X) []) 0%R.
  Let work b : list (instr (R * Z)) :=
    concat (map (fun o => [Wr (b * O + o) (x b 0 o, 0%Z)]) (seq 0 O)) ++
    concat (map (fun i => concat (map (fun o => [Rmw (b * O + o) (fun y => if (fst y <? x b (S i) o)%num then (x b (S i) o, Z.of_nat (S i)) else y)]) (seq 0 O))) (seq 0 (Z.to_nat (nth b lengths 0%Z) - 1))).
  Let work_cell b o y : b < B -> o < O -> cellf (b * O + o) (work b) y = argmax (col 0%R o (nth b (chop (nats lengths) (m_rows X)) [])).
  Proof.
    intros Hb Ho. unfold work. rewrite cellf_app. rewrite (cellf_slot (b * O) O o); [|exact Ho|intros o' i Ho' [<-|[]]; reflexivity]. rewrite upd_here by reflexivity.
    rewrite cellf_concat, fold_left_map.
    rewrite (fold_left_ext_in _ (fun y i => if (fst y <? x b (S i) o)%num then (x b (S i) o, Z.of_nat (S i)) else y)).
    2: { intros i a _. rewrite (cellf_slot (b * O) O o); [|exact Ho|intros o' i' Ho' [<-|[]]; reflexivity]. rewrite upd_here by reflexivity. reflexivity. }
    rewrite (argmax_fold (fun k => x b k o)). cbn [fst snd].
    rewrite nth_chop by (unfold nats; now rewrite map_length). rewrite nth_nats.
    assert (Hl : (0 < nth b lengths 0)%Z). { unfold ReduceSpec.positive in Hp. rewrite Forall_forall in Hp. apply Hp. now apply nth_In. }
    pose proof (seq_rows X lengths Hn Hs b Hb) as Hr.
    rewrite (vec_of_len [] (Z.to_nat (nth b lengths 0%Z)) (firstn _ _)) by (rewrite firstn_length, skipn_length; lia). unfold col. rewrite map_vec.
    remember (Z.to_nat (nth b lengths 0%Z)) as n eqn:En. destruct n as [|n]; [lia|]. cbn [Nat.sub]. rewrite Nat.sub_0_r.
    unfold vec. cbn [seq map argmax]. change (Z.of_nat 1) with 1%Z. f_equal.
    - unfold x. now rewrite nth_firstn_skipn by lia.
    - apply map_ext_in. intros i Hi. apply in_seq in Hi. unfold x. now rewrite nth_firstn_skipn by lia.
  Qed.
  Lemma max_cu : cu_reduce_max c junk X lengths = op_reduce_max X lengths.
  Proof.
    unfold op_reduce_max. rewrite op_max_ok by (try assumption; unfold m_len in *; cbn; lia). cbn [bind skipn]. fold (nats lengths).
    unfold cu_reduce_max. rewrite check_lengths_ok; [|eapply Forall_impl; [|exact Hp]; cbn; intros; lia | exact Hs]. cbn [bind]. fold B O.
    destruct (launch_rows_stateless (0%R, 0%Z) O work c B (k_reduce_max (flat X) lengths O) (map junk (seq 0 (B * O)))) as (out & E & _ & F); auto.
    - now rewrite map_length, seq_length.
    - intros b Hb. unfold k_reduce_max. pose proof (seq_rows X lengths Hn Hs b Hb) as Hr. assert (Hl : (0 < nth b lengths 0)%Z). { unfold ReduceSpec.positive in Hp. rewrite Forall_forall in Hp. apply Hp. now apply nth_In. }
      rewrite first_row_ok by (try assumption; unfold B in Hb; lia). cbn [bind]. rewrite (for_n_ok O _ (fun o => [Wr (b * O + o) (x b 0 o, 0%Z)])).
      2: { intros o Ho. unfold flat. rewrite (loadz_flat 0%R) by (try assumption; lia). cbn [bind]. rewrite Nat2Z.id. unfold x. now rewrite Nat.add_0_r. }
      cbn [bind]. rewrite (load_nth 0%Z) by exact Hb. cbn [bind].
      rewrite (for_n_ok _ _ (fun i => concat (map (fun o => [Rmw (b * O + o) (fun y => if (fst y <? x b (S i) o)%num then (x b (S i) o, Z.of_nat (S i)) else y)]) (seq 0 O)))); [reflexivity|].
      intros i Hi. apply for_n_ok. intros o Ho. unfold flat.
      replace (Z.of_nat (off (nats lengths) b) + Z.of_nat (S i))%Z with (Z.of_nat (off (nats lengths) b + S i)) by lia.
      rewrite (loadz_flat 0%R) by (try assumption; lia). cbn [bind]. rewrite Nat2Z.id. reflexivity.
    - intros b i _ Hin. unfold work in Hin. apply in_app_or in Hin. destruct Hin as [Hin|Hin]; apply in_loop in Hin; destruct Hin as (k & Hk & Hin).
      + destruct Hin as [<-|[]]. exists k. auto.
      + apply in_loop in Hin. destruct Hin as (o & Ho & [<-|[]]). exists o. auto.
    - rewrite E. cbn [bind]. rewrite !F. rewrite (vec_of [] (chop (nats lengths) (m_rows X))). rewrite !map_vec, chop_len. unfold nats at 1 3. rewrite map_length. fold B.
      do 2 f_equal; [f_equal|]; apply vec_ext; intros b Hb; unfold max0; fold O; rewrite map_map; apply map_ext_in; intros o Ho; apply in_seq in Ho; rewrite work_cell by lia; reflexivity.
  Qed.
End Max.

(** ** maxout *)
Lemma k_best_ok (l : list R) at_ n : forall p b w, at_ + p + n <= length l -> k_best l at_ p n b w = Ok (argmax_from b w (Z.of_nat p) (map (fun k => nth (at_ + k) l 0%R) (seq p n))).
Proof.
  induction n as [|n IH]; intros p b w Hp; [reflexivity|]. cbn [k_best seq map argmax_from]. rewrite (load_nth 0%R) by lia. cbn [bind].
  replace (Z.of_nat p + 1)%Z with (Z.of_nat (S p)) by lia. destruct (nltb b (nth (at_ + p) l 0%R)); apply IH; lia.
Qed.
Lemma maxout_cu c junk (X : arr3 R) : has_threads c -> wf3 X -> t_p X <> 0 -> cu_maxout c junk X = op_maxout X.
Proof.
  intros HT (Hl & Hw) HP. unfold op_maxout. destruct (Nat.eqb_spec (t_p X) 0) as [|_]; [contradiction|]. cbn [andb].
  unfold cu_maxout. set (n := t_b X * t_o X) in *.
  set (work := fun bo => [Wr bo (argmax (nth bo (t_cells X) []))]).
  rewrite (launch_ok (0%R, 0%Z) (fun a => a) (fun _ (_ : unit) => True) work); auto.
  - cbn [bind]. rewrite map_length, seq_length. assert (E : map (fun a => cellf a (if a <? n then work a else []) (nth a (map junk (seq 0 n)) (0%R, 0%Z))) (seq 0 n) = map argmax (t_cells X)); [|now rewrite E].
    rewrite (vec_of [] (t_cells X)) at 1. rewrite map_vec, Hl. apply vec_ext. intros a Ha. destruct (Nat.ltb_spec a n); [|lia]. unfold work. now apply upd_here.
  - intros b [] Hb _. exists tt. split; [|auto]. unfold stateless, k_maxout.
    assert (Hc : length (nth b (t_cells X) []) = t_p X). { rewrite Forall_forall in Hw. apply Hw. apply nth_In. lia. }
    replace (b * t_p X) with (b * t_p X + 0) by lia. rewrite (load_flat 0%R) by (try assumption; lia). cbn [bind]. rewrite Nat.add_0_r.
    rewrite k_best_ok. 2: { rewrite (concat_length_const (t_p X)) by exact Hw. nia. }
    cbn [bind]. do 2 f_equal. unfold work. do 2 f_equal. rewrite (vec_of_len 0%R (t_p X) _ Hc) at 2. destruct (t_p X) as [|p] eqn:Ep; [congruence|]. unfold vec. cbn [seq map argmax]. rewrite (vec_of_len 0%R (S p) _ Hc) at 1.
    cbn [Nat.sub]. rewrite Nat.sub_0_r. f_equal. apply map_ext_in. intros k Hk. apply in_seq in Hk. rewrite (nth_flat (S p)) by (try assumption; lia). reflexivity.
  - intros b i Hb [<-|[]]. cbn. now rewrite map_length, seq_length.
Qed.

(** ** backprop_maxout *)
Section BackMaxout.
  Context {T : Type} `{Num T}.
  Lemma maxout_back_cu c (dY : mat T) which P : has_threads c -> wf_mat dY -> (0 <= P)%Z -> positions_in P which dY -> cu_backprop_maxout c dY which P = op_backprop_maxout dY which P.
  Proof.
    intros HT Hw HP Hi. rewrite maxout_back_op by assumption. destruct Hi as (Lw & Ww & Kw). unfold cu_backprop_maxout. destruct (Z.ltb_spec P 0) as [|_]; [lia|].
    assert (Ec : check_which_maxout which (m_len dY) (m_cols dY) P = Ok tt).
    { unfold check_which_maxout. rewrite Lw, Nat.eqb_refl. assert (E : forallb (fun w => length w =? m_cols dY) which = true).
      { apply forallb_forall. intros w Hin. rewrite Forall_forall in Ww. now apply Nat.eqb_eq, Ww. }
      rewrite E. cbn. assert (E2 : within_range (concat which) 0 P = true); [|now rewrite E2].
      unfold within_range. apply forallb_forall. intros z Hz. apply in_concat in Hz. destruct Hz as (l & Hl & Hz). rewrite Forall_forall in Kw. specialize (Kw l Hl). rewrite Forall_forall in Kw. specialize (Kw z Hz).
      apply andb_true_iff. split; [apply Z.leb_le|apply Z.ltb_lt]; lia. }
    rewrite Ec. cbn [bind]. set (B := m_len dY). set (O := m_cols dY). set (p := Z.to_nat P).
    set (w := fun b o => nth o (nth b which []) 0%Z). set (dy := fun b o => nth o (nth b (m_rows dY) []) (nZ 0)).
    assert (Hin : forall b o, b < B -> o < O -> (0 <= w b o < P)%Z).
    { intros b o Hb Ho. assert (I1 : In (nth b which []) which) by (apply nth_In; unfold B in Hb; lia). rewrite Forall_forall in Kw, Ww. specialize (Kw _ I1). rewrite Forall_forall in Kw. apply Kw, nth_In. rewrite (Ww _ I1). exact Ho. }
    set (work := fun b => concat (map (fun o => [Wr ((b * O + o) * p + Z.to_nat (w b o)) (dy b o)]) (seq 0 O))).
    rewrite (launch_ok (nZ 0) (fun a => a / (O * p)) (fun _ (_ : unit) => True) work); auto.
    - cbn [bind]. do 2 f_equal. unfold zeros at 2. rewrite repeat_length. rewrite cells_map.
      assert (L1 : length (concat (m_rows dY)) = B * O) by (apply concat_length_const; exact Hw).
      assert (L2 : length (concat which) = B * O) by (rewrite (concat_length_const O) by exact Ww; unfold B; now rewrite <- Lw).
      unfold routed. rewrite (vec_of_len (nZ 0) (B * O) (concat (m_rows dY)) L1), (vec_of_len 0%Z (B * O) (concat which) L2). rewrite combine_vec, map_vec.
      apply vec_ext. intros a Ha. cbn [fst snd]. unfold only_at. apply vec_ext. intros k Hk.
      assert (HO : O <> 0) by nia. assert (Ho := Nat.mod_upper_bound a O HO). assert (Hb : a / O < B) by (apply Nat.div_lt_upper_bound; nia).
      assert (Ea : a = a / O * O + a mod O) by (rewrite (Nat.mul_comm (a / O)); apply Nat.div_mod; exact HO).
      remember (a / O) as b eqn:Eb. remember (a mod O) as o eqn:Eo. subst a.
      replace (((b * O + o) * p + k) / (O * p)) with b.
      2: { replace ((b * O + o) * p + k) with (b * (O * p) + (o * p + k)) by lia. rewrite Nat.div_add_l, Nat.div_small by nia. lia. }
      destruct (Nat.ltb_spec b B); [|lia]. rewrite !(nth_flat O) by (try assumption; unfold B in *; lia). fold (w b o) (dy b o).
      unfold work. rewrite (cellf_owner ((b * O + o) * p + k) (fun o => [Wr ((b * O + o) * p + Z.to_nat (w b o)) (dy b o)]) (fun a => (a - b * O * p) / p)); [|apply seq_NoDup|].
      + replace (((b * O + o) * p + k - b * O * p) / p) with o. 2: { replace ((b * O + o) * p + k - b * O * p) with (o * p + k) by lia. rewrite Nat.div_add_l, Nat.div_small by lia. lia. }
        destruct (in_dec Nat.eq_dec o (seq 0 O)) as [_|Hno]; [|exfalso; apply Hno, in_seq; lia].
        pose proof (Hin b o Hb Ho). cbn. unfold upd. cbn. destruct (Nat.eqb_spec ((b * O + o) * p + Z.to_nat (w b o)) ((b * O + o) * p + k)); destruct (Z.eqb_spec (Z.of_nat k) (w b o)); try lia; try reflexivity.
        unfold zeros. rewrite nth_repeat. reflexivity.
      + intros o' i Ho' [<-|[]]. apply in_seq in Ho'. pose proof (Hin b o' Hb ltac:(lia)). cbn. replace ((b * O + o') * p + Z.to_nat (w b o') - b * O * p) with (o' * p + Z.to_nat (w b o')) by lia.
        rewrite Nat.div_add_l, Nat.div_small by lia. lia.
    - intros b [] Hb _. exists tt. split; [|auto]. unfold stateless, k_backprop_maxout. rewrite (for_n_ok O _ (fun o => [Wr ((b * O + o) * p + Z.to_nat (w b o)) (dy b o)])); [reflexivity|].
      intros o Ho. pose proof (Hin b o Hb Ho). rewrite (load_flat 0%Z) by (try assumption; unfold B in Hb; lia). cbn [bind]. fold (w b o). unfold addr.
      destruct (Z.ltb_spec (Z.of_nat (b * O * p + o * p) + w b o) 0); [lia|]. cbn [bind]. unfold flat. rewrite (load_flat (nZ 0)) by assumption. cbn [bind]. fold (dy b o). do 3 f_equal. lia.
    - intros b i Hb Hi. unfold work in Hi. apply in_loop in Hi. destruct Hi as (o & Ho & [<-|[]]). pose proof (Hin b o Hb Ho). unfold zeros. rewrite repeat_length. cbn [target].
      assert (Z.to_nat (w b o) < p) by lia. split.
      + assert (b * O + o < B * O) by nia. nia.
      + replace ((b * O + o) * p + Z.to_nat (w b o)) with (b * (O * p) + (o * p + Z.to_nat (w b o))) by lia. rewrite Nat.div_add_l, Nat.div_small by nia. lia.
  Qed.
End BackMaxout.
