From Verif Require Import BaseFacts ReduceSpec SeqProofs PaddedProofs PackProofs AdaptProofs MatProofs ReduceProofs.
Set Default Goal Selector "!".
Local Open Scope R_scope.

Local Notation rows := (list (list R)).
Local Notation wide O := (Forall (fun r : list R => length r = O)).

(** ** max *)

Lemma argmax_from_ok (l : list R) : forall pre best w, first_max pre w best ->
  let r := argmax_from best w (Z.of_nat (length pre)) l in first_max (pre ++ l) (snd r) (fst r).
Proof.
  induction l as [|x l IH]; intros pre best w H; cbn [argmax_from].
  - rewrite app_nil_r. exact H.
  - destruct H as (H0 & H1 & H2). replace (pre ++ x :: l) with ((pre ++ [x]) ++ l) by (rewrite <- app_assoc; reflexivity).
    assert (Hw : (Z.to_nat w < length pre)%nat) by (apply nth_error_Some; rewrite H1; discriminate).
    replace (Z.of_nat (length pre) + 1)%Z with (Z.of_nat (length (pre ++ [x]))) by (rewrite app_length; cbn; lia).
    unfold nltb, num_R. destruct (Rlt_dec best x) as [Hlt|Hge]; apply IH.
    + split; [lia|]. rewrite Nat2Z.id. split; [rewrite nth_error_app2, Nat.sub_diag by lia; reflexivity|].
      intros k y Hk. destruct (Nat.lt_ge_cases k (length pre)) as [Hkp|Hkp].
      * rewrite nth_error_app1 in Hk by exact Hkp. destruct (H2 k y Hk) as [Hy _]. split; lra.
      * rewrite nth_error_app2 in Hk by exact Hkp. destruct (k - length pre)%nat as [|m] eqn:Em; [|destruct m; discriminate]. cbn in Hk. injection Hk as <-. split; [lra | lia].
    + split; [exact H0|]. split; [rewrite nth_error_app1 by exact Hw; exact H1|].
      intros k y Hk. destruct (Nat.lt_ge_cases k (length pre)) as [Hkp|Hkp].
      * rewrite nth_error_app1 in Hk by exact Hkp. exact (H2 k y Hk).
      * rewrite nth_error_app2 in Hk by exact Hkp. destruct (k - length pre)%nat as [|m] eqn:Em; [|destruct m; discriminate]. cbn in Hk. injection Hk as <-. split; [lra | lia].
Qed.
Lemma argmax_ok (l : list R) : l <> [] -> first_max l (snd (argmax l)) (fst (argmax l)).
Proof.
  destruct l as [|x l]; [congruence|]. intros _. cbn [argmax]. apply (argmax_from_ok l [x] x 0).
  split; [lia|]. split; [reflexivity|]. intros [|[|k]] y Hk; try discriminate. injection Hk as <-. split; [lra | cbn; lia].
Qed.
Lemma first_max_unique l w m w' m' : first_max l w m -> first_max l w' m' -> w = w' /\ m = m'.
Proof.
  intros (A0 & A1 & A2) (B0 & B1 & B2). assert (E : m = m') by (destruct (A2 _ _ B1), (B2 _ _ A1); lra). subst m'. split; [|reflexivity].
  destruct (Nat.lt_trichotomy (Z.to_nat w) (Z.to_nat w')) as [H|[H|H]]; [|lia|].
  - destruct (B2 _ _ A1) as [_ Hc]. specialize (Hc H). lra.
  - destruct (A2 _ _ B1) as [_ Hc]. specialize (Hc H). lra.
Qed.

Lemma max_loop_ok O n : forall (X : rows) i B, (n <= length X)%nat -> wide O X ->
  max_loop n i (vec O B) X = Ok (vec O (fun j => argmax_from (fst (B j)) (snd (B j)) i (col 0 j (firstn n X))), skipn n X).
Proof.
  induction n as [|n IH]; intros X i B Hn Hw.
  - cbn [max_loop firstn skipn col map argmax_from]. do 2 f_equal. apply vec_ext. intros j _. now destruct (B j).
  - destruct X as [|x X]; [cbn in Hn; lia|]. apply Forall_cons_iff in Hw as [Hx Hw]. cbn [max_loop firstn skipn].
    rewrite (vec_of_len 0 O x Hx) at 1. rewrite combine_vec, map_vec. rewrite IH by (try assumption; cbn in Hn; lia). do 2 f_equal. apply vec_ext. intros j Hj.
    cbn [fst snd col map argmax_from]. destruct (_ <? _)%num; reflexivity.
Qed.

Lemma cpu_max_op O (X : rows) lengths : forall start, (start <= length X)%nat -> wide O X ->
  cpu_reduce_max (Z.of_nat (length X) - Z.of_nat start) (skipn start X) lengths = op_reduce_max_loop O start X lengths.
Proof.
  induction lengths as [|len lengths IH]; intros start Hs Hw; [reflexivity|]. cbn [cpu_reduce_max op_reduce_max_loop].
  destruct (Z.leb_spec len 0) as [Hn|Hn]; [reflexivity|].
  destruct (Z.ltb_spec (Z.of_nat (length X) - Z.of_nat start) len) as [Ht|Ht];
    destruct (Z.ltb_spec (Z.of_nat (length X)) (Z.of_nat start + len)) as [Ht'|Ht']; try lia; [reflexivity|].
  assert (Hlt : (start < length X)%nat) by lia. pose proof (nth_error_nth' X [] Hlt) as En. rewrite (skipn_nth_error X start _ En).
  set (x := nth start X []) in *. assert (Hx : length x = O) by (rewrite Forall_forall in Hw; apply Hw; now apply nth_In).
  assert (Em : map (fun v : R => (v, 0%Z)) x = vec O (fun j => (nth j x 0, 0%Z))) by (rewrite (vec_of_len 0 O x Hx) at 1; now rewrite map_vec).
  rewrite Em. rewrite (max_loop_ok O) by (try (apply wide_skipn; assumption); rewrite skipn_length; lia).
  cbn [bind fst snd]. rewrite skipn_skipn. rewrite <- (IH (start + Z.to_nat len)%nat) by (try assumption; lia).
  replace (Z.of_nat (length X) - Z.of_nat (start + Z.to_nat len))%Z with (Z.of_nat (length X) - Z.of_nat start - len)%Z by lia.
  replace (S start + (Z.to_nat len - 1))%nat with (start + Z.to_nat len)%nat by lia.
  destruct (cpu_reduce_max _ _ lengths); [|reflexivity]. cbn [bind]. do 2 f_equal. unfold max0, slice_rows. apply vec_ext. intros j _.
  replace (start + Z.to_nat len - start)%nat with (S (Z.to_nat len - 1)) by lia. rewrite (skipn_nth_error X start _ En). reflexivity.
Qed.

Lemma max_backends X lengths : wf_mat X -> m_cols X <> 0%nat -> m_rows X <> [] -> np_reduce_max X lengths = op_reduce_max X lengths.
Proof.
  intros Hw Hc Hr. unfold np_reduce_max, op_reduce_max. destruct (Nat.eqb_spec (m_cols X) 0) as [|_]; [contradiction|]. rewrite orb_false_r.
  destruct (Nat.eqb_spec (length lengths) 0) as [E|E].
  - apply length_zero_iff_nil in E. subst lengths. reflexivity.
  - unfold m_len. destruct (m_rows X) as [|x l] eqn:Er; [congruence|]. rewrite <- Er.
    rewrite <- (cpu_max_op (m_cols X)) by (try lia; exact Hw). now rewrite Nat2Z.inj_0, Z.sub_0_r.
Qed.

Lemma op_max_ok O (X : rows) lengths : forall start, positive lengths -> (Z.of_nat start + zsum lengths <= Z.of_nat (length X))%Z ->
  op_reduce_max_loop O start X lengths = Ok (map (max0 O) (chop (map Z.to_nat lengths) (skipn start X))).
Proof.
  induction lengths as [|len lengths IH]; intros start Hn Hs; [reflexivity|]. inversion Hn as [|? ? H0 Hn']; subst. cbn [zsum fold_right] in Hs. fold (zsum lengths) in Hs.
  assert (Hz : (0 <= zsum lengths)%Z) by (clear -Hn'; induction Hn' as [|? ? ? ? IH]; cbn; [lia | unfold zsum in IH; lia]).
  cbn [op_reduce_max_loop map chop].
  destruct (Z.leb_spec len 0) as [?|_]; [lia|]. destruct (Z.ltb_spec (Z.of_nat (length X)) (Z.of_nat start + len)) as [?|_]; [lia|].
  rewrite IH by (try assumption; lia). cbn [bind]. rewrite skipn_skipn. replace (Z.to_nat len + start)%nat with (start + Z.to_nat len)%nat by lia.
  do 2 f_equal. unfold slice_rows. do 2 f_equal. lia.
Qed.
Lemma op_max_error O (X : rows) pre n post : forall start, positive pre -> (Z.of_nat start + zsum pre <= Z.of_nat (length X))%Z ->
  ((n <= 0)%Z -> op_reduce_max_loop O start X (pre ++ n :: post) = Err ValueError) /\
  ((0 < n)%Z -> (Z.of_nat (length X) < Z.of_nat start + zsum pre + n)%Z -> op_reduce_max_loop O start X (pre ++ n :: post) = Err IndexError).
Proof.
  induction pre as [|len pre IH]; intros start Hn Hs.
  - cbn [app op_reduce_max_loop]. cbn [zsum fold_right] in *. split.
    + intros H. destruct (Z.leb_spec n 0); [reflexivity | lia].
    + intros H H1. destruct (Z.leb_spec n 0); [lia|]. destruct (Z.ltb_spec (Z.of_nat (length X)) (Z.of_nat start + n)); [reflexivity | lia].
  - inversion Hn as [|? ? H0 Hn']; subst. cbn [zsum fold_right] in *. fold (zsum pre) in *.
    assert (Hz : (0 <= zsum pre)%Z) by (clear -Hn'; induction Hn' as [|? ? ? ? IH]; cbn; [lia | unfold zsum in IH; lia]).
    cbn [app op_reduce_max_loop]. destruct (Z.leb_spec len 0) as [?|_]; [lia|]. destruct (Z.ltb_spec (Z.of_nat (length X)) (Z.of_nat start + len)) as [?|_]; [lia|].
    destruct (IH (start + Z.to_nat len)%nat Hn') as [I1 I2]; [lia|]. split.
    + intros H. now rewrite I1.
    + intros H H1. rewrite I2 by lia. reflexivity.
Qed.

(** For each sequence and column: the maximum and the first position that attains it. *)
Lemma reduce_max_ok X lengths : wf_mat X -> m_cols X <> 0%nat -> m_rows X <> [] -> positive lengths -> (zsum lengths <= Z.of_nat (m_len X))%Z ->
  exists Y which, np_reduce_max X lengths = Ok (Y, which) /\ op_reduce_max X lengths = Ok (Y, which) /\
    m_cols Y = m_cols X /\ length (m_rows Y) = length lengths /\ length which = length lengths /\ wf_mat Y /\ Forall (fun w => length w = m_cols X) which /\
    forall i s j, nth_error (seqs_of lengths (m_rows X)) i = Some s -> (j < m_cols X)%nat ->
      first_max (col 0 j s) (nth j (nth i which []) 0%Z) (nth j (nth i (m_rows Y) []) 0).
Proof.
  intros Hw Hc Hr Hp Hs. rewrite max_backends by assumption. unfold op_reduce_max. rewrite op_max_ok by (try assumption; unfold m_len in *; lia). cbn [bind skipn].
  fold (seqs_of lengths (m_rows X)). eexists. eexists. split; [reflexivity|]. split; [reflexivity|]. cbn [m_cols m_rows].
  assert (El : length (seqs_of lengths (m_rows X)) = length lengths) by (unfold seqs_of; rewrite chop_length; apply map_length).
  split; [reflexivity|]. split; [rewrite !map_length; exact El|]. split; [rewrite !map_length; exact El|].
  split; [unfold wf_mat; cbn [m_rows m_cols]; rewrite map_map; apply Forall_map; apply Forall_forall; intros s _; rewrite map_length; apply vec_length|].
  split; [rewrite map_map; apply Forall_map; apply Forall_forall; intros s _; rewrite map_length; apply vec_length|].
  intros i s j Ei Hj. rewrite (nth_error_nth_some _ _ _ [] (map_nth_error _ _ _ (map_nth_error _ _ _ Ei))), (nth_error_nth_some _ _ _ [] (map_nth_error _ _ _ (map_nth_error _ _ _ Ei))).
  change (max0 (m_cols X) s) with (vec (m_cols X) (fun j => argmax (col 0 j s))). rewrite !map_vec, !nth_vec by exact Hj.
  apply argmax_ok. intros E. unfold col in E. apply map_eq_nil in E. subst s.
  clear -Ei Hp Hs. unfold seqs_of, m_len in *. revert i Ei Hs. generalize (m_rows X). induction Hp as [|n l Hn Hp IH]; intros rs i Ei Hs; [destruct i; discriminate|].
  cbn [map chop zsum fold_right] in *. fold (zsum l) in *. assert (0 <= zsum l)%Z by (apply zsum_nonneg; eapply Forall_impl; [|exact Hp]; cbn; intros; lia). destruct i as [|i]; cbn [nth_error] in Ei.
  - injection Ei as Ei. apply (f_equal (@length _)) in Ei. rewrite firstn_length in Ei. cbn in Ei. lia.
  - apply (IH _ i Ei). rewrite skipn_length. lia.
Qed.

(** Backward. *)
Lemma set_nth_app2 {A} (x : A) (l1 l2 : list A) i : set_nth (length l1 + i) x (l1 ++ l2) = l1 ++ set_nth i x l2.
Proof. induction l1 as [|y l1 IH]; [reflexivity|]. cbn. now rewrite IH. Qed.
Lemma set_nth_app1 {A} (x : A) (l1 l2 : list A) : forall i, (i < length l1)%nat -> set_nth i x (l1 ++ l2) = set_nth i x l1 ++ l2.
Proof. induction l1 as [|y l1 IH]; intros [|i] H; cbn in *; try lia; [reflexivity|]. now rewrite IH by lia. Qed.
Lemma set_nth_vec {A} (x : A) n f i : set_nth i x (vec n f) = vec n (fun j => if (j =? i)%nat then x else f j).
Proof.
  unfold vec. assert (G : forall s, set_nth i x (map f (seq s n)) = map (fun j => if (j =? s + i)%nat then x else f j) (seq s n)).
  { revert i. induction n as [|n IH]; intros i s; [destruct i; reflexivity|]. cbn [seq map]. destruct i as [|i]; cbn [set_nth].
    - rewrite Nat.add_0_r, Nat.eqb_refl. f_equal. apply map_ext_in. intros j Hj. apply in_seq in Hj. destruct (Nat.eqb_spec j s); [lia | reflexivity].
    - destruct (Nat.eqb_spec s (s + S i)); [lia|]. f_equal. rewrite IH. apply map_ext. intros j. now rewrite Nat.add_succ_r, Nat.add_succ_l. }
  apply (G 0%nat).
Qed.
Lemma set_cell_block {A} (P Q : list (list A)) n O (f : nat -> nat -> A) i j x : (i < n)%nat ->
  set_cell (length P + i) j x (P ++ vec n (fun r => vec O (f r)) ++ Q) =
  P ++ vec n (fun r => vec O (fun c => if (r =? i)%nat && (c =? j)%nat then x else f r c)) ++ Q.
Proof.
  intros Hi. unfold set_cell. rewrite nth_error_app2 by lia. replace (length P + i - length P)%nat with i by lia.
  rewrite nth_error_app1 by (rewrite vec_length; exact Hi). rewrite (nth_error_nth' _ [] (n := i)) by (rewrite vec_length; exact Hi).
  rewrite nth_vec by exact Hi. rewrite set_nth_app2, set_nth_app1 by (rewrite vec_length; exact Hi). rewrite set_nth_vec, set_nth_vec. do 2 f_equal.
  apply vec_ext. intros r Hr. destruct (Nat.eqb_spec r i) as [->|Hne]; cbn [andb]; reflexivity.
Qed.

(** The gradient rows of one sequence of [n] rows. *)
Definition max_block (n O : nat) (w : nat -> Z) (d : nat -> R) : rows :=
  vec n (fun r => vec O (fun c => if (Z.of_nat r =? w c)%Z then d c else 0)).

Lemma put_max_ok P Q n O w d : (forall c, (c < O)%nat -> (0 <= w c < Z.of_nat n)%Z) ->
  put_max (Z.of_nat (length P)) (Z.of_nat n) (combine (seq 0 O) (combine (vec O w) (vec O d))) (P ++ vec n (fun _ => vec O (fun _ => 0)) ++ Q)
  = Ok (P ++ max_block n O w d ++ Q).
Proof.
  intros Hw. rewrite combine_vec.
  assert (G : forall m k, (k + m = O)%nat ->
    put_max (Z.of_nat (length P)) (Z.of_nat n) (combine (seq k m) (map (fun j => (w j, d j)) (seq k m)))
      (P ++ vec n (fun r => vec O (fun c => if (c <? k)%nat && (Z.of_nat r =? w c)%Z then d c else 0)) ++ Q) = Ok (P ++ max_block n O w d ++ Q)).
  { induction m as [|m IH]; intros k Hk.
    - cbn [seq map combine put_max]. do 3 f_equal. unfold max_block. apply vec_ext. intros r _. apply vec_ext. intros c Hc. destruct (Nat.ltb_spec c k); [reflexivity | lia].
    - cbn [seq map combine put_max]. specialize (Hw k ltac:(lia)) as Hwk. destruct (Z.leb_spec (Z.of_nat n) (w k)); [lia|].
      destruct (Z.ltb_spec (Z.of_nat (length P) + w k) 0); [lia|]. rewrite !app_length, vec_length.
      destruct (Z.leb_spec (Z.of_nat (length P + (n + length Q))) (Z.of_nat (length P) + w k)); [lia|].
      replace (Z.to_nat (Z.of_nat (length P) + w k)) with (length P + Z.to_nat (w k))%nat by lia.
      rewrite set_cell_block by lia. rewrite <- (IH (S k)) by lia. do 3 f_equal. apply vec_ext. intros r _. apply vec_ext. intros c _.
      destruct (Nat.eqb_spec c k) as [->|Hne]; cbn [andb].
      + rewrite andb_true_r. replace (k <? S k)%nat with true by (symmetry; apply Nat.ltb_lt; lia). replace (k <? k)%nat with false by (symmetry; apply Nat.ltb_ge; lia). cbn [andb].
        destruct (Nat.eqb_spec r (Z.to_nat (w k))), (Z.eqb_spec (Z.of_nat r) (w k)); try lia; reflexivity.
      + rewrite andb_false_r. replace (c <? S k)%nat with (c <? k)%nat; [reflexivity|]. destruct (Nat.ltb_spec c k), (Nat.ltb_spec c (S k)); try lia; reflexivity. }
  specialize (G O 0%nat eq_refl). cbn [Nat.ltb Nat.leb andb] in G. exact G.
Qed.
Lemma set_cell_length {A} i j (x : A) D : length (set_cell i j x D) = length D.
Proof. unfold set_cell. destruct (nth_error D i); [apply set_nth_length | reflexivity]. Qed.
Lemma put_max_same start len cols : forall D : rows, Forall (fun c => (0 <= fst (snd c) < Z.of_nat len)%Z) cols -> (start + len <= length D)%nat ->
  op_put_max start len cols D = put_max (Z.of_nat start) (Z.of_nat len) cols D.
Proof.
  induction cols as [|[j [item d]] cols IH]; intros D Hc Hl; [reflexivity|]. apply Forall_cons_iff in Hc as [H1 H2]. cbn [fst snd] in H1. cbn [op_put_max put_max].
  destruct (Z.leb_spec (Z.of_nat len) item); [lia|]. destruct (Z.ltb_spec (Z.of_nat start + item) 0); [lia|]. destruct (Z.leb_spec (Z.of_nat (length D)) (Z.of_nat start + item)); [lia|].
  unfold norm_index. destruct (Z.ltb_spec item 0); [lia|]. destruct (Z.ltb_spec item (Z.of_nat len)); [|lia].
  rewrite IH; [|exact H2 | rewrite set_cell_length; exact Hl]. do 2 f_equal. lia.
Qed.

Definition blocks (O : nat) (dY : rows) (which : list (list Z)) (lengths : list Z) : rows :=
  concat (map (fun p => max_block (Z.to_nat (snd p)) O (fun c => nth c (snd (fst p)) 0%Z) (fun c => nth c (fst (fst p)) 0)) (combine (combine dY which) lengths)).

Lemma zeros_split O a b : repeat (repeat 0 O) (a + b) = vec a (fun _ => vec O (fun _ => 0)) ++ repeat (repeat 0 O) b.
Proof. rewrite repeat_app, (repeat_vec (repeat 0 O) a), (repeat_vec 0 O). reflexivity. Qed.

Lemma max_block_length n O w d : length (max_block n O w d) = n. Proof. apply vec_length. Qed.

Lemma in_seqs_range O w len c : length w = O -> Forall (fun i => (0 <= i < len)%Z) w -> (c < O)%nat -> (0 <= nth c w 0 < len)%Z.
Proof. intros E H Hc. rewrite Forall_forall in H. apply H. apply nth_In. lia. Qed.

Lemma cpu_back_max_ok O lengths : forall which dY P, in_seqs O which lengths -> wide O dY -> length dY = length lengths -> nonneg lengths ->
  cpu_backprop_reduce_max (Z.of_nat (length P)) dY which lengths (P ++ repeat (repeat 0 O) (Z.to_nat (zsum lengths))) = Ok (P ++ blocks O dY which lengths).
Proof.
  induction lengths as [|len lengths IH]; intros which dY P Hi Hd El Hn.
  - inversion Hi; subst. destruct dY; [|discriminate]. reflexivity.
  - inversion Hi as [|w ? which' ? [Hw1 Hw2] Hi']; subst. destruct dY as [|d dY]; [discriminate|]. apply Forall_cons_iff in Hd as [Hd1 Hd2].
    apply Forall_cons_iff in Hn as [Hn1 Hn2]. pose proof (zsum_nonneg _ Hn2) as Hz. cbn [cpu_backprop_reduce_max zsum fold_right]. fold (zsum lengths).
    rewrite Z2Nat.inj_add by lia. rewrite zeros_split.
    pose proof (put_max_ok P (repeat (repeat 0 (length w)) (Z.to_nat (zsum lengths))) (Z.to_nat len) (length w) (fun c => nth c w 0%Z) (fun c => nth c d 0)) as E.
    rewrite <- (vec_of 0%Z w), <- (vec_of_len 0 (length w) d) in E by exact Hd1. rewrite Z2Nat.id in E by exact Hn1. rewrite Hd1, E; [|intros c Hc; now apply (in_seqs_range (length w))]. cbn [bind]. clear E.
    replace (Z.of_nat (length P) + len)%Z with (Z.of_nat (length (P ++ max_block (Z.to_nat len) (length w) (fun c => nth c w 0%Z) (fun c => nth c d 0)))) by (rewrite app_length, max_block_length; lia).
    rewrite app_assoc. rewrite IH by (try assumption; cbn in El; lia). unfold blocks. cbn [combine map concat fst snd]. now rewrite <- app_assoc.
Qed.

Lemma combine_snd_fst {A} (w : list Z) (d : list A) P : Forall P w -> forall l : list nat, Forall (fun c => P (fst (snd c))) (combine l (combine w d)).
Proof.
  intros H. revert d. induction H as [|x w Hx H IH]; intros d l.
  - cbn. destruct l; constructor.
  - destruct d as [|y d]; [destruct l; constructor|]. destruct l as [|n l]; [constructor|]. cbn. constructor; [exact Hx | apply IH].
Qed.

Lemma op_back_max_cpu (lengths : list Z) : forall which dY i start D, positive lengths ->
  Forall2 (fun w len => Forall (fun i => (0 <= i < len)%Z) w) (skipn i which) lengths -> length (skipn i dY) = length lengths ->
  (Z.of_nat start + zsum lengths <= Z.of_nat (length D))%Z -> 
  op_backprop_max_loop (T := R) start dY which i lengths D = cpu_backprop_reduce_max (Z.of_nat start) (skipn i dY) (skipn i which) lengths D.
Proof.
  induction lengths as [|len lengths IH]; intros which dY i start D Hp Hw Hd Hs; [destruct (skipn i dY); reflexivity|]. apply Forall_cons_iff in Hp as [Hp1 Hp2].
  cbn [zsum fold_right] in Hs. fold (zsum lengths) in Hs. assert (Hz : (0 <= zsum lengths)%Z) by (apply zsum_nonneg; eapply Forall_impl; [|exact Hp2]; cbn; intros; lia).
  cbn [op_backprop_max_loop cpu_backprop_reduce_max]. destruct (Z.leb_spec len 0); [lia|].
  destruct (skipn i which) as [|w wl] eqn:Ew; [inversion Hw|]. destruct (skipn i dY) as [|d dl] eqn:Ed; [discriminate|].
  assert (En : nth_error which i = Some w) by (rewrite <- (Nat.add_0_r i), <- nth_error_skipn, Ew; reflexivity).
  assert (En2 : nth_error dY i = Some d) by (rewrite <- (Nat.add_0_r i), <- nth_error_skipn, Ed; reflexivity).
  rewrite (skipn_nth_error _ _ _ En) in Ew. rewrite (skipn_nth_error _ _ _ En2) in Ed. apply (f_equal (@tl _)) in Ew, Ed. change (skipn (S i) which = wl) in Ew. change (skipn (S i) dY = dl) in Ed.
  unfold py_get. rewrite En, En2. cbn [bind cpu_backprop_reduce_max]. inversion Hw as [|? ? ? ? Hw1 Hw2]. subst x y l l'.
  rewrite put_max_same; [rewrite Z2Nat.id by lia | rewrite Z2Nat.id by lia; exact (combine_snd_fst w d _ Hw1 _) | lia].
  destruct (put_max (Z.of_nat start) len (combine (seq 0 (length d)) (combine w d)) D) as [D'|] eqn:E; [|reflexivity]. cbn [bind].
  rewrite <- Ew, <- Ed in *. rewrite IH; try assumption.
  - f_equal. lia.
  - cbn [length] in Hd. lia.
  - enough (length D' = length D) by lia. revert E. generalize (combine (seq 0 (length d)) (combine w d)) as cols. clear. intros cols. revert D. induction cols as [|[j [item x]] cols IH]; intros D E; [cbn in E; congruence|].
    cbn [put_max] in E. destruct (_ <=? _)%Z; [discriminate|]. destruct (_ <? _)%Z; [discriminate|]. destruct (_ <=? _)%Z; [discriminate|]. apply IH in E. now rewrite set_cell_length in E.
Qed.

(** Both backends write the blocks. *)
Lemma back_max_ok dY which lengths : positive lengths -> wf_mat dY -> m_len dY = length lengths -> in_seqs (m_cols dY) which lengths ->
  np_backprop_reduce_max dY which lengths = Ok (mkM (m_cols dY) (blocks (m_cols dY) (m_rows dY) which lengths)) /\
  op_backprop_reduce_max dY which lengths = Ok (mkM (m_cols dY) (blocks (m_cols dY) (m_rows dY) which lengths)).
Proof.
  intros Hp Hd El Hi. assert (Hn : nonneg lengths) by (eapply Forall_impl; [|exact Hp]; cbn; intros; lia). pose proof (zsum_nonneg _ Hn) as Hz.
  pose proof (cpu_back_max_ok (m_cols dY) lengths which (m_rows dY) [] Hi Hd El Hn) as E. cbn [app length] in E.
  assert (Eop : op_backprop_reduce_max dY which lengths = Ok (mkM (m_cols dY) (blocks (m_cols dY) (m_rows dY) which lengths))).
  { unfold op_backprop_reduce_max. destruct (Z.ltb_spec (zsum lengths) 0); [lia|]. rewrite op_back_max_cpu; try assumption.
    - cbn [skipn mzeros m_rows]. unfold zeros. cbn [nZ num_R]. rewrite E. reflexivity.
    - cbn [skipn]. clear -Hi. induction Hi as [|? ? ? ? [? ?] ? IH]; constructor; assumption.
    - cbn [mzeros m_rows]. rewrite repeat_length. lia. }
  split; [|exact Eop]. unfold np_backprop_reduce_max.
  replace (existsb (fun len => (len <=? 0)%Z) lengths) with false.
  2:{ symmetry. clear -Hp. induction Hp as [|x l Hx ? IH]; [reflexivity|]. cbn [existsb]. destruct (Z.leb_spec x 0); [lia | exact IH]. }
  destruct lengths as [|len lengths]; [cbn in El; unfold m_len in El; destruct (m_rows dY) eqn:E0; [|discriminate]; inversion Hi; reflexivity|].
  destruct (Z.eqb_spec (zsum (len :: lengths)) 0) as [E0|_].
  { exfalso. apply Forall_cons_iff in Hp as [? Hp]. apply Forall_cons_iff in Hn as [? Hn]. pose proof (zsum_nonneg _ Hn). cbn [zsum fold_right] in E0. fold (zsum lengths) in E0. lia. }
  cbn [orb]. destruct (Nat.eqb_spec (m_cols dY) 0) as [E0|_].
  - do 2 f_equal. rewrite E0 in *. unfold mzeros, blocks. f_equal.
    assert (G : forall l : rows, wide 0%nat l -> l = repeat [] (length l)) by (induction l as [|x l IH]; intros H; [reflexivity|]; apply Forall_cons_iff in H as [? H]; destruct x; [|discriminate]; cbn; f_equal; now apply IH).
    symmetry. etransitivity; [apply G|].
    + apply Forall_concat. apply Forall_map. apply Forall_forall. intros p _. apply Forall_forall. intros r Hr. unfold max_block, vec in Hr. apply in_map_iff in Hr as (? & <- & _). reflexivity.
    + change (zeros 0) with (@nil R). f_equal. unfold m_len in El.
      clear -Hi El Hn. revert which Hi El. generalize (m_rows dY) as d. induction (len :: lengths) as [|x l IH]; intros d which Hi El; inversion Hi; subst; [destruct d; [reflexivity | discriminate]|].
      destruct d as [|d ds]; [discriminate|]. apply Forall_cons_iff in Hn as [? Hn]. pose proof (zsum_nonneg _ Hn). cbn [combine map concat fst snd zsum fold_right]. fold (zsum l). rewrite app_length, max_block_length, IH by (try assumption; cbn in El; lia). lia.
  - unfold m_len in El. destruct (m_rows dY) as [|d ds] eqn:Er; [discriminate|]. destruct which as [|w ws]; [inversion Hi|].
    cbn [mzeros m_rows]. change (Z.of_nat 0) with 0%Z in E. unfold zeros. cbn [nZ num_R]. rewrite E. reflexivity.
Qed.

Lemma msum_pick (f : nat -> R) k n : (k < n)%nat -> msum (vec n (fun r => if (r =? k)%nat then f r else 0)) = f k.
Proof.
  unfold vec. intros H. replace n with (k + (1 + (n - k - 1)))%nat by lia. rewrite !seq_app, !map_app, !msum_app. cbn [seq map Nat.add]. rewrite !msum_cons, Nat.eqb_refl.
  rewrite (msum_ext_in _ (fun _ => 0) (seq 0 k)), (msum_ext_in _ (fun _ => 0) (seq (k + 1) _)); [rewrite !msum_zero; change (msum []) with 0; lra| |];
    intros x Hx; apply in_seq in Hx; destruct (Nat.eqb_spec x k); try lia; reflexivity.
Qed.
Lemma mdot_vec n f g : mdot (vec n f) (vec n g) = msum (vec n (fun i => dot (f i) (g i))).
Proof. unfold mdot. now rewrite combine_vec, map_vec. Qed.

Lemma max_block_dot n O w d (X : rows) : (forall c, (c < O)%nat -> (0 <= w c < Z.of_nat n)%Z) -> length X = n -> wide O X ->
  mdot (max_block n O w d) X = dot (vec O d) (vec O (fun c => nth c (nth (Z.to_nat (w c)) X []) 0)).
Proof.
  intros Hw El Hx. unfold max_block. rewrite (vec_of_len [] n X El) at 1. rewrite mdot_vec.
  rewrite (vec_ext n _ (fun r => msum (vec O (fun c => (if (Z.of_nat r =? w c)%Z then d c else 0) * nth c (nth r X []) 0)))).
  2:{ intros r Hr. rewrite (vec_of_len 0 O (nth r X [])) at 1 by (rewrite Forall_forall in Hx; apply Hx, nth_In; lia). apply dot_vec. }
  unfold vec at 1 2. rewrite (msum_swap (fun r c => (if (Z.of_nat r =? w c)%Z then d c else 0) * nth c (nth r X []) 0)). rewrite dot_vec. unfold vec at 1.
  apply msum_ext_in. intros c Hc. apply in_seq in Hc. specialize (Hw c ltac:(lia)).
  rewrite (msum_ext_in _ (fun r => if (r =? Z.to_nat (w c))%nat then d c * nth c (nth r X []) 0 else 0)).
  2:{ intros r _. destruct (Z.eqb_spec (Z.of_nat r) (w c)), (Nat.eqb_spec r (Z.to_nat (w c))); try lia; lra. }
  apply (msum_pick (fun r => d c * nth c (nth r X []) 0)). lia.
Qed.

Lemma blocks_length O dY which lengths : length dY = length lengths -> length which = length lengths -> nonneg lengths ->
  Z.of_nat (length (blocks O dY which lengths)) = zsum lengths.
Proof.
  intros E1 E2 Hn. revert dY which E1 E2. induction Hn as [|x l Hx Hn IH]; intros [|d dY] [|w which] E1 E2; try discriminate; [reflexivity|].
  unfold blocks. cbn [combine map concat fst snd zsum fold_right]. fold (zsum l). rewrite app_length, max_block_length, Nat2Z.inj_add. specialize (IH dY which). unfold blocks in IH. cbn in E1, E2. lia.
Qed.
Lemma blocks_wide O dY which lengths : wide O (blocks O dY which lengths).
Proof.
  apply Forall_concat. apply Forall_map. apply Forall_forall. intros p _. apply Forall_forall. intros r Hr. unfold max_block, vec in Hr. apply in_map_iff in Hr as (? & <- & _). apply vec_length.
Qed.
Lemma blocks_dot O lengths : forall dY which (X : rows), in_seqs O which lengths -> wide O dY -> wide O X -> length dY = length lengths -> nonneg lengths -> Z.of_nat (length X) = zsum lengths ->
  mdot (blocks O dY which lengths) X = mdot dY (select which (seqs_of lengths X)).
Proof.
  induction lengths as [|len lengths IH]; intros dY which X Hi Hd Hx El Hn Es.
  - inversion Hi; subst. destruct dY; [reflexivity | discriminate].
  - inversion Hi as [|w ? which' ? [Hw1 Hw2] Hi']; subst. destruct dY as [|d dY]; [discriminate|]. apply Forall_cons_iff in Hd as [Hd1 Hd2].
    apply Forall_cons_iff in Hn as [Hn1 Hn2]. pose proof (zsum_nonneg _ Hn2) as Hz. cbn [zsum fold_right] in Es. fold (zsum lengths) in Es.
    unfold blocks, seqs_of. cbn [combine map concat fst snd chop]. fold (blocks (length w) dY which' lengths). fold (seqs_of lengths (skipn (Z.to_nat len) X)).
    rewrite <- (firstn_skipn (Z.to_nat len) X) at 1. assert (Ef : length (firstn (Z.to_nat len) X) = Z.to_nat len) by (rewrite firstn_length; lia).
    rewrite mdot_app by (rewrite max_block_length, Ef; reflexivity). unfold select. cbn [combine map fst snd]. rewrite mdot_cons. f_equal.
    + rewrite max_block_dot; [|intros c Hc; rewrite Z2Nat.id by exact Hn1; now apply (in_seqs_range (length w)) | exact Ef | apply wide_firstn; exact Hx].
      f_equal; [symmetry; apply vec_of_len; congruence|]. rewrite (vec_of 0%Z w) at 3. change (seq 0 (length w)) with (seq 0 (length w)). rewrite <- (map_id (seq 0 (length w))). fold (vec (length w) (fun x => x)). rewrite combine_vec, map_vec. reflexivity.
    + apply IH; try assumption; [apply wide_skipn; exact Hx | cbn in El; lia | rewrite skipn_length; lia].
Qed.

Lemma back_max_adjoint dY which lengths : positive lengths -> wf_mat dY -> m_len dY = length lengths -> in_seqs (m_cols dY) which lengths ->
  exists dX, np_backprop_reduce_max dY which lengths = Ok dX /\ op_backprop_reduce_max dY which lengths = Ok dX /\
    m_cols dX = m_cols dY /\ wf_mat dX /\ Z.of_nat (m_len dX) = zsum lengths /\
    forall X, wf_mat X -> m_cols X = m_cols dY -> Z.of_nat (m_len X) = zsum lengths ->
      mdot (m_rows dX) (m_rows X) = mdot (m_rows dY) (select which (seqs_of lengths (m_rows X))).
Proof.
  intros Hp Hd El Hi. destruct (back_max_ok dY which lengths Hp Hd El Hi) as [E1 E2]. assert (Hn : nonneg lengths) by (eapply Forall_impl; [|exact Hp]; cbn; intros; lia).
  eexists. split; [exact E1|]. split; [exact E2|]. cbn [m_cols m_rows]. split; [reflexivity|]. split; [apply blocks_wide|].
  assert (Ew : length which = length lengths) by (clear -Hi; induction Hi; cbn; congruence).
  split; [unfold m_len; apply blocks_length; assumption|]. intros X Hx Ec Ex. apply blocks_dot; try assumption. rewrite <- Ec. exact Hx.
Qed.

(** A position past the end of its sequence is refused by both backends. *)
Lemma put_max_nonneg start len cols : forall D : rows, Forall (fun c => (0 <= fst (snd c))%Z) cols -> (start + len <= length D)%nat ->
  (exists D', put_max (Z.of_nat start) (Z.of_nat len) cols D = Ok D' /\ op_put_max start len cols D = Ok D' /\ length D' = length D /\ Forall (fun c => (fst (snd c) < Z.of_nat len)%Z) cols) \/
  (put_max (Z.of_nat start) (Z.of_nat len) cols D = Err IndexError /\ op_put_max start len cols D = Err IndexError).
Proof.
  induction cols as [|[j [item d]] cols IH]; intros D Hc Hl; [left; exists D; repeat split; constructor|]. apply Forall_cons_iff in Hc as [H1 H2]. cbn [fst snd] in H1. cbn [op_put_max put_max].
  unfold norm_index. destruct (Z.ltb_spec item 0); [lia|]. destruct (Z.leb_spec (Z.of_nat len) item).
  - right. destruct (Z.ltb_spec item (Z.of_nat len)); [lia|]. split; reflexivity.
  - destruct (Z.ltb_spec (Z.of_nat start + item) 0); [lia|]. destruct (Z.leb_spec (Z.of_nat (length D)) (Z.of_nat start + item)); [lia|]. destruct (Z.ltb_spec item (Z.of_nat len)); [|lia].
    replace (Z.to_nat (Z.of_nat start + item)) with (start + Z.to_nat item)%nat by lia.
    destruct (IH (set_cell (start + Z.to_nat item) j d D) H2) as [(D' & A & B & C & F)|[A B]]; [rewrite set_cell_length; exact Hl | left | right; split; assumption].
    exists D'. rewrite set_cell_length in C. repeat split; try assumption. constructor; assumption.
Qed.

Lemma combine_items {A} (w : list Z) (d : list A) P : length w = length d -> Forall (fun c : nat * (Z * A) => P (fst (snd c))) (combine (seq 0 (length d)) (combine w d)) -> Forall P w.
Proof.
  intros E. generalize 0%nat. revert d E. induction w as [|x w IH]; intros [|y d] E s H; try discriminate; constructor; cbn [length seq combine] in H; apply Forall_cons_iff in H as [H1 H2]; [exact H1|].
  eapply IH; [|exact H2]. cbn in E. lia.
Qed.

Lemma back_max_error lengths : forall O which (dY : rows) i start (D : rows),
  positive lengths -> Forall2 (fun w len => length w = O /\ Forall (fun i => (0 <= i)%Z) w) (skipn i which) lengths -> Forall (fun d => length d = O) dY -> length (skipn i dY) = length lengths ->
  (Z.of_nat start + zsum lengths <= Z.of_nat (length D))%Z ->
  Forall2 (fun w len => Forall (fun i => (i < len)%Z) w) (skipn i which) lengths \/
  cpu_backprop_reduce_max (Z.of_nat start) (skipn i dY) (skipn i which) lengths D = Err IndexError /\ op_backprop_max_loop start dY which i lengths D = Err IndexError.
Proof.
  induction lengths as [|len lengths IH]; intros O which dY i start D Hp Hw Hd El Hs; [left; inversion Hw; constructor|]. apply Forall_cons_iff in Hp as [Hp1 Hp2].
  cbn [zsum fold_right] in Hs. fold (zsum lengths) in Hs. assert (Hz : (0 <= zsum lengths)%Z) by (apply zsum_nonneg; eapply Forall_impl; [|exact Hp2]; cbn; intros; lia).
  destruct (skipn i which) as [|w wl] eqn:Ew; [inversion Hw|]. destruct (skipn i dY) as [|d dl] eqn:Ed; [discriminate|].
  assert (En : nth_error which i = Some w) by (rewrite <- (Nat.add_0_r i), <- nth_error_skipn, Ew; reflexivity).
  assert (En2 : nth_error dY i = Some d) by (rewrite <- (Nat.add_0_r i), <- nth_error_skipn, Ed; reflexivity).
  rewrite (skipn_nth_error _ _ _ En) in Ew. rewrite (skipn_nth_error _ _ _ En2) in Ed. apply (f_equal (@tl _)) in Ew, Ed. change (skipn (S i) which = wl) in Ew. change (skipn (S i) dY = dl) in Ed.
  cbn [op_backprop_max_loop cpu_backprop_reduce_max]. destruct (Z.leb_spec len 0); [lia|]. unfold py_get. rewrite En, En2. cbn [bind].
  inversion Hw as [|? ? ? ? [Hw0 Hw1] Hw2]. subst x y l l'.
  assert (Hdl : length d = O) by (rewrite Forall_forall in Hd; apply Hd; eapply nth_error_In; exact En2).
  destruct (put_max_nonneg start (Z.to_nat len) (combine (seq 0 (length d)) (combine w d)) D) as [(D' & A & B & C & F)|[A B]]; [exact (combine_snd_fst w d _ Hw1 _) | lia | |].
  - rewrite Z2Nat.id in A, F by lia. rewrite A, B. cbn [bind]. rewrite <- Ew, <- Ed in *. apply (combine_items w d (fun z => (z < len)%Z)) in F; [|congruence].
    destruct (IH O which dY (S i) (start + Z.to_nat len)%nat D') as [G|[G1 G2]]; try assumption; [cbn [length] in El; lia | lia | left; constructor; assumption | right].
    split; [|exact G2]. rewrite <- G1. f_equal. lia.
  - rewrite Z2Nat.id in A by lia. rewrite A, B. right. split; reflexivity.
Qed.

Lemma back_max_refuses dY which lengths : positive lengths -> wf_mat dY -> m_cols dY <> 0%nat -> m_len dY = length lengths ->
  Forall2 (fun w len => length w = m_cols dY /\ Forall (fun i => (0 <= i)%Z) w) which lengths ->
  ~ Forall2 (fun w len => Forall (fun i => (i < len)%Z) w) which lengths ->
  np_backprop_reduce_max dY which lengths = Err IndexError /\ op_backprop_reduce_max dY which lengths = Err IndexError.
Proof.
  intros Hp Hd Hc El Hw Hbad. assert (Hn : nonneg lengths) by (eapply Forall_impl; [|exact Hp]; cbn; intros; lia). pose proof (zsum_nonneg _ Hn) as Hz.
  destruct (back_max_error lengths (m_cols dY) which (m_rows dY) 0 0 (m_rows (mzeros (Z.to_nat (zsum lengths)) (m_cols dY)))) as [G|[G1 G2]]; try assumption; [cbn [mzeros m_rows]; rewrite repeat_length; lia | contradiction | ].
  unfold np_backprop_reduce_max, op_backprop_reduce_max. destruct (Z.ltb_spec (zsum lengths) 0); [lia|]. rewrite G2. split; [|reflexivity].
  replace (existsb (fun len => (len <=? 0)%Z) lengths) with false.
  2:{ symmetry. clear -Hp. induction Hp as [|x l Hx ? IH]; [reflexivity|]. cbn [existsb]. destruct (Z.leb_spec x 0); [lia | exact IH]. }
  destruct (Z.eqb_spec (zsum lengths) 0) as [E0|_].
  { destruct lengths as [|len lengths]; [exfalso; apply Hbad; inversion Hw; constructor|]. exfalso. apply Forall_cons_iff in Hp as [? Hp]. apply Forall_cons_iff in Hn as [? Hn]. pose proof (zsum_nonneg _ Hn). cbn [zsum fold_right] in E0. fold (zsum lengths) in E0. lia. }
  destruct (Nat.eqb_spec (m_cols dY) 0); [contradiction|]. cbn [orb].
  change (Z.of_nat 0) with 0%Z in G1. cbn [skipn] in G1. rewrite G1. destruct (m_rows dY) as [|? ?]; [reflexivity|]. destruct which; reflexivity.
Qed.

Lemma max_in_seqs O lengths : forall X : rows, positive lengths -> (zsum lengths <= Z.of_nat (length X))%Z ->
  in_seqs O (map (map snd) (map (max0 O) (seqs_of lengths X))) lengths.
Proof.
  induction lengths as [|n l IH]; intros X Hp Hs; [constructor|]. apply Forall_cons_iff in Hp as [Hp1 Hp2]. cbn [zsum fold_right] in Hs. fold (zsum l) in Hs.
  assert (Hz : (0 <= zsum l)%Z) by (apply zsum_nonneg; eapply Forall_impl; [|exact Hp2]; cbn; intros; lia).
  cbn [seqs_of map chop]. fold (seqs_of l (skipn (Z.to_nat n) X)). constructor; [|apply IH; [exact Hp2 | rewrite skipn_length; lia]].
  change (max0 O (firstn (Z.to_nat n) X)) with (vec O (fun j => argmax (col 0 j (firstn (Z.to_nat n) X)))). rewrite map_vec. split; [apply vec_length|].
  unfold vec. apply Forall_map. apply Forall_forall. intros j _.
  assert (El : length (col 0 j (firstn (Z.to_nat n) X)) = Z.to_nat n) by (unfold col; rewrite map_length, firstn_length; lia).
  destruct (argmax_ok (col 0 j (firstn (Z.to_nat n) X))) as (A & B & _); [intros E; rewrite E in El; cbn in El; lia|].
  apply (f_equal (fun o => match o with Some _ => true | None => false end)) in B. pose proof (nth_error_Some (col 0 j (firstn (Z.to_nat n) X)) (Z.to_nat (snd (argmax (col 0 j (firstn (Z.to_nat n) X)))))) as [G _].
  assert (Hg : nth_error (col 0 j (firstn (Z.to_nat n) X)) (Z.to_nat (snd (argmax (col 0 j (firstn (Z.to_nat n) X))))) <> None) by (intros E; rewrite E in B; discriminate). specialize (G Hg). lia.
Qed.
Lemma select_max O lengths : forall X : rows, positive lengths -> (zsum lengths <= Z.of_nat (length X))%Z ->
  select (map (map snd) (map (max0 O) (seqs_of lengths X))) (seqs_of lengths X) = map (map fst) (map (max0 O) (seqs_of lengths X)).
Proof.
  induction lengths as [|n l IH]; intros X Hp Hs; [reflexivity|]. apply Forall_cons_iff in Hp as [Hp1 Hp2]. cbn [zsum fold_right] in Hs. fold (zsum l) in Hs.
  assert (Hz : (0 <= zsum l)%Z) by (apply zsum_nonneg; eapply Forall_impl; [|exact Hp2]; cbn; intros; lia).
  cbn [seqs_of map chop]. fold (seqs_of l (skipn (Z.to_nat n) X)). unfold select in *. cbn [combine map fst snd]. f_equal; [|apply IH; [exact Hp2 | rewrite skipn_length; lia]].
  change (max0 O (firstn (Z.to_nat n) X)) with (vec O (fun j => argmax (col 0 j (firstn (Z.to_nat n) X)))). rewrite !map_vec, vec_length.
  rewrite <- (map_id (seq 0 O)). fold (vec O (fun x => x)). rewrite combine_vec, map_vec. apply vec_ext. intros j Hj. cbn [fst snd].
  assert (El : length (col 0 j (firstn (Z.to_nat n) X)) = Z.to_nat n) by (unfold col; rewrite map_length, firstn_length; lia).
  destruct (argmax_ok (col 0 j (firstn (Z.to_nat n) X))) as (A & B & _); [intros E; rewrite E in El; cbn in El; lia|].
  revert B. generalize (argmax (col 0 j (firstn (Z.to_nat n) X))) as p. intros [m w] B. cbn [fst snd] in *. unfold col in B. revert B. generalize (firstn (Z.to_nat n) X). intros s B.
  rewrite nth_error_map in B. destruct (nth_error s (Z.to_nat w)) as [r|] eqn:Er; [|discriminate]. injection B as <-. now rewrite (nth_error_nth_some _ _ _ [] Er).
Qed.

(** The positions the forward pass returns are the ones the backward pass accepts, and they select the maxima. *)
Lemma max_roundtrip X lengths Y which : wf_mat X -> m_cols X <> 0%nat -> m_rows X <> [] -> positive lengths -> (zsum lengths <= Z.of_nat (m_len X))%Z ->
  np_reduce_max X lengths = Ok (Y, which) -> in_seqs (m_cols X) which lengths /\ m_rows Y = select which (seqs_of lengths (m_rows X)).
Proof.
  intros Hw Hc Hr Hp Hs. rewrite max_backends by assumption. unfold op_reduce_max. rewrite op_max_ok by (try assumption; unfold m_len in *; lia). cbn [bind skipn]. fold (seqs_of lengths (m_rows X)).
  intros E. injection E as <- <-. split; [now apply max_in_seqs|]. cbn [m_rows]. symmetry. now apply select_max.
Qed.
