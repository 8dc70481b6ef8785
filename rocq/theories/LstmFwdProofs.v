(** The LSTM forward kernels. *)
From Coq Require Import Reals Lra Lia.
From Verif Require Import NumR MatSpec MatProofs BaseFacts CombProofs CombBuiltProofs MkProofs LstmProofs ActProofs.
From Verif Require Import LstmModel LstmSpec LstmKernelModel LstmKernelSpec.
Set Default Goal Selector "!".
Local Open Scope nat_scope.

(** ** Splicing *)
Lemma splice_length {A} start (new l : list A) : start + length new <= length l -> length (splice start new l) = length l.
Proof. intros E. unfold splice. rewrite !app_length, firstn_length, skipn_length. lia. Qed.
Lemma nth_skipn {A} n r (l : list A) d : nth r (skipn n l) d = nth (n + r) l d.
Proof. revert l. induction n as [|n IH]; intros l; [reflexivity|]. destruct l as [|x l]; [now destruct r|]. cbn. apply IH. Qed.
Lemma nth_firstn {A} n r (l : list A) d : r < n -> nth r (firstn n l) d = nth r l d.
Proof. revert r l. induction n as [|n IH]; intros r l Hr; [lia|]. destruct l as [|x l]; [now destruct r|]. destruct r as [|r]; [reflexivity|]. cbn. apply IH. lia. Qed.
Lemma splice_in {A} start (new l : list A) k d : start <= length l -> k < length new -> nth (start + k) (splice start new l) d = nth k new d.
Proof.
  intros E Hk. unfold splice. rewrite app_nth2; rewrite firstn_length, Nat.min_l by lia; [|lia]. replace (start + k - start) with k by lia. now rewrite app_nth1.
Qed.
Lemma splice_out {A} start (new l : list A) r d : start + length new <= length l -> r < start \/ start + length new <= r -> nth r (splice start new l) d = nth r l d.
Proof.
  intros E [Hr|Hr]; unfold splice.
  - rewrite app_nth1 by (rewrite firstn_length; lia). now apply nth_firstn.
  - rewrite app_nth2; rewrite firstn_length, Nat.min_l by lia; [|lia]. rewrite app_nth2 by lia. rewrite nth_skipn. f_equal. lia.
Qed.

(** ** The time steps *)
Definition rows_in (b : nat) (order : list (nat * nat)) : list nat := flat_map (fun p => if Nat.ltb b (snd p) then [fst p + b] else []) order.
Definition out (r : nat) (order : list (nat * nat)) : Prop := Forall (fun p => r < fst p \/ fst p + snd p <= r) order.
Definition apart (p q : nat * nat) : Prop := fst p + snd p <= fst q \/ fst q + snd q <= fst p.
Fixpoint disjoint (order : list (nat * nat)) : Prop := match order with [] => True | p :: l => Forall (apart p) l /\ disjoint l end.
Lemma rows_in_out b order p : Forall (apart p) order -> forall r, In r (rows_in b order) -> r < fst p \/ fst p + snd p <= r.
Proof.
  intros F r Hr. unfold rows_in in Hr. apply in_flat_map in Hr as (q & Hq & Hr). rewrite Forall_forall in F. specialize (F q Hq). unfold apart in F.
  destruct (Nat.ltb_spec b (snd q)); [|contradiction]. destruct Hr as [<-|[]]. lia.
Qed.
Lemma disjoint_app a b : disjoint (a ++ b) <-> disjoint a /\ disjoint b /\ Forall (fun p => Forall (apart p) b) a.
Proof.
  induction a as [|p a IH]; cbn [app disjoint]; [split; [intros H; repeat split; [exact H|constructor]|tauto]|].
  rewrite IH, Forall_app, Forall_cons_iff. tauto.
Qed.
Lemma disjoint_rev l : disjoint l -> disjoint (rev l).
Proof.
  induction l as [|p l IH]; [trivial|]. intros [F D]. cbn [rev]. apply disjoint_app. split; [now apply IH|]. split; [cbn; auto|].
  apply Forall_rev. eapply Forall_impl; [|exact F]. intros q H. constructor; [|constructor]. destruct H; [right|left]; assumption.
Qed.
Definition total (lengths : list nat) : nat := fold_right Nat.add 0 lengths.
Lemma order_ltr_bound B : forall lengths s, Forall (fun n => n <= B) lengths -> Forall (fun p => s <= fst p /\ snd p <= B /\ fst p + snd p <= s + total lengths) (order_ltr s lengths).
Proof.
  induction lengths as [|n l IH]; intros s F; [constructor|]. apply Forall_cons_iff in F as [F1 F2]. cbn [order_ltr total fold_right]. fold (total l). constructor; [cbn; lia|].
  eapply Forall_impl; [|exact (IH (s + n) F2)]. cbn. intros p Hp. lia.
Qed.
Lemma order_ltr_disjoint : forall lengths s, disjoint (order_ltr s lengths).
Proof.
  induction lengths as [|n l IH]; intros s; [exact I|]. cbn [order_ltr disjoint]. split; [|apply IH].
  assert (F : Forall (fun n => n <= total l) l).
  { clear. induction l as [|n l IH]; [constructor|]. cbn [total fold_right]. fold (total l). constructor; [lia|]. eapply Forall_impl; [|exact IH]. cbn. intros a Ha. lia. }
  eapply Forall_impl; [|exact (order_ltr_bound (total l) l (s + n) F)]. intros p Hp. cbv beta in Hp. left. cbn [fst snd]. lia.
Qed.
Lemma order_rtl_app : forall a b q, total a <= q -> order_rtl q (a ++ b) = bind (order_rtl q a) (fun r => bind (order_rtl (q - total a) b) (fun r' => Ok (r ++ r'))).
Proof.
  induction a as [|n a IH]; intros b q Hq; cbn [app order_rtl total fold_right bind].
  - rewrite Nat.sub_0_r. now destruct (order_rtl q b).
  - fold (total a) in *. cbn [total fold_right] in Hq. fold (total a) in Hq. destruct (Nat.ltb_spec q n); [lia|]. rewrite IH by lia. destruct (order_rtl (q - n) a) as [r|e]; [|reflexivity]. cbn [bind].
    replace (q - n - total a) with (q - (n + total a)) by lia. now destruct (order_rtl (q - (n + total a)) b).
Qed.
Lemma total_app a b : total (a ++ b) = total a + total b.
Proof. induction a as [|n a IH]; [reflexivity|]. cbn [app total fold_right]. fold (total (a ++ b)) (total a). lia. Qed.
Lemma total_rev l : total (rev l) = total l.
Proof. induction l as [|n l IH]; [reflexivity|]. cbn [rev]. rewrite total_app, IH. cbn [total fold_right]. fold (total l). lia. Qed.
Lemma order_rtl_rev : forall l s, order_rtl (s + total l) (rev l) = Ok (rev (order_ltr s l)).
Proof.
  induction l as [|n l IH]; intros s; [reflexivity|]. cbn [rev order_ltr]. rewrite order_rtl_app by (rewrite total_rev; cbn [total fold_right]; fold (total l); lia).
  cbn [total fold_right]. fold (total l). replace (s + (n + total l)) with (s + n + total l) by lia. rewrite IH. cbn [bind order_rtl]. rewrite total_rev.
  replace (s + n + total l - total l) with (s + n) by lia. destruct (Nat.ltb_spec (s + n) n); [lia|]. cbn [bind]. now replace (s + n - n) with s by lia.
Qed.
Lemma rows_in_ltr b : forall l s, rows_in b (order_ltr s l) = rows_of b s l.
Proof. induction l as [|n l IH]; intros s; [reflexivity|]. cbn [order_ltr rows_of]. unfold rows_in. cbn [flat_map fst snd]. fold (rows_in b (order_ltr (s + n) l)). now rewrite IH. Qed.
Lemma rows_in_rev b l : rows_in b (rev l) = rev (rows_in b l).
Proof.
  induction l as [|p l IH]; [reflexivity|]. cbn [rev]. unfold rows_in in *. rewrite flat_map_app, IH. cbn [flat_map]. rewrite rev_app_distr, app_nil_r. f_equal. now destruct (b <? snd p).
Qed.

Section Steps.
  Variables (nO N B : nat) (Wh : list (list R)) (bias : list R).
  Fixpoint run_cells (y c : list R) (gxs : list (list R)) : list (list R * list R * list R) :=
    match gxs with [] => [] | gx :: gxs => let r := lstm_cell nO Wh bias gx y c in r :: run_cells (snd (fst r)) (snd r) gxs end.
  Definition three (s : dir_state R) (r : nat) : list R * list R * list R := (nth r (d_G s) [], nth r (d_Y s) [], nth r (d_C s) []).
  Lemma steps_ok : forall order s y2 c2, length y2 = B -> length c2 = B -> Forall (fun p => snd p <= B /\ fst p + snd p <= N) order -> disjoint order ->
    length (d_G s) = N -> length (d_Y s) = N -> length (d_C s) = N ->
    exists s', np_steps nO N Wh bias order s y2 c2 = Ok s' /\ length (d_G s') = N /\ length (d_Y s') = N /\ length (d_C s') = N /\
      (forall r, out r order -> three s' r = three s r) /\
      forall b, b < B -> map (three s') (rows_in b order) = run_cells (nth b y2 []) (nth b c2 []) (map (fun r => nth r (d_G s) []) (rows_in b order)).
  Proof.
    induction order as [|[st n] order IH]; intros s y2 c2 Ly Lc F D LG LY LC; [exists s; split; [reflexivity|]; split; [exact LG|]; split; [exact LY|]; split; [exact LC|]; split; intros; reflexivity|].
    apply Forall_cons_iff in F as [[F1 F2] F]. cbn [fst snd] in F1, F2. destruct D as [A D]. cbn [np_steps].
    rewrite Ly. destruct (Nat.ltb_spec B n); [lia|]. destruct (Nat.ltb_spec N (st + n)); [lia|]. cbn [orb].
    set (cells := map (fun k => lstm_cell nO Wh bias (nth (st + k) (d_G s) []) (nth k y2 []) (nth k c2 [])) (seq 0 n)).
    assert (Ln : forall A (f : list R * list R * list R -> A), length (map f cells) = n) by (intros A' f; unfold cells; now rewrite !map_length, seq_length).
    assert (Nc : forall A (f : list R * list R * list R -> A) d k, k < n -> nth k (map f cells) d = f (lstm_cell nO Wh bias (nth (st + k) (d_G s) []) (nth k y2 []) (nth k c2 []))).
    { intros A' f d k Hk. unfold cells. rewrite map_map. rewrite (nth_indep _ d (f (lstm_cell nO Wh bias (nth (st + 0) (d_G s) []) (nth 0 y2 []) (nth 0 c2 [])))) by (now rewrite map_length, seq_length).
      rewrite (map_nth (fun k => f (lstm_cell nO Wh bias (nth (st + k) (d_G s) []) (nth k y2 []) (nth k c2 []))) (seq 0 n) 0 k). now rewrite seq_nth. }
    set (s1 := mkDir _ _ _). set (y3 := map (fun r => snd (fst r)) cells). set (c3 := map snd cells).
    destruct (IH s1 (y3 ++ skipn n y2) (c3 ++ skipn n c2)) as (s' & E & G1 & G2 & G3 & Ho & Hr); try exact F; try exact D.
    - rewrite app_length, skipn_length. unfold y3. rewrite Ln. lia.
    - rewrite app_length, skipn_length. unfold c3. rewrite Ln. lia.
    - unfold s1. cbn [d_G]. rewrite splice_length; rewrite ?Ln; lia.
    - unfold s1. cbn [d_Y]. rewrite splice_length; rewrite ?Ln; lia.
    - unfold s1. cbn [d_C]. rewrite splice_length; rewrite ?Ln; lia.
    - assert (T1 : forall r, r < st \/ st + n <= r -> three s1 r = three s r).
      { intros r Hr'. unfold three, s1. cbn [d_G d_Y d_C]. rewrite !splice_out; try reflexivity; rewrite ?Ln; lia. }
      assert (T2 : forall k, k < n -> three s1 (st + k) = lstm_cell nO Wh bias (nth (st + k) (d_G s) []) (nth k y2 []) (nth k c2 [])).
      { intros k Hk. unfold three, s1. cbn [d_G d_Y d_C]. rewrite !splice_in; rewrite ?Ln; try lia. rewrite !Nc by exact Hk. now destruct (lstm_cell _ _ _ _ _ _) as [[? ?] ?]. }
      exists s'. split; [exact E|]. repeat (split; [assumption|]). split.
      + intros r Hr'. apply Forall_cons_iff in Hr' as [H1 H2]. rewrite (Ho r H2). now apply T1.
      + intros b Hb. unfold rows_in. cbn [flat_map fst snd]. fold (rows_in b order).
        assert (Eg : map (fun r => nth r (d_G s1) []) (rows_in b order) = map (fun r => nth r (d_G s) []) (rows_in b order)).
        { apply map_ext_in. intros r Hr'. apply (rows_in_out b order _ A) in Hr'. specialize (T1 r Hr'). unfold three in T1. congruence. }
        destruct (Nat.ltb_spec b n) as [Hn|Hn].
        * cbn [app map run_cells]. rewrite (Ho (st + b)); [|eapply Forall_impl; [|exact A]; intros q [Q|Q]; cbn in Q; lia]. rewrite (T2 b Hn). f_equal. rewrite (Hr b Hb), Eg.
          rewrite !app_nth1 by (unfold y3, c3; rewrite Ln; lia). unfold y3, c3. now rewrite !Nc.
        * cbn [app]. rewrite (Hr b Hb), Eg. rewrite !app_nth2 by (unfold y3, c3; rewrite Ln; lia). unfold y3, c3. rewrite !Ln, !nth_skipn. now replace (n + (b - n)) with b by lia.
  Qed.
End Steps.

(** ** One cell *)
Lemma nth_flat4 {A} (f0 f1 f2 f3 : nat -> A) d : forall n s o, o < n ->
  let l := flat_map (fun o => [f0 o; f1 o; f2 o; f3 o]) (seq s n) in
  nth (4 * o) l d = f0 (s + o) /\ nth (4 * o + 1) l d = f1 (s + o) /\ nth (4 * o + 2) l d = f2 (s + o) /\ nth (4 * o + 3) l d = f3 (s + o).
Proof.
  induction n as [|n IH]; intros s o Ho; [lia|]. cbn [seq flat_map]. destruct o as [|o]; [rewrite Nat.add_0_r; repeat split|]. replace (4 * S o) with (4 + 4 * o) by lia. cbn [Nat.add app nth].
  destruct (IH (S s) o) as (H1 & H2 & H3 & H4); [lia|]. replace (s + S o) with (S s + o) by lia. cbn zeta in *. repeat split; assumption.
Qed.
Lemma gate_flat (f0 f1 f2 f3 : nat -> R) n o : o < n ->
  let l := flat_map (fun o => [f0 o; f1 o; f2 o; f3 o]) (seq 0 n) in gate l o 0 = f0 o /\ gate l o 1 = f1 o /\ gate l o 2 = f2 o /\ gate l o 3 = f3 o.
Proof. intros Ho. unfold gate. rewrite Nat.add_0_r. apply (nth_flat4 f0 f1 f2 f3 (nZ 0) n 0 o Ho). Qed.
Local Open Scope R_scope.
Lemma nth_row_add (a b : list R) k : (k < length a)%nat -> (k < length b)%nat -> nth k (row_add a b) 0 = nth k a 0 + nth k b 0.
Proof.
  intros Ha Hb. unfold row_add, vmap2. rewrite (nth_indep _ 0 ((fun p => nadd (fst p) (snd p)) (0, 0))) by (rewrite map_length, combine_length; lia).
  rewrite (map_nth (fun p => nadd (fst p) (snd p)) (combine a b) (0, 0) k). revert b k Ha Hb. induction a as [|x a IH]; intros [|y b] [|k] Ha Hb; cbn in *; try lia; [reflexivity|]. apply IH; lia.
Qed.
Lemma row_add_length (a b : list R) : length (row_add a b) = Nat.min (length a) (length b).
Proof. unfold row_add, vmap2. now rewrite map_length, combine_length. Qed.
Lemma times_length (W : list (list R)) x : length (times W x) = length W.
Proof. apply map_length. Qed.
Lemma nth_times (W : list (list R)) x k : (k < length W)%nat -> nth k (times W x) 0 = dot x (nth k W []).
Proof.
  intros Hk. unfold times. rewrite (nth_indep _ 0 ((fun w => nsum (vmap2 nmul x w)) [])) by (now rewrite map_length). rewrite (map_nth (fun w => nsum (vmap2 nmul x w))). now rewrite nsum_msum.
Qed.
Lemma logistic_c_R (x : R) : logistic_c x = logistic x.
Proof. unfold logistic_c, logistic. cbn. f_equal. ring. Qed.
Lemma nth_map_seq {A} (f : nat -> A) d n o : (o < n)%nat -> nth o (map f (seq 0 n)) d = f o.
Proof. intros Ho. rewrite (nth_indep _ d (f 0%nat)) by (now rewrite map_length, seq_length). rewrite (map_nth f). now rewrite seq_nth. Qed.
Lemma cell_step nO nI (w : triple R) x y c : triple_shape nO nI w ->
  exists g, lstm_cell nO (m_rows (snd (fst w))) (snd w) (times (m_rows (fst (fst w))) x) y c = (g, fst (lstm_step nO w x y c), snd (lstm_step nO w x y c)).
Proof.
  intros ((_ & L1 & _) & (_ & L2 & _) & L3). destruct w as [[Wx Wh] b]. cbn [fst snd] in *. unfold lstm_cell. eexists. f_equal; [f_equal|].
  - unfold lstm_gates_fwd, lstm_step. cbn [fst snd]. apply map_ext_in. intros o Ho. apply in_seq in Ho. rewrite (nth_map_seq _ _ nO o) by lia.
    set (a := row_add _ _). assert (P : forall k, (k < 4)%nat -> gate a o k = preact (Wx, Wh, b) x y (4 * o + k)).
    { intros k Hk. unfold gate, a, preact. cbn [fst snd nZ num_R]. rewrite nth_row_add; [rewrite nth_row_add| |]; rewrite ?row_add_length, ?times_length; try lia. rewrite !nth_times by lia. reflexivity. }
    unfold lstm_activate_fwd. destruct (gate_flat (fun o => logistic_c (gate a o 0)) (fun o => logistic_c (gate a o 1)) (fun o => logistic_c (gate a o 2)) (fun o => ntanh (gate a o 3)) nO o) as (G0 & G1 & G2 & G3); [lia|].
    cbn zeta in *. rewrite G0, G1, G2, G3, !logistic_c_R, !P by lia. unfold next_cell. rewrite Nat.add_0_r. reflexivity.
  - unfold lstm_gates_fwd, lstm_step. cbn [fst snd]. apply map_ext_in. intros o Ho. apply in_seq in Ho.
    set (a := row_add _ _). assert (P : forall k, (k < 4)%nat -> gate a o k = preact (Wx, Wh, b) x y (4 * o + k)).
    { intros k Hk. unfold gate, a, preact. cbn [fst snd nZ num_R]. rewrite nth_row_add; [rewrite nth_row_add| |]; rewrite ?row_add_length, ?times_length; try lia. rewrite !nth_times by lia. reflexivity. }
    unfold lstm_activate_fwd. destruct (gate_flat (fun o => logistic_c (gate a o 0)) (fun o => logistic_c (gate a o 1)) (fun o => logistic_c (gate a o 2)) (fun o => ntanh (gate a o 3)) nO o) as (G0 & G1 & G2 & G3); [lia|].
    cbn zeta in *. rewrite G0, G1, G3, !logistic_c_R, !P by lia. unfold next_cell. rewrite Nat.add_0_r. reflexivity.
Qed.
Lemma run_step nO nI (w : triple R) : triple_shape nO nI w -> forall xs y c,
  map (fun r => snd (fst r)) (run_cells nO (m_rows (snd (fst w))) (snd w) y c (map (times (m_rows (fst (fst w)))) xs)) = lstm_run nO w y c xs.
Proof.
  intros Hw. induction xs as [|x xs IH]; intros y c; [reflexivity|]. cbn [map run_cells lstm_run]. destruct (cell_step nO nI w x y c Hw) as (g & E). rewrite E. cbn [fst snd]. now rewrite IH.
Qed.

(** ** One direction *)
Local Open Scope nat_scope.
Lemma rows_of_bound b : forall l s r, In r (rows_of b s l) -> s <= r < s + total l.
Proof.
  induction l as [|n l IH]; intros s r; [intros []|]. cbn [rows_of total fold_right]. fold (total l). rewrite in_app_iff. intros [H|H].
  - destruct (Nat.ltb_spec b n); [|contradiction]. destruct H as [<-|[]]. lia.
  - specialize (IH _ _ H). lia.
Qed.
Lemma nth_map_rows (f : list R -> list R) X r : r < length X -> nth r (map f X) [] = f (nth r X []).
Proof. intros Hr. rewrite (nth_indep _ [] (f [])) by (now rewrite map_length). apply map_nth. Qed.
Lemma rev_map_take (X : list (list R)) l : take X (rev l) = rev (take X l). Proof. apply map_rev. Qed.
Lemma dir_fwd_ok d nO nI (X : list (list R)) w lengths batch h0 c0 : triple_shape nO nI w -> total lengths = length X -> Forall (fun n => n <= batch) lengths ->
  exists s, np_dir_fwd d nO X w lengths batch h0 c0 = Ok s /\ (length (d_G s) = length X /\ length (d_C s) = length X) /\
    forall b, b < batch -> take (d_Y s) (rows_of b 0 lengths) = dir_run d nO w h0 c0 (take X (rows_of b 0 lengths)).
Proof.
  intros Hw Ht Hl. destruct w as [[Wx Wh] bias] eqn:Ew. unfold np_dir_fwd.
  set (order := match d with 0 => order_ltr 0 lengths | S _ => rev (order_ltr 0 lengths) end).
  assert (Eo : np_order d (length X) lengths = Ok order).
  { unfold order, np_order. destruct d; [reflexivity|]. rewrite <- Ht. apply (order_rtl_rev lengths 0). }
  rewrite Eo. cbn [bind].
  pose proof (order_ltr_bound batch lengths 0 Hl) as Bo. pose proof (order_ltr_disjoint lengths 0) as Do.
  assert (F : Forall (fun p => snd p <= batch /\ fst p + snd p <= length X) order).
  { assert (F0 : Forall (fun p => snd p <= batch /\ fst p + snd p <= length X) (order_ltr 0 lengths)) by (eapply Forall_impl; [|exact Bo]; cbn; intros p Hp; lia).
    unfold order. destruct d; [exact F0|now apply Forall_rev]. }
  assert (D : disjoint order) by (unfold order; destruct d; [exact Do|now apply disjoint_rev]).
  destruct (steps_ok nO (length X) batch (m_rows Wh) bias order (mkDir (map (times (m_rows Wx)) X) (zero_rows (length X) nO) (zero_rows (length X) nO)) (repeat h0 batch) (repeat c0 batch)) as (s & E & L1 & L2 & L3 & _ & Hr);
    try (apply repeat_length); try assumption; [apply map_length|].
  exists s. split; [exact E|]. split; [split; [exact L1|exact L3]|]. intros b Hb. specialize (Hr b Hb).
  assert (N0 : forall v : list R, nth b (repeat v batch) [] = v).
  { intros v. rewrite (nth_indep _ [] v) by (now rewrite repeat_length). apply nth_repeat. }
  rewrite !N0 in Hr. cbn [d_G] in Hr.
  assert (G : forall l, (forall r, In r l -> r < length X) -> map (fun r => nth r (map (times (m_rows Wx)) X) []) l = map (times (m_rows Wx)) (take X l)).
  { intros l Hin. unfold take. rewrite map_map. apply map_ext_in. intros r Hin'. now apply nth_map_rows, Hin. }
  assert (In0 : forall r, In r (rows_of b 0 lengths) -> r < length X) by (intros r Hin; apply rows_of_bound in Hin; lia).
  apply (f_equal (map (fun r => snd (fst r)))) in Hr. rewrite map_map in Hr. unfold three in Hr at 1. cbn [fst snd] in Hr.
  pose proof (run_step nO nI (Wx, Wh, bias) Hw) as RS. cbn [fst snd] in RS.
  unfold order in Hr. destruct d as [|d].
  - rewrite rows_in_ltr in Hr. rewrite (G _ In0), RS in Hr. exact Hr.
  - rewrite rows_in_rev, rows_in_ltr in Hr. rewrite G in Hr by (intros r Hin; apply In0; now apply in_rev). rewrite RS in Hr.
    change (map (fun x => nth x (d_Y s) []) (rev (rows_of b 0 lengths))) with (take (d_Y s) (rev (rows_of b 0 lengths))) in Hr. rewrite !rev_map_take in Hr. cbn [dir_run].
    rewrite <- Hr. now rewrite rev_involutive.
Qed.

(** ** Layers *)
Lemma nth_take (H : list (list R)) l t : t < length l -> nth t (take H l) [] = nth (nth t l 0) H [].
Proof. intros Ht. unfold take. rewrite (nth_indep _ [] (nth (nth 0 l 0) H [])) by (now rewrite map_length). rewrite (nth_indep _ _ ((fun r => nth r H []) 0)) by (now rewrite map_length). apply (map_nth (fun r => nth r H [])). Qed.
Lemma take_join (ys : list (list (list R))) N l : (forall r, In r l -> r < N) ->
  take (map (fun n => concat (map (fun y => nth n y []) ys)) (seq 0 N)) l = map (fun t => concat (map (fun y => nth t y []) (map (fun y => take y l) ys))) (seq 0 (length l)).
Proof.
  intros Hin. apply nth_ext with (d := []) (d' := []).
  - unfold take. now rewrite !map_length, seq_length.
  - intros t Ht. unfold take in Ht at 1. rewrite map_length in Ht. rewrite nth_take by exact Ht. rewrite nth_map_seq by (apply Hin, nth_In, Ht). rewrite nth_map_seq by exact Ht. f_equal. rewrite map_map. apply map_ext_in. intros y _.
    now rewrite nth_take.
Qed.
Definition no_triple : triple R := (mkM 0 [], mkM 0 [], []).
Lemma dirs_fwd_ok params i nO nI (X : list (list R)) lengths batch h c : total lengths = length X -> Forall (fun n => n <= batch) lengths ->
  forall dirs d params_i ps e ws, split_dirs params dirs nO nI params_i = Ok (ps, e) -> mapM transpose_weights ps = Ok ws -> Forall (triple_shape nO nI) ws ->
  exists ss, np_dirs_fwd params i d dirs nO nI X lengths batch h c params_i = Ok (ss, e) /\ (length ss = length ws /\ Forall (fun s => length (d_G s) = length X /\ length (d_C s) = length X) ss) /\
    forall b, b < batch -> map (fun s => take (d_Y s) (rows_of b 0 lengths)) ss =
      map (fun k => dir_run (d + k) nO (nth k ws no_triple) (nth (d + k) (nth i h []) []) (nth (d + k) (nth i c []) []) (take X (rows_of b 0 lengths))) (seq 0 (length ws)).
Proof.
  intros Ht Hl. induction dirs as [|dirs IH]; intros d params_i ps e ws Es Em F; cbn [split_dirs np_dirs_fwd] in *.
  - injection Es as <- <-. injection Em as <-. exists []. split; [reflexivity|]. split; [split; [reflexivity|constructor]|reflexivity].
  - destruct (split_weights params nO nI params_i) as [[p pi]|er]; [|discriminate Es]. cbn [bind fst snd] in *. destruct (split_dirs params dirs nO nI pi) as [[ps' e']|er] eqn:E2; [|discriminate Es]. cbn [bind fst snd] in Es. injection Es as <- <-.
    cbn [mapM] in Em. destruct (transpose_weights p) as [w|er]; [|discriminate Em]. cbn [bind] in *. destruct (mapM transpose_weights ps') as [ws'|er] eqn:E3; [|discriminate Em]. cbn [bind] in Em. injection Em as <-.
    apply Forall_cons_iff in F as [F1 F2]. destruct (dir_fwd_ok d nO nI X w lengths batch (init_row h i d) (init_row c i d) F1 Ht Hl) as (s & E & Ls & Hs).
    destruct (IH (S d) pi ps' e' ws' E2 E3 F2) as (ss & E4 & [Lss Fss] & Hss). rewrite E. cbn [bind]. rewrite E4. cbn [bind fst snd]. exists (s :: ss). split; [reflexivity|]. split; [split; [cbn; lia|now constructor]|]. intros b Hb. cbn [map length seq]. rewrite Nat.add_0_r. f_equal; [apply (Hs b Hb)|].
    rewrite (Hss b Hb), <- seq_shift, map_map. apply map_ext. intros k. cbn [nth]. now replace (d + S k) with (S d + k) by lia.
Qed.
Lemma layers_fwd_ok params lengths batch h c nO dirs : Forall (fun n => n <= batch) lengths -> total lengths <> 0 ->
  forall depth i nI X params_i ps e ws, total lengths = length X -> split_layers params depth dirs nO nI params_i = Ok (ps, e) -> mapM (mapM transpose_weights) ps = Ok ws -> layers_shape triple_shape depth dirs nO nI ws ->
  exists ss H, np_layers_fwd params i depth dirs nO nI X lengths batch h c params_i = Ok (ss, H) /\ length H = length X /\ states_ok (length X) depth dirs ss /\
    forall b, b < batch -> take H (rows_of b 0 lengths) = network nO i ws h c (take X (rows_of b 0 lengths)).
Proof.
  intros Hl H0. induction depth as [|depth IH]; intros i nI X params_i ps e ws Ht Es Em Sh; cbn [split_layers np_layers_fwd] in *.
  - injection Es as <- <-. injection Em as <-. exists [], X. repeat split. constructor.
  - destruct (split_dirs params dirs nO nI params_i) as [[p pi]|er] eqn:E1; [|discriminate Es]. cbn [bind fst snd] in *. destruct (split_layers params depth dirs nO (nO * dirs) pi) as [[ps' e']|er] eqn:E2; [|discriminate Es]. cbn [bind fst snd] in Es. injection Es as <- <-.
    cbn [mapM] in Em. destruct (mapM transpose_weights p) as [w|er] eqn:E3; [|discriminate Em]. cbn [bind] in *. destruct (mapM (mapM transpose_weights) ps') as [ws'|er] eqn:E4; [|discriminate Em]. cbn [bind] in Em. injection Em as <-.
    destruct Sh as (L & F & Sh). destruct (dirs_fwd_ok params i nO nI X lengths batch h c Ht Hl dirs 0 params_i p pi w E1 E3 F) as (ss & E & [Lss Fss] & Hs). rewrite E. cbn [bind fst snd]. unfold join_dirs.
    destruct (Nat.eqb_spec (length X) 0); [lia|]. cbn [bind].
    set (H := map (fun n => concat (map (fun y => nth n y []) (map d_Y ss))) (seq 0 (length X))). assert (LH : length H = length X) by (unfold H; now rewrite map_length, seq_length).
    destruct (IH (S i) (nO * dirs) H pi ps' e' ws') as (ss' & H' & E5 & L5 & L6 & H5); [lia|exact E2|exact E4|exact Sh|]. rewrite (Nat.mul_comm dirs nO), E5. cbn [bind fst snd].
    exists (ss :: ss'), H'. split; [reflexivity|]. split; [lia|]. rewrite LH in L6. split; [destruct L6; split; [cbn; lia|]; constructor; [split; [lia|]|]; assumption|]. intros b Hb. rewrite (H5 b Hb). cbn [network]. f_equal. unfold H. rewrite take_join by (intros r Hr; apply rows_of_bound in Hr; lia).
    unfold layer_run. assert (Lt : length (take X (rows_of b 0 lengths)) = length (rows_of b 0 lengths)) by apply map_length. rewrite Lt. clear Lt. apply map_ext. intros t. f_equal. f_equal. rewrite map_map. apply (Hs b Hb).
Qed.
(** The outputs of each sequence of a batch are those of the equations. *)
Lemma np_forward_ok depth dirs nO nI (params : list R) H0 C0 X batch lengths : depth <> 0 -> dirs <> 0 -> nO <> 0 -> nI <> 0 -> length params = lstm_size depth dirs nO nI ->
  m_cols X = nI -> fold_right Nat.add 0 (batch :: lengths) = length (m_rows X) -> batch <> 0 -> Forall (fun n => n <= batch) lengths ->
  exists ws Y states, all_layer_params params depth dirs nO nI = Ok ws /\ np_lstm depth dirs nO params H0 C0 X (batch :: lengths) = Ok (Y, states) /\ length (m_rows Y) = length (m_rows X) /\ m_cols Y = dirs * nO /\ states_ok (length (m_rows X)) depth dirs states /\
    forall b, b < batch -> take (m_rows Y) (rows_of b 0 (batch :: lengths)) = network nO 0 ws C0 H0 (take (m_rows X) (rows_of b 0 (batch :: lengths))).
Proof.
  intros Hd Hdi HO HI Lp Hc Ht Hb Hl. destruct (join_back depth dirs nO nI params HO HI Hdi Lp) as (ps & ws & v & E1 & E2 & Sh & _). exists ws.
  pose proof E2 as E3. unfold all_layer_params in E3. rewrite E1 in E3. cbn [bind fst] in E3.
  destruct (layers_fwd_ok params (batch :: lengths) batch C0 H0 nO dirs) with (depth := depth) (i := 0) (nI := nI) (X := m_rows X) (params_i := 0) (ps := ps) (e := length params) (ws := ws) as (ss & H & E & L & Ls & Hr); try assumption.
  - constructor; [lia|exact Hl].
  - unfold total. cbn [fold_right]. lia.
  - unfold np_lstm, np_lstm_forward. rewrite Hc. destruct depth as [|depth]; [lia|]. rewrite E. cbn [bind fst snd]. eexists. exists ss. split; [exact E2|]. split; [reflexivity|]. cbn [m_rows m_cols]. repeat (split; [assumption || reflexivity|]). exact Hr.
Qed.

(** ** The base implementation *)
Lemma base_dir_not_first : forall lengths s r, not_first r s lengths -> Forall (fun p => r <> fst p) (order_ltr s lengths).
Proof. induction lengths as [|n l IH]; intros s r Hr; [constructor|]. destruct Hr as [H1 H2]. cbn [order_ltr]. constructor; [exact H1|apply IH, H2]. Qed.
Lemma splice_short {A} start (new l : list A) d : length new <= 1 -> start + length new <= length l -> forall r, r <> start -> nth r (splice start new l) d = nth r l d.
Proof. intros L E r Hr. apply splice_out; [exact E|]. lia. Qed.
Lemma slice_length {A} start n (l : list A) : length (slice start n l) = Nat.min n (length l - start).
Proof. unfold slice. now rewrite firstn_length, skipn_length. Qed.
Lemma base_steps_rows nO Wh N r : forall order (s : dir_state R) y2 c2, length y2 <= 1 -> length (d_G s) = N -> length (d_Y s) = N -> Forall (fun p => r <> fst p) order ->
  nth r (d_Y (base_steps nO Wh order s y2 c2)) [] = nth r (d_Y s) [] /\ length (d_Y (base_steps nO Wh order s y2 c2)) = N.
Proof.
  induction order as [|[start b] order IH]; intros s y2 c2 Ly LG LY F; [split; [reflexivity|exact LY]|]. apply Forall_cons_iff in F as [F1 F2]. cbn [fst] in F1. cbn [base_steps].
  set (g3 := firstn (length (firstn b y2)) (slice start b (d_G s))). assert (Lg : length g3 <= 1 /\ (length g3 = 0 \/ start + length g3 <= N)).
  { unfold g3. rewrite firstn_length, slice_length, firstn_length. lia. }
  set (cells := map _ (seq 0 (length g3))). assert (Lc : forall A (f : list R * list R * list R -> A), length (map f cells) = length g3) by (intros A f; unfold cells; now rewrite !map_length, seq_length).
  destruct (Nat.eq_dec (length g3) 0) as [Z|Z].
  - assert (Ec : cells = []) by (unfold cells; rewrite Z; reflexivity). rewrite Ec. cbn [map]. assert (Sp : forall l : list (list R), splice start [] l = l) by (intros l; unfold splice; cbn [length app]; rewrite Nat.add_0_r; apply firstn_skipn).
    rewrite !Sp. destruct (IH (mkDir (d_G s) (d_Y s) (d_C s)) [] []) as [I1 I2]; cbn [d_G d_Y length]; try assumption; [lia|]. split; [exact I1|exact I2].
  - destruct Lg as [L1 [L2|L2]]; [lia|]. destruct (IH (mkDir (splice start (map (fun r => fst (fst r)) cells) (d_G s)) (splice start (map (fun r => snd (fst r)) cells) (d_Y s)) (splice start (map snd cells) (d_C s))) (map (fun r => snd (fst r)) cells) (map snd cells)) as [I1 I2];
      cbn [d_G d_Y]; rewrite ?Lc; try lia; try exact F2; try (rewrite splice_length; rewrite ?Lc; lia).
    split; [|exact I2]. rewrite I1. cbn [d_Y]. apply splice_short; rewrite ?Lc; lia.
Qed.
Lemma nth_zero_rows N nO r : r < N -> nth r (zero_rows N nO : list (list R)) [] = zeros nO.
Proof. intros Hr. unfold zero_rows. rewrite (nth_indep _ [] (zeros nO)) by (now rewrite repeat_length). apply nth_repeat. Qed.
Lemma base_dir_rows d nO (X : list (list R)) w lengths h0 c0 r : not_first r 0 lengths -> r < length X -> nth r (d_Y (base_dir_fwd d nO X w lengths h0 c0)) [] = zeros nO.
Proof.
  intros Hr HX. destruct w as [[Wx Wh] bias]. unfold base_dir_fwd. edestruct base_steps_rows as [I1 _]; [| | | |rewrite I1; cbn [d_Y]; now apply nth_zero_rows].
  - cbn. lia.
  - apply map_length.
  - apply repeat_length.
  - apply base_dir_not_first in Hr. destruct d; [exact Hr|now apply Forall_rev].
Qed.
Lemma base_dirs_rows params i nO nI (X : list (list R)) lengths h c r : not_first r 0 lengths -> r < length X ->
  forall dirs d params_i ss e, base_dirs_fwd params i d dirs nO nI X lengths h c params_i = Ok (ss, e) -> Forall (fun s => nth r (d_Y s) [] = zeros nO) ss.
Proof.
  intros Hr HX. induction dirs as [|dirs IH]; intros d params_i ss e E; cbn [base_dirs_fwd] in E; [injection E as <- <-; constructor|].
  destruct (split_weights params nO nI params_i) as [[p pi]|er]; [|discriminate E]. cbn [bind fst snd] in E. destruct (transpose_weights p) as [w|er]; [|discriminate E]. cbn [bind] in E.
  destruct (base_dirs_fwd params i (S d) dirs nO nI X lengths h c pi) as [[ss' e']|er] eqn:E2; [|discriminate E]. cbn [bind fst snd] in E. injection E as <- <-. constructor; [now apply base_dir_rows|]. eapply IH, E2.
Qed.
Lemma base_layers_rows params lengths h c nO dirs r : not_first r 0 lengths ->
  forall depth i nI X params_i ss H, depth <> 0 -> r < length X -> base_layers_fwd params i depth dirs nO nI X lengths h c params_i = Ok (ss, H) -> Forall (fun x : R => x = 0%R) (nth r H []).
Proof.
  intros Hr. induction depth as [|depth IH]; intros i nI X params_i ss H Hd HX E; [lia|]. cbn [base_layers_fwd] in E.
  destruct (base_dirs_fwd params i 0 dirs nO nI X lengths h c params_i) as [[s pi]|er] eqn:E1; [|discriminate E]. cbn [bind fst snd] in E. unfold join_dirs in E. destruct (Nat.eqb_spec (length X) 0); [lia|]. cbn [bind] in E.
  set (H1 := map (fun n => concat (map (fun y => nth n y []) (map d_Y s))) (seq 0 (length X))) in E. destruct (base_layers_fwd params (S i) depth dirs nO (dirs * nO) H1 lengths h c pi) as [[ss' H']|er] eqn:E2; [|discriminate E].
  cbn [bind fst snd] in E. injection E as <- <-. destruct depth as [|depth].
  - cbn in E2. injection E2 as <- <-. unfold H1. rewrite nth_map_seq by exact HX. pose proof (base_dirs_rows params i nO nI X lengths h c r Hr HX dirs 0 params_i s pi E1) as F. clear - F. rewrite map_map.
    induction F as [|x l Hx F IH]; [constructor|]. cbn [map concat]. apply Forall_app. split; [|exact IH]. cbv beta in Hx. rewrite Hx. unfold zeros. apply Forall_forall. intros y Hy. apply repeat_spec in Hy. exact Hy.
  - eapply IH; [lia| |exact E2]. unfold H1. now rewrite map_length, seq_length.
Qed.
Lemma base_forward_rows depth dirs nO (params : list R) c h X lengths Y states r : base_lstm_forward depth dirs nO params c h X lengths = Ok (Y, states) -> not_first r 0 lengths -> r < length (m_rows X) ->
  Forall (fun x => x = 0%R) (nth r (m_rows Y) []).
Proof.
  unfold base_lstm_forward. destruct lengths as [|n l]; [discriminate|]. destruct depth as [|depth]; [discriminate|]. intros E Hr HX.
  destruct (base_layers_fwd params 0 (S depth) dirs nO (m_cols X) (m_rows X) (n :: l) h c 0) as [[ss H]|er] eqn:E1; [|discriminate E]. cbn [bind fst snd] in E. injection E as <- <-. cbn [m_rows].
  eapply base_layers_rows; [exact Hr| |exact HX|exact E1]. lia.
Qed.
