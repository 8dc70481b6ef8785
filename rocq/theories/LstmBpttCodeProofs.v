(** The backward kernel computes the backward recursion. *)
From Coq Require Import Reals Lra Lia.
From Verif Require Import NumR MatSpec MatProofs BaseFacts CombProofs CombBuiltProofs MkProofs LstmProofs ActProofs SoftProofs.
From Verif Require Import LstmModel LstmSpec LstmKernelModel LstmKernelSpec LstmFwdProofs LstmBwdProofs LstmBpttSpec LstmBpttProofs.
From Verif Require Import LstmKernelModel LstmKernelSpec LstmFwdProofs.
Set Default Goal Selector "!".
Local Open Scope nat_scope.

(** ** One sequence, from its end *)
Fixpoint chain (nO : nat) (Wh : list (list R)) (dy dc g c : list R) (rest : list (list R * list R * list R)) : list (list R) :=
  match rest with
  | [] => []
  | (dy2, g2, c2) :: rest => let b := lstm_gates_bwd nO dy dc g c c2 in fst b :: chain nO Wh (row_add dy2 (times_t nO Wh (fst b))) (snd b) g2 c2 rest
  end.
(** The steps of sequence [b] follow each other *)
Fixpoint contig (b : nat) (l : list (nat * nat)) : Prop :=
  match l with
  | [] => True
  | p :: l' => contig b l' /\ (b < snd p -> match l' with [] => True | q :: _ => b < snd q \/ Forall (fun q => snd q <= b) l' end)
  end.
Lemma contig_down b : forall l s, falling l -> contig b (order_ltr s l).
Proof.
  induction l as [|n l IH]; intros s F; [exact I|]. cbn [order_ltr contig]. assert (Fl : falling l) by (destruct l; [exact I|apply F]). split; [now apply IH|]. intros Hb. destruct l as [|m l]; [exact I|]. cbn [order_ltr]. cbn [snd]. destruct (Nat.lt_ge_cases b m) as [Hm|Hm]; [now left|right].
  change ((s + n, m) :: order_ltr (s + n + m) l) with (order_ltr (s + n) (m :: l)).
  assert (All : Forall (fun k => k <= m) (m :: l)). { clear - Fl. revert m Fl. induction l as [|k l IH]; intros m F; [now repeat constructor|]. destruct F as [F1 F2]. constructor; [lia|]. eapply Forall_impl; [|exact (IH k F2)]. cbv beta. intros a Ha. lia. }
  pose proof (order_ltr_bound m (m :: l) (s + n) All) as B. eapply Forall_impl; [|exact B]. cbv beta. intros q Hq. lia.
Qed.
Lemma contig_up b : forall l, (forall p q l1 l2, l = l1 ++ p :: q :: l2 -> snd p <= snd q) -> contig b l.
Proof.
  induction l as [|p l IH]; intros H; [exact I|]. cbn [contig]. split; [apply IH; intros p0 q l1 l2 E; apply (H p0 q (p :: l1) l2); cbn; now rewrite E|]. intros Hb. destruct l as [|q l]; [exact I|]. left. specialize (H p q [] l eq_refl). lia.
Qed.
Lemma falling_order : forall l s p q l1 l2, falling l -> order_ltr s l = l1 ++ p :: q :: l2 -> snd q <= snd p.
Proof.
  induction l as [|n l IH]; intros s p q l1 l2 F E; [destruct l1; discriminate|]. cbn [order_ltr] in E. destruct l1 as [|r l1]; cbn [app] in E; injection E as E1 E2.
  - destruct l as [|m l]; [discriminate|]. cbn [order_ltr] in E2. injection E2 as E2 _. destruct F as [F _]. subst. cbn. exact F.
  - apply (IH (s + n) p q l1 l2); [destruct l; [exact I|apply F]|exact E2].
Qed.
Lemma contig_rev b l s : falling l -> contig b (rev (order_ltr s l)).
Proof.
  intros F. apply contig_up. intros p q l1 l2 E. apply (f_equal (@rev _)) in E. rewrite rev_involutive, rev_app_distr in E. cbn [rev] in E. rewrite <- !app_assoc in E. cbn [app] in E. now apply (falling_order l s q p (rev l2) (rev l1) F).
Qed.
Lemma rows_in_cons b p l : rows_in b (p :: l) = (if Nat.ltb b (snd p) then [fst p + b] else []) ++ rows_in b l. Proof. reflexivity. Qed.
Lemma rows_in_none b l : Forall (fun q => snd q <= b) l -> rows_in b l = [].
Proof. induction 1 as [|q l Hq F IH]; [reflexivity|]. rewrite rows_in_cons, IH. destruct (Nat.ltb_spec b (snd q)); [lia|reflexivity]. Qed.
Lemma nth_slice {A} t m k (l : list A) d : k < m -> nth k (slice t m l) d = nth (t + k) l d.
Proof. intros Hk. unfold slice. rewrite nth_firstn by exact Hk. apply nth_skipn. Qed.
Lemma in_removelast {A} (x : A) l : In x (removelast l) -> In x l.
Proof. induction l as [|y l IH]; [trivial|]. cbn [removelast]. destruct l as [|z l]; [intros []|]. intros [->|H]; [now left|right; now apply IH]. Qed.

Section Back.
  Variables (nO N : nat) (Wh : list (list R)) (s : dir_state R).
  Definition row_data (a : back_state) (r : nat) : list R * list R * list R := (nth r (b_dY a) [], nth r (d_G s) [], nth r (d_C s) []).
  Lemma back_steps_ok : forall order t3 size3 (a : back_state), Forall (fun p => fst p + snd p <= N) ((t3, size3) :: order) -> disjoint ((t3, size3) :: order) ->
    length (b_dY a) = N -> length (b_dC a) = N -> length (b_dG a) = N ->
    exists a', np_back_steps nO N Wh s t3 size3 order a = Ok a' /\ length (b_dG a') = N /\
      forall b, contig b ((t3, size3) :: order) -> match rows_in b ((t3, size3) :: order) with
        | [] => True
        | r :: rest => map (fun r => nth r (b_dG a') []) (r :: rest) = chain nO Wh (nth r (b_dY a) []) (nth r (b_dC a) []) (nth r (d_G s) []) (nth r (d_C s) []) (map (row_data a) rest) ++ [nth (last (r :: rest) 0) (b_dG a) []]
        end.
  Proof.
    induction order as [|[t2 size2] order IH]; intros t3 size3 a F D LY LC LG.
    - exists a. split; [reflexivity|]. split; [exact LG|]. intros b _. unfold rows_in. cbn [flat_map fst snd]. rewrite app_nil_r. destruct (b <? size3); [reflexivity|exact I].
    - apply Forall_cons_iff in F as [F1 F]. pose proof F as FF. apply Forall_cons_iff in FF as [F2 _]. cbn [fst snd] in F1, F2. destruct D as [A D]. cbn [np_back_steps]. set (m := Nat.min size2 size3).
      destruct (Nat.ltb_spec N (t2 + m)); [lia|]. destruct (Nat.ltb_spec N (t3 + m)); [lia|]. cbn [orb].
      set (gb := fun k => lstm_gates_bwd nO (nth (t3 + k) (b_dY a) []) (nth (t3 + k) (b_dC a) []) (nth (t3 + k) (d_G s) []) (nth (t3 + k) (d_C s) []) (nth (t2 + k) (d_C s) [])).
      set (gs := map gb (seq 0 m)). assert (Lm : forall A (f : _ -> A), length (map f gs) = m) by (intros A' f; unfold gs; now rewrite !map_length, seq_length).
      assert (Ng : forall A (f : _ -> A) d k, k < m -> nth k (map f gs) d = f (gb k)).
      { intros A' f d k Hk. unfold gs. rewrite map_map. now rewrite (nth_map_seq (fun x => f (gb x))). }
      set (dY2 := add_rows (slice t2 m (b_dY a)) (map (times_t nO Wh) (map fst gs))).
      assert (LY2 : length dY2 = m) by (unfold dY2, add_rows, vmap2; rewrite map_length, combine_length, !map_length, slice_length; unfold gs; rewrite map_length, seq_length; lia).
      set (a1 := mkBack _ _ _).
      assert (LY1 : length (b_dY a1) = N) by (unfold a1; cbn [b_dY]; rewrite splice_length; lia).
      assert (LC1 : length (b_dC a1) = N) by (unfold a1; cbn [b_dC]; rewrite splice_length; rewrite ?Lm; lia).
      assert (LG1 : length (b_dG a1) = N) by (unfold a1; cbn [b_dG]; rewrite splice_length; rewrite ?Lm; lia).
      destruct (IH t2 size2 a1 F D LY1 LC1 LG1) as (a' & E & LG' & Hr). exists a'. split; [exact E|]. split; [exact LG'|]. intros b Cb.
      assert (Y1 : forall k, k < m -> nth (t2 + k) (b_dY a1) [] = row_add (nth (t2 + k) (b_dY a) []) (times_t nO Wh (fst (gb k)))).
      { intros k Hk. unfold a1. cbn [b_dY]. rewrite splice_in by (rewrite ?LY2; lia). unfold dY2. rewrite nth_add_rows; [|rewrite slice_length; lia|rewrite map_length, Lm; lia]. rewrite nth_slice by exact Hk. f_equal. rewrite nth_map_rows by (rewrite Lm; lia). f_equal. now rewrite (Ng _ fst). }
      assert (C1 : forall k, k < m -> nth (t2 + k) (b_dC a1) [] = snd (gb k)).
      { intros k Hk. unfold a1. cbn [b_dC]. rewrite splice_in by (rewrite ?Lm; lia). now rewrite (Ng _ snd). }
      assert (G1 : forall k, k < m -> nth (t3 + k) (b_dG a1) [] = fst (gb k)).
      { intros k Hk. unfold a1. cbn [b_dG]. rewrite splice_in by (rewrite ?Lm; lia). now rewrite (Ng _ fst). }
      assert (Y2 : forall r, r < t2 \/ t2 + m <= r -> nth r (b_dY a1) [] = nth r (b_dY a) []) by (intros r Hr'; unfold a1; cbn [b_dY]; apply splice_out; rewrite ?LY2; lia).
      assert (C2 : forall r, r < t2 \/ t2 + m <= r -> nth r (b_dC a1) [] = nth r (b_dC a) []) by (intros r Hr'; unfold a1; cbn [b_dC]; apply splice_out; rewrite ?Lm; lia).
      assert (G2 : forall r, r < t3 \/ t3 + m <= r -> nth r (b_dG a1) [] = nth r (b_dG a) []) by (intros r Hr'; unfold a1; cbn [b_dG]; apply splice_out; rewrite ?Lm; lia).
      assert (Out : forall r, In r (rows_in b ((t2, size2) :: order)) -> r < t3 \/ t3 + size3 <= r) by (intros r Hin; apply (rows_in_out b _ (t3, size3) A r Hin)).
      assert (Keep : forall k, k < size3 -> nth (t3 + k) (b_dG a') [] = nth (t3 + k) (b_dG a1) []).
      { intros k Hk. apply (np_back_out nO N Wh s (t3 + k) order t2 size2 a1 a'); [|exact LG1|exact E]. intros p Hp. apply in_removelast in Hp. rewrite Forall_forall in A. specialize (A p Hp). unfold apart in A. cbn [fst snd] in A. lia. }
      destruct Cb as [Cb Cn]. cbn [snd] in Cn. specialize (Hr b Cb). rewrite rows_in_cons. cbn [fst snd]. destruct (Nat.ltb_spec b size3) as [Hb|Hb].
      + cbn [app]. specialize (Cn Hb). cbn [snd] in Cn. destruct Cn as [Hb2|None].
        * assert (Hm : b < m) by lia. rewrite rows_in_cons in Hr. rewrite rows_in_cons. cbn [fst snd] in *. destruct (Nat.ltb_spec b size2); [|lia]. cbn [app] in *.
          change (map ?f (t3 + b :: t2 + b :: ?l)) with (f (t3 + b) :: map f (t2 + b :: l)). rewrite Hr. cbn [map chain]. unfold row_data at 2. fold (gb b). cbv zeta. cbn [app]. f_equal; [rewrite Keep by exact Hb; now apply G1|]. rewrite Y1, C1 by exact Hm.
          assert (Ed : map (row_data a1) (rows_in b order) = map (row_data a) (rows_in b order)).
          { apply map_ext_in. intros r Hin. unfold row_data. rewrite Y2; [reflexivity|]. destruct D as [D1 _]. apply (rows_in_out b order (t2, size2) D1) in Hin. cbn [fst snd] in Hin. lia. }
          rewrite Ed. f_equal. f_equal. change (last (t3 + b :: t2 + b :: ?l) 0) with (last (t2 + b :: l) 0). apply G2.
          assert (Hl : In (last (t2 + b :: rows_in b order) 0) (rows_in b ((t2, size2) :: order))).
          { rewrite rows_in_cons. cbn [fst snd]. destruct (Nat.ltb_spec b size2); [|lia]. cbn [app]. destruct (exists_last (l := t2 + b :: rows_in b order)) as (l' & z & Ez); [discriminate|]. rewrite Ez, last_last. apply in_or_app. right. now left. }
          apply Out in Hl. lia.
        * rewrite (rows_in_none b _ None). cbn [map chain app last]. f_equal. rewrite Keep by exact Hb. apply G2. apply Forall_cons_iff in None as [N1 _]. cbn [snd] in N1. lia.
      + cbn [app]. destruct (rows_in b ((t2, size2) :: order)) as [|r rest] eqn:Er; [exact I|]. rewrite Hr.
        assert (Same : forall q, In q (r :: rest) -> q < t2 \/ t2 + m <= q).
        { intros q Hq. rewrite <- Er, rows_in_cons in Hq. cbn [fst snd] in Hq. apply in_app_or in Hq as [Hq|Hq].
          - destruct (Nat.ltb_spec b size2); [|contradiction]. destruct Hq as [<-|[]]. lia.
          - destruct D as [D1 _]. apply (rows_in_out b order (t2, size2) D1) in Hq. cbn [fst snd] in Hq. lia. }
        rewrite Y2, C2 by (apply Same; now left). f_equal.
        * f_equal. apply map_ext_in. intros q Hq. unfold row_data. rewrite Y2 by (apply Same; now right). reflexivity.
        * f_equal. apply G2. assert (Hl : In (last (r :: rest) 0) (r :: rest)) by (destruct (exists_last (l := r :: rest)) as (l' & z & Ez); [discriminate|]; rewrite Ez, last_last; apply in_or_app; right; now left).
          apply Out in Hl. lia.
  Qed.
End Back.

(** ** The recursion from the beginning and from the end *)
Section Chain.
  Variables (nO : nat) (w : triple R).
  Fixpoint after (y c : list R) (p : list (list R * list R)) : list R * list R :=
    match p with [] => (y, c) | q :: p => let r := lstm_step nO w (fst q) y c in after (fst r) (snd r) p end.
  Fixpoint trace (y c : list R) (p : list (list R * list R)) : list (list R * list R * list R) :=
    match p with [] => [] | q :: p => let r := lstm_step nO w (fst q) y c in (snd q, gates_of nO w (fst q) y, snd r) :: trace (fst r) (snd r) p end.
  Lemma after_app : forall p q y c, after y c (p ++ q) = after (fst (after y c p)) (snd (after y c p)) q.
  Proof. induction p as [|a p IH]; intros q y c; [reflexivity|]. cbn [app after]. apply IH. Qed.
  Lemma trace_app : forall p q y c, trace y c (p ++ q) = trace y c p ++ trace (fst (after y c p)) (snd (after y c p)) q.
  Proof. induction p as [|a p IH]; intros q y c; [reflexivity|]. cbn [app after trace]. cbv zeta. now rewrite IH. Qed.
  Lemma back_app : forall p q y c ey ec, let e := back_run nO w (fst (after y c p)) (snd (after y c p)) q ey ec in
    back_run nO w y c (p ++ q) ey ec = (fst (back_run nO w y c p (fst (fst e)) (snd (fst e))), snd (back_run nO w y c p (fst (fst e)) (snd (fst e))) ++ snd e).
  Proof.
    induction p as [|[x dy] p IH]; intros q y c ey ec; cbn [app after back_run fst snd]; cbv zeta; [now destruct (back_run nO w y c q ey ec) as [[? ?] ?]|].
    rewrite IH. cbv zeta. cbn [fst snd app]. reflexivity.
  Qed.
  Lemma chain_back : forall p x dy y c ey ec, let st := after y c p in
    chain nO (hid_weights w) (row_add dy ey) ec (gates_of nO w x (fst st)) (snd (lstm_step nO w x (fst st) (snd st))) (rev (trace y c p)) = rev (tl (snd (back_run nO w y c (p ++ [(x, dy)]) ey ec))).
  Proof.
    induction p as [|[x2 dy2] p IH] using rev_ind; intros x dy y c ey ec; cbv zeta; [reflexivity|].
    rewrite trace_app, rev_app_distr. cbn [trace fst snd rev app chain]. rewrite after_app. cbn [after fst snd]. cbv zeta in *. rewrite IH. set (st := after y c p). set (r2 := lstm_step nO w x2 (fst st) (snd st)).
    rewrite (back_app (p ++ [(x2, dy2)]) [(x, dy)]). cbv zeta. cbn [snd]. rewrite after_app. cbn [after fst snd back_run]. fold st. fold r2.
    set (b := lstm_gates_bwd nO (row_add dy ey) ec (gates_of nO w x (fst r2)) (snd (lstm_step nO w x (fst r2) (snd r2))) (snd r2)).
    set (L := snd (back_run nO w y c (p ++ [(x2, dy2)]) (times_t nO (hid_weights w) (fst b)) (snd b))).
    assert (NE : L <> []). { unfold L. destruct p as [|[x' dy'] p]; cbn [app back_run snd]; discriminate. }
    destruct L as [|g L]; [contradiction|]. cbn [tl app]. rewrite rev_app_distr. reflexivity.
  Qed.
  (** The forward cells *)
  Lemma cell_is nI x y c : triple_shape nO nI w -> lstm_cell nO (hid_weights w) (snd w) (times (in_weights w) x) y c = (gates_of nO w x y, fst (lstm_step nO w x y c), snd (lstm_step nO w x y c)).
  Proof.
    intros Hw. destruct (cell_step nO nI w x y c Hw) as (g & E). unfold hid_weights, in_weights. rewrite E. do 2 f_equal. unfold lstm_cell in E. injection E as E _ _. rewrite <- E.
    destruct Hw as ((_ & L1 & _) & (_ & L2 & _) & L3). destruct w as [[Wx Wh] bb]. cbn [fst snd] in *. unfold gates_of. f_equal. apply nth_ext with (d := 0%R) (d' := 0%R).
    - rewrite !row_add_length, !times_length, map_length, seq_length. lia.
    - intros k Hk. rewrite !row_add_length, !times_length in Hk. rewrite (nth_map_seq (preact (Wx, Wh, bb) x y)) by lia. unfold preact. cbn [fst snd]. rewrite nth_row_add; [rewrite nth_row_add| |]; rewrite ?row_add_length, ?times_length; try lia. now rewrite !nth_times by lia.
  Qed.
  Lemma trace_rows nI (X : list (list R)) s a : triple_shape nO nI w -> forall l y c, map (three s) l = run_cells nO (hid_weights w) (snd w) y c (map (times (in_weights w)) (take X l)) ->
    map (row_data s a) l = trace y c (combine (take X l) (take (b_dY a) l)).
  Proof.
    intros Hw. induction l as [|r l IH]; intros y c E; [reflexivity|]. cbn [map take run_cells] in E. rewrite (cell_is nI _ y c Hw) in E. cbn [fst snd] in E. injection E as E1 E2 E3 E4.
    cbn [map take combine trace fst snd]. cbv zeta. f_equal; [unfold row_data; now rewrite E1, E3|]. now apply IH.
  Qed.
End Chain.

(** ** One direction *)
Lemma splice_forall {A} (P : A -> Prop) t (new l : list A) : Forall P new -> Forall P l -> Forall P (splice t new l).
Proof. intros F1 F2. unfold splice. rewrite Forall_forall in *. intros x Hx. apply in_app_or in Hx as [Hx|Hx]; [apply F2; rewrite <- (firstn_skipn t l); apply in_or_app; now left|]. apply in_app_or in Hx as [Hx|Hx]; [now apply F1|]. apply F2. rewrite <- (firstn_skipn (t + length new) l). apply in_or_app. now right. Qed.
Lemma back_steps_wide nO N Wh s : forall order t3 size3 (a a' : back_state), np_back_steps nO N Wh s t3 size3 order a = Ok a' -> Forall (fun g : list R => length g = 4 * nO) (b_dG a) -> Forall (fun g => length g = 4 * nO) (b_dG a').
Proof.
  induction order as [|[t2 size2] order IH]; intros t3 size3 a a' E F; cbn [np_back_steps] in E; [now injection E as <-|]. destruct (_ || _)%bool; [discriminate E|]. apply IH in E; [exact E|]. cbn [b_dG]. apply splice_forall; [|exact F].
  apply Forall_forall. intros g Hg. apply in_map_iff in Hg as (x & <- & Hx). apply in_map_iff in Hx as (k & <- & _). apply gates_length.
Qed.
Definition fwd_order (d : nat) (lengths : list nat) : list (nat * nat) := match d with 0 => order_ltr 0 lengths | S _ => rev (order_ltr 0 lengths) end.
Lemma dir_fwd_cells d nO (X : list (list R)) w lengths batch h0 c0 s : total lengths = length X -> Forall (fun n => n <= batch) lengths -> np_dir_fwd d nO X w lengths batch h0 c0 = Ok s ->
  forall b, b < batch -> map (three s) (rows_in b (fwd_order d lengths)) = run_cells nO (hid_weights w) (snd w) h0 c0 (map (times (in_weights w)) (take X (rows_in b (fwd_order d lengths)))).
Proof.
  intros Ht Hl E. destruct w as [[Wx Wh] bias]. unfold np_dir_fwd in E. assert (Eo : np_order d (length X) lengths = Ok (fwd_order d lengths)).
  { unfold fwd_order, np_order. destruct d; [reflexivity|]. rewrite <- Ht. apply (order_rtl_rev lengths 0). }
  rewrite Eo in E. cbn [bind] in E. pose proof (order_ltr_bound batch lengths 0 Hl) as Bo. pose proof (order_ltr_disjoint lengths 0) as Do.
  assert (F : Forall (fun p => snd p <= batch /\ fst p + snd p <= length X) (fwd_order d lengths)).
  { assert (F0 : Forall (fun p => snd p <= batch /\ fst p + snd p <= length X) (order_ltr 0 lengths)) by (eapply Forall_impl; [|exact Bo]; cbn; intros p Hp; lia). unfold fwd_order. destruct d; [exact F0|now apply Forall_rev]. }
  assert (D : disjoint (fwd_order d lengths)) by (unfold fwd_order; destruct d; [exact Do|now apply disjoint_rev]).
  destruct (steps_ok nO (length X) batch (m_rows Wh) bias (fwd_order d lengths) (mkDir (map (times (m_rows Wx)) X) (zero_rows (length X) nO) (zero_rows (length X) nO)) (repeat h0 batch) (repeat c0 batch)) as (s' & E' & L1 & L2 & L3 & _ & Hr);
    try (apply repeat_length); try assumption; [apply map_length|].
  rewrite E' in E. injection E as ->. intros b Hb. specialize (Hr b Hb). assert (N0 : forall v : list R, nth b (repeat v batch) [] = v) by (intros v; rewrite (nth_indep _ [] v) by (now rewrite repeat_length); apply nth_repeat).
  rewrite !N0 in Hr. cbn [d_G] in Hr. rewrite Hr. unfold hid_weights, in_weights. cbn [fst snd]. f_equal. unfold take. rewrite map_map. apply map_ext_in. intros r Hin. apply nth_map_rows.
  unfold rows_in in Hin. apply in_flat_map in Hin as (q & Hq & Hin). rewrite Forall_forall in F. specialize (F q Hq). destruct (Nat.ltb_spec b (snd q)); [|contradiction]. destruct Hin as [<-|[]]. lia.
Qed.
Lemma falling_head n l : falling (n :: l) -> Forall (fun k => k <= n) (n :: l).
Proof. revert n. induction l as [|k l IH]; intros n F; [now repeat constructor|]. destruct F as [F1 F2]. constructor; [lia|]. eapply Forall_impl; [|exact (IH k F2)]. cbv beta. intros a Ha. lia. Qed.
Lemma combine_snoc_take (X Y : list (list R)) l r : combine (take X (l ++ [r])) (take Y (l ++ [r])) = combine (take X l) (take Y l) ++ [(nth r X [], nth r Y [])].
Proof. induction l as [|a l IH]; [reflexivity|]. cbn [app take map combine]. unfold take in IH. now rewrite IH. Qed.
Lemma kept_tl nO w y c x dy xs dys : kept_grads nO w y c (x :: xs) (dy :: dys) = zeros (4 * nO) :: tl (gate_grads nO w y c (x :: xs) (dy :: dys)).
Proof. reflexivity. Qed.
(** The gates' gradients of a sequence whose rows, in the order of the forward pass, are [l] *)
Lemma seq_grads nO nI N (X dY : list (list R)) w s h0 c0 : triple_shape nO nI w -> length X = N -> length dY = N -> Forall (fun d => length d = nO) dY ->
  forall l dG', l <> [] -> (forall r, In r l -> r < N) -> map (three s) l = run_cells nO (hid_weights w) (snd w) h0 c0 (map (times (in_weights w)) (take X l)) ->
  let a := mkBack dY (zero_rows N nO) (zero_rows N (4 * nO)) in
  match rev l with [] => True | r :: rest => map (fun r => nth r dG' []) (r :: rest) = chain nO (hid_weights w) (nth r (b_dY a) []) (nth r (b_dC a) []) (nth r (d_G s) []) (nth r (d_C s) []) (map (row_data s a) rest) ++ [nth (last (r :: rest) 0) (b_dG a) []] end ->
  take dG' l = kept_grads nO w h0 c0 (take X l) (take dY l).
Proof.
  intros Hw LX LY FY l dG' NE Hin Hc a Hm. destruct (exists_last NE) as (p & r & El). subst l. rewrite rev_app_distr in Hm. cbn [rev app] in Hm.
  pose proof (trace_rows nO w nI X s a Hw (p ++ [r]) h0 c0 Hc) as Tr. rewrite combine_snoc_take, trace_app in Tr. rewrite map_app in Tr. apply app_inj_tail in Tr as [Tp Tr]. unfold a in Tr at 2. cbn [b_dY] in Tr.
  set (st := after nO w h0 c0 (combine (take X p) (take (b_dY a) p))) in Tr. cbn [trace fst snd] in Tr. unfold row_data in Tr. injection Tr as Tg Tc.
  rewrite map_rev, Tp in Hm. rewrite Tg, Tc in Hm.
  assert (Hr : r < N) by (apply Hin, in_or_app; right; now left). assert (Z : nth r (b_dC a) [] = zeros nO) by (unfold a; cbn [b_dC]; now apply nth_zero_rows).
  assert (Ey : nth r (b_dY a) [] = row_add (nth r dY []) (zeros nO)) by (unfold a; cbn [b_dY]; symmetry; apply row_add_zero; rewrite Forall_forall in FY; apply FY, nth_In; lia).
  rewrite Z, Ey in Hm. unfold st in Hm. rewrite (chain_back nO w (combine (take X p) (take (b_dY a) p)) (nth r X []) (nth r dY []) h0 c0 (zeros nO) (zeros nO)) in Hm.
  change (b_dY a) with dY in Hm. rewrite <- combine_snoc_take in Hm.
  assert (Lz : nth (last (r :: rev p) 0) (b_dG a) [] = zeros (4 * nO)).
  { unfold a. cbn [b_dG]. apply nth_zero_rows. apply Hin. assert (Hl : In (last (r :: rev p) 0) (r :: rev p)) by (destruct (exists_last (l := r :: rev p)) as (l' & z & Ez); [discriminate|]; rewrite Ez, last_last; apply in_or_app; right; now left).
    apply in_or_app. destruct Hl as [<-|Hl]; [right; now left|left; now apply in_rev]. }
  rewrite Lz in Hm. apply (f_equal (@rev _)) in Hm. rewrite <- map_rev in Hm. cbn [rev] in Hm. rewrite rev_involutive in Hm. rewrite rev_app_distr, rev_involutive in Hm. cbn [rev app] in Hm. unfold take at 1. rewrite Hm.
  fold (gate_grads nO w h0 c0 (take X (p ++ [r])) (take dY (p ++ [r]))). destruct p as [|r0 p]; reflexivity.
Qed.
Lemma dir_bwd_ok d nO nI (X dX dY : list (list R)) w dw batch lengths h0 c0 s : triple_shape nO nI w -> batch <> 0 -> total (batch :: lengths) = length X -> falling (batch :: lengths) -> length dY = length X -> Forall (fun x => length x = nO) dY ->
  np_dir_fwd d nO X w (batch :: lengths) batch h0 c0 = Ok s ->
  exists dG, np_dir_bwd d nO nI X dX dY w dw s (batch :: lengths) = Ok (add_rows dX (map (times_t nI (in_weights w)) dG),
      (mkM nI (add_rows (in_weights dw) (outer (4 * nO) nI dG X)), mkM nO (add_rows (hid_weights dw) (outer (4 * nO) nO dG (d_Y s))), row_add (snd dw) (colsum (4 * nO) dG))) /\
    length dG = length X /\ Forall (fun g => length g = 4 * nO) dG /\
    forall b, b < batch -> take dG (rows_of b 0 (batch :: lengths)) = dir_grads d nO w h0 c0 (take X (rows_of b 0 (batch :: lengths))) (take dY (rows_of b 0 (batch :: lengths))).
Proof.
  intros Hw Hb0 Ht Hf LY FY E. set (L := batch :: lengths) in *. pose proof (dir_fwd_cells d nO X w L batch h0 c0 s Ht (falling_head _ _ Hf) E) as Hc.
  pose proof (order_ltr_bound batch L 0 (falling_head _ _ Hf)) as Bo. pose proof (order_ltr_disjoint L 0) as Do.
  assert (F0 : Forall (fun p => fst p + snd p <= length X) (order_ltr 0 L)) by (eapply Forall_impl; [|exact Bo]; cbv beta; intros p Hp; lia).
  assert (Rv : exists t l, back_order d (order_ltr 0 L) = Ok (t, l) /\ t :: l = rev (fwd_order d L)).
  { unfold back_order, fwd_order. destruct d as [|d].
    - destruct (rev (order_ltr 0 L)) as [|t l] eqn:Er; [|exists t, l; now split]. apply (f_equal (@rev _)) in Er. rewrite rev_involutive in Er. discriminate Er.
    - rewrite rev_involutive. unfold L. cbn [order_ltr]. eexists. eexists. split; reflexivity. }
  destruct Rv as ([t3 size3] & l & Eo & El). destruct w as [[Wx Wh] bias] eqn:Ew. destruct dw as [[dWx dWh] db]. rewrite <- Ew in *. unfold np_dir_bwd. rewrite Ew. rewrite Eo. cbn [bind fst snd].
  assert (F1 : Forall (fun p => fst p + snd p <= length X) ((t3, size3) :: l)) by (rewrite El; apply Forall_rev; unfold fwd_order; destruct d; [exact F0|now apply Forall_rev]).
  assert (D1 : disjoint ((t3, size3) :: l)) by (rewrite El; apply disjoint_rev; unfold fwd_order; destruct d; [exact Do|now apply disjoint_rev]).
  destruct (back_steps_ok nO (length X) (m_rows Wh) s l t3 size3 (mkBack dY (zero_rows (length X) nO) (zero_rows (length X) (4 * nO))) F1 D1) as (a' & Ea & La & Ha); cbn [b_dY b_dC b_dG]; try apply repeat_length; try exact LY.
  rewrite Ea. cbn [bind]. exists (b_dG a'). split.
  { unfold in_weights, hid_weights. cbn [fst snd]. do 2 f_equal. f_equal. f_equal. unfold colsum. apply map_ext. intros j. apply nsum_msum. }
  split; [exact La|]. split; [apply (back_steps_wide _ _ _ _ _ _ _ _ _ Ea); cbn [b_dG]; apply zero_rows_wide|]. intros b Hb. assert (Cg : contig b ((t3, size3) :: l)).
  { rewrite El. unfold fwd_order. destruct d; [now apply contig_rev|rewrite rev_involutive; now apply contig_down]. }
  specialize (Ha b Cg). rewrite El, rows_in_rev in Ha.
  set (rows := rows_in b (fwd_order d L)) in *. assert (Rows : rows = match d with 0 => rows_of b 0 L | S _ => rev (rows_of b 0 L) end).
  { unfold rows, fwd_order. destruct d; [apply rows_in_ltr|rewrite rows_in_rev; f_equal; apply rows_in_ltr]. }
  assert (NE : rows_of b 0 L <> []) by (unfold L; cbn [rows_of]; destruct (Nat.ltb_spec b batch); [discriminate|lia]).
  assert (In0 : forall r, In r (rows_of b 0 L) -> r < length X) by (intros r Hin; apply rows_of_bound in Hin; lia).
  assert (SG : take (b_dG a') rows = kept_grads nO w h0 c0 (take X rows) (take dY rows)).
  { apply (seq_grads nO nI (length X) X dY w s h0 c0); try assumption; try reflexivity.
    - rewrite Rows. destruct d; [exact NE|]. intros Z. apply NE. apply (f_equal (@rev _)) in Z. now rewrite rev_involutive in Z.
    - intros r Hin. apply In0. rewrite Rows in Hin. destruct d; [exact Hin|now apply in_rev].
    - apply (Hc b Hb).
    - rewrite Ew. exact Ha. }
  unfold dir_grads. rewrite Rows, Ew in SG. destruct d as [|d]; [exact SG|]. rewrite !rev_map_take in SG. rewrite <- SG. now rewrite rev_involutive.
Qed.
