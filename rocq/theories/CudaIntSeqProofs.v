(** Proofs about 32-bit integers: the kernels that search for their sequence. *)
From Coq Require Import Lia ZArith.
From Verif Require Import BaseFacts CudaIntModel CudaIntSpec CudaIntProofs CudaIntKernelProofs.
Local Open Scope Z_scope.
Set Default Goal Selector "!".

Definition walked (lengths : list Z) (c : cursor) : Prop :=
  exists pre, lengths = (pre ++ c_rest c)%list /\ c_start c = zsum pre /\ c_seq c = length pre.
Lemma walked_start lengths : walked lengths (mkCur lengths 0 0).
Proof. exists []. repeat split. Qed.
Lemma walked_find lengths t : forall rest seq start, walked lengths (mkCur rest seq start) -> walked lengths (find_seq t rest seq start).
Proof.
  induction rest as [|len rest IH]; intros sq start W; cbn [find_seq]; [exact W|]. destruct (t <? start + len); [exact W|]. apply IH.
  destruct W as (pre & E & S & Q). cbn [c_rest c_start c_seq] in *. exists (pre ++ [len])%list. cbn [c_rest c_start c_seq]. rewrite <- app_assoc. split; [exact E|]. rewrite zsum_app, app_length. cbn. split; [lia|]. lia.
Qed.
Lemma walked_advance lengths t c : walked lengths c -> walked lengths (advance t c).
Proof. intros W. apply walked_find. destruct c. exact W. Qed.
Lemma walked_bounds lengths c : Forall (fun x => 0 <= x) lengths -> walked lengths c ->
  0 <= c_start c /\ 0 <= length_at c /\ c_start c + length_at c <= zsum lengths /\ c_start c + zsum (c_rest c) = zsum lengths /\ Forall (fun x => 0 <= x) (c_rest c) /\ (c_rest c <> [] -> (c_seq c < length lengths)%nat).
Proof.
  intros H (pre & E & S & Q). rewrite E in H. apply Forall_app in H. destruct H as [H1 H2]. pose proof (zsum_nonneg _ H1). rewrite E, zsum_app, app_length. unfold length_at.
  split; [lia|]. assert (0 <= nth 0 (c_rest c) 0 <= zsum (c_rest c)).
  { destruct H2 as [|x l Hx Hl]; cbn [nth zsum fold_right]; [lia|]. fold (zsum l). pose proof (zsum_nonneg _ Hl). lia. }
  split; [lia|]. split; [lia|]. split; [lia|]. split; [exact H2|]. intros Hne. destruct (c_rest c); [congruence|]. cbn. lia.
Qed.
Lemma search_bounded t hi : forall rest start, 0 <= start -> Forall (fun x => 0 <= x) rest -> start + zsum rest <= hi -> Forall (fun z => 0 <= z <= hi) (ints_search t rest start).
Proof.
  induction rest as [|len rest IH]; intros start Hs Hr Hh; cbn [ints_search]; [constructor|]. inversion Hr as [|? ? H1 H2]. cbn [zsum fold_right] in Hh. fold (zsum rest) in Hh. pose proof (zsum_nonneg _ H2).
  constructor; [lia|]. destruct (t <? start + len); [constructor|]. apply IH; [lia | exact H2 | lia].
Qed.
Lemma find_nonempty t : forall rest seq start, rest <> [] -> t < start + zsum rest -> c_rest (find_seq t rest seq start) <> [].
Proof.
  induction rest as [|len rest IH]; intros sq start H0 H; cbn [find_seq]; [congruence|].
  destruct (t <? start + len) eqn:L; [discriminate|]. apply Z.ltb_ge in L. cbn [zsum fold_right] in H. fold (zsum rest) in H. apply IH; [intros ->; cbn in H; lia | lia].
Qed.
Definition within (lengths : list Z) (c : cursor) : Prop := walked lengths c /\ (lengths <> [] -> c_rest c <> []).
Lemma within_start lengths : within lengths (mkCur lengths 0 0).
Proof. split; [apply walked_start|]. intros E. exact E. Qed.
Lemma within_advance lengths t c : Z.of_nat t < zsum lengths -> Forall (fun x => 0 <= x) lengths -> within lengths c -> within lengths (advance t c).
Proof.
  intros Ht Hl [W E]. split; [apply walked_advance; exact W|]. intros Hne. unfold advance. apply find_nonempty; [exact (E Hne)|]. destruct (walked_bounds _ _ Hl W) as (_ & _ & _ & S4 & _). lia.
Qed.

Section Stateful.
  Context {T : Type} `{Num T}.
  Lemma keeps_seq2col X nW I lengths b c p : walked lengths c -> k_seq2col (T := T) X nW I b c = Ok p -> walked lengths (fst p).
  Proof.
    intros W E. unfold k_seq2col in E. destruct (cur_length (advance b c)); cbn [bind] in E; [|discriminate].
    match type of E with bind ?x _ = _ => destruct x; cbn [bind] in E; [|discriminate] end. injection E as <-. cbn [fst]. apply walked_advance. exact W.
  Qed.
  Lemma keeps_backprop_seq2col X nW I lengths b c p : walked lengths c -> k_backprop_seq2col (T := T) X nW I b c = Ok p -> walked lengths (fst p).
  Proof.
    intros W E. unfold k_backprop_seq2col in E. destruct (cur_length (advance b c)); cbn [bind] in E; [|discriminate].
    match type of E with bind ?x _ = _ => destruct x; cbn [bind] in E; [|discriminate] end. injection E as <-. cbn [fst]. apply walked_advance. exact W.
  Qed.
  Lemma keeps_backprop_reduce f dY O lengths b c p : Z.of_nat b < zsum lengths -> Forall (fun x => 0 <= x) lengths -> within lengths c -> k_backprop_reduce (T := T) f dY O b c = Ok p -> within lengths (fst p).
  Proof.
    intros Hb Hl W E. unfold k_backprop_reduce in E. destruct (cur_length (advance b c)) as [len|]; cbn [bind] in E; [|discriminate]. destruct (len =? 0).
    - injection E as <-. cbn [fst]. apply within_advance; [exact Hb | exact Hl | exact W].
    - match type of E with bind ?x _ = _ => destruct x; cbn [bind] in E; [|discriminate] end. injection E as <-. cbn [fst]. apply within_advance; [exact Hb | exact Hl | exact W].
  Qed.
  Lemma keeps_backprop_reduce_max dY which O lengths b c p : Z.of_nat b < zsum lengths -> Forall (fun x => 0 <= x) lengths -> within lengths c -> k_backprop_reduce_max (T := T) dY which O b c = Ok p -> within lengths (fst p).
  Proof.
    intros Hb Hl W E. unfold k_backprop_reduce_max in E. destruct (cur_length (advance b c)) as [len|]; cbn [bind] in E; [|discriminate]. destruct (len =? 0).
    - injection E as <-. cbn [fst]. apply within_advance; [exact Hb | exact Hl | exact W].
    - match type of E with bind ?x _ = _ => destruct x; cbn [bind] in E; [|discriminate] end. injection E as <-. cbn [fst]. apply within_advance; [exact Hb | exact Hl | exact W].
  Qed.

  Lemma seq2col_facts B I nW b : 0 <= nW -> 0 < I -> 0 <= b < B -> B * I * (nW * 2 + 1) < 2 ^ 31 ->
    B + nW < 2 ^ 31 /\ nW * 2 + 1 < 2 ^ 31 /\ B * I < 2 ^ 31 /\ (nW * 2 + 1) * I < 2 ^ 31 /\ b * I * (nW * 2 + 1) + (nW * 2 + 1) * I <= B * I * (nW * 2 + 1) /\ 0 <= b * I * (nW * 2 + 1) /\ B <= B * I.
  Proof.
    intros HW HI Hb HB. assert (HF : 1 <= nW * 2 + 1) by lia. assert (HN : nW * 2 + 1 = 1 + 2 * nW) by lia. set (nF := nW * 2 + 1) in *. clearbody nF.
    assert (P1 : B <= B * I) by (clear - Hb HI; nia). assert (P2 : nF <= nF * I) by (clear - HF HI; nia). assert (P3 : B * I <= B * I * nF) by (clear - Hb HI HF P1; set (BI := B * I) in *; clearbody BI; nia).
    assert (P4 : nF * I <= B * (nF * I)) by (clear - Hb P2 HF; set (x := nF * I) in *; clearbody x; nia). assert (P5 : B * (nF * I) = B * I * nF) by ring.
    assert (P6 : b * (nF * I) + nF * I <= B * (nF * I)) by (clear - Hb P2 HF; set (x := nF * I) in *; clearbody x; nia). assert (P7 : 0 <= b * (nF * I)) by (clear - Hb P2 HF; set (x := nF * I) in *; clearbody x; nia). assert (P8 : b * (nF * I) = b * I * nF) by ring.
    assert (P9 : B + nW <= B * nF) by (clear - Hb HN HW; subst nF; nia). assert (P10 : B * nF <= B * nF * I) by (clear - Hb HF HI; assert (0 <= B * nF) by nia; set (x := B * nF) in *; clearbody x; nia). assert (P11 : B * nF * I = B * I * nF) by ring.
    repeat split; lia.
  Qed.

  Lemma seq2col_same c X nW I lengths m : countable c (Z.to_nat (zsum lengths)) -> Forall (fun x => 0 <= x) lengths -> 0 <= nW -> (0 < I)%nat ->
    zsum lengths * Z.of_nat I * (nW * 2 + 1) < 2 ^ 31 ->
    launch32 c (Z.to_nat (zsum lengths)) (ints_seq2col nW I) (k_seq2col (T := T) X nW I) (mkCur lengths 0 0) m = launch c (Z.to_nat (zsum lengths)) (k_seq2col X nW I) (mkCur lengths 0 0) m.
  Proof.
    intros C Hl HW HI Hs. apply (launch_same (walked lengths)); [exact C | | intros b s p _ W E; exact (keeps_seq2col _ _ _ _ _ _ _ W E) | apply walked_start].
    intros b s Hb W. destruct (walked_bounds _ _ Hl W) as (S1 & S2 & S3 & S4 & S5 & _). destruct (walked_bounds _ _ Hl (walked_advance _ b _ W)) as (A1 & A2 & A3 & _ & _ & _).
    destruct (seq2col_facts (zsum lengths) (Z.of_nat I) nW (Z.of_nat b) HW ltac:(lia) ltac:(lia) Hs) as (F1 & F2 & F3 & F4 & F5 & F6 & F7).
    unfold ints_seq2col. set (c' := advance b s) in *. set (len := length_at c') in *. set (start := c_start c') in *. set (B := zsum lengths) in *. set (nF := nW * 2 + 1) in *. set (i0 := Z.of_nat I) in *. set (b0 := Z.of_nat b) in *.
    assert (Hb0 : 0 <= b0 < B) by lia. assert (Hi0 : 0 < i0) by lia. clearbody len start c'. 
    set (x_start := Z.max start (b0 - nW)). set (x_end := Z.min (start + len) (b0 + nW + 1)).
    assert (X1 : 0 <= x_start <= B) by lia. assert (X2 : 0 <= x_end <= B) by lia. assert (X3 : b0 - nW <= x_start) by lia. assert (X4 : x_end <= b0 + nW + 1) by lia.
    assert (X5 : - B <= x_end - x_start <= nF) by lia. clearbody x_start x_end.
    cbv zeta. repeat (apply Forall_app; split).
    - repeat constructor; unfold int32; lia.
    - apply (Forall_impl (P := fun z => 0 <= z <= B)); [intros z Hz; unfold int32; lia|]. apply search_bounded; [exact S1 | exact S5 | lia].
    - assert (- (B * i0) <= (x_end - x_start) * i0 <= nF * i0) by (rewrite <- Z.mul_opp_l; split; apply Z.mul_le_mono_nonneg_r; lia). repeat constructor; unfold int32; lia.
    - apply each_all. intros i Hi. assert (Q0 : x_start < x_end) by (clear - Hi Hi0; nia). set (d := x_end - x_start) in *. set (o := x_start - (b0 - nW)) in *.
      assert (Q1 : (o + d) * i0 <= nF * i0) by (apply Z.mul_le_mono_nonneg_r; lia). assert (Q2 : 0 <= o * i0) by (apply Z.mul_nonneg_nonneg; lia). assert (Q3 : b0 * i0 <= B * i0) by (apply Z.mul_le_mono_nonneg_r; lia). assert (Q4 : 0 <= b0 * i0) by (apply Z.mul_nonneg_nonneg; lia).
      assert (Q5 : (x_start + d) * i0 <= B * i0) by (apply Z.mul_le_mono_nonneg_r; lia). assert (Q6 : 0 <= x_start * i0) by (apply Z.mul_nonneg_nonneg; lia). rewrite Z.mul_add_distr_r in Q1, Q5.
      repeat constructor; unfold int32; lia.
  Qed.

  Lemma backprop_seq2col_same c X nW I lengths m : countable c (Z.to_nat (zsum lengths)) -> Forall (fun x => 0 <= x) lengths -> 0 <= nW -> (0 < I)%nat ->
    zsum lengths * Z.of_nat I * (nW * 2 + 1) < 2 ^ 31 ->
    launch32 c (Z.to_nat (zsum lengths)) (ints_backprop_seq2col nW I) (k_backprop_seq2col (T := T) X nW I) (mkCur lengths 0 0) m = launch c (Z.to_nat (zsum lengths)) (k_backprop_seq2col X nW I) (mkCur lengths 0 0) m.
  Proof.
    intros C Hl HW HI Hs. apply (launch_same (walked lengths)); [exact C | | intros b s p _ W E; exact (keeps_backprop_seq2col _ _ _ _ _ _ _ W E) | apply walked_start].
    intros b s Hb W. destruct (walked_bounds _ _ Hl W) as (S1 & S2 & S3 & S4 & S5 & _). destruct (walked_bounds _ _ Hl (walked_advance _ b _ W)) as (A1 & A2 & A3 & _ & _ & _).
    destruct (seq2col_facts (zsum lengths) (Z.of_nat I) nW (Z.of_nat b) HW ltac:(lia) ltac:(lia) Hs) as (F1 & F2 & F3 & F4 & F5 & F6 & F7).
    unfold ints_backprop_seq2col. set (c' := advance b s) in *. set (len := length_at c') in *. set (start := c_start c') in *. set (B := zsum lengths) in *. set (nF := nW * 2 + 1) in *. set (i0 := Z.of_nat I) in *. set (b0 := Z.of_nat b) in *.
    assert (Hb0 : 0 <= b0 < B) by lia. assert (Hi0 : 0 < i0) by lia. clearbody len start c'.
    set (x_start := Z.max start (b0 - nW)). set (x_end := Z.min (start + len) (b0 + nW + 1)).
    assert (X1 : 0 <= x_start <= B) by lia. assert (X2 : 0 <= x_end <= B) by lia. assert (X3 : b0 - nW <= x_start) by lia. assert (X4 : x_end <= b0 + nW + 1) by lia.
    clearbody x_start x_end. cbv zeta. repeat (apply Forall_app; split).
    - repeat constructor; unfold int32; lia.
    - apply (Forall_impl (P := fun z => 0 <= z <= B)); [intros z Hz; unfold int32; lia|]. apply search_bounded; [exact S1 | exact S5 | lia].
    - repeat constructor; unfold int32; lia.
    - apply each_all. intros k Hk. set (b_w := x_start + k) in *. assert (W1 : 0 <= b_w < B) by lia. assert (W2 : b0 - nW <= b_w < b0 + nW + 1) by lia. set (position := 2 * nW - (b_w - (b0 - nW))) in *. assert (W3 : 0 <= position < nF) by lia.
      assert (W4 : (b_w + 1) * (i0 * nF) <= B * (i0 * nF)) by (apply Z.mul_le_mono_nonneg_r; [apply Z.mul_nonneg_nonneg; lia | lia]). assert (W5 : (position + 1) * i0 <= nF * i0) by (apply Z.mul_le_mono_nonneg_r; lia). assert (W6 : 0 <= position * i0) by (apply Z.mul_nonneg_nonneg; lia).
      assert (W7 : b_w * i0 <= B * i0) by (apply Z.mul_le_mono_nonneg_r; lia). assert (W8 : 0 <= b_w * i0) by (apply Z.mul_nonneg_nonneg; lia). assert (W9 : 0 <= b_w * i0 * nF) by (apply Z.mul_nonneg_nonneg; lia). assert (W10 : (b0 + 1) * i0 <= B * i0) by (apply Z.mul_le_mono_nonneg_r; lia). assert (W11 : 0 <= b0 * i0) by (apply Z.mul_nonneg_nonneg; lia).
      rewrite !Z.mul_add_distr_r, !Z.mul_1_l, !Z.mul_assoc in W4. rewrite Z.mul_add_distr_r in W5, W10. rewrite (Z.mul_comm i0 nF) in W4. clearbody position b_w.
      apply Forall_app. split; [repeat constructor; unfold int32; lia|]. apply each_all. intros i Hi. repeat constructor; unfold int32; lia.
  Qed.

  Lemma reduce_facts lengths O s t : Forall (fun x => 0 <= x) lengths -> within lengths s -> (t < Z.to_nat (zsum lengths))%nat -> indexable (zsum lengths * Z.of_nat O) -> zsum lengths < 2 ^ 31 ->
    indexable (Z.of_nat (length lengths) * Z.of_nat O) ->
    Forall int32 (ints_search (Z.of_nat t) (c_rest s) (c_start s)) /\ 0 <= Z.of_nat t * Z.of_nat O /\ Z.of_nat t * Z.of_nat O + Z.of_nat O <= 2 ^ 31 /\
    0 <= Z.of_nat (c_seq (advance t s)) * Z.of_nat O /\ Z.of_nat (c_seq (advance t s)) * Z.of_nat O + Z.of_nat O <= 2 ^ 31 /\ int32 (Z.of_nat t - c_start (advance t s)).
  Proof.
    unfold indexable. intros Hl W Ht H1 H2 H3. destruct (walked_bounds _ _ Hl (proj1 W)) as (S1 & S2 & S3 & S4 & S5 & _). destruct (within_advance lengths t s ltac:(lia) Hl W) as [W' Ne]. destruct (walked_bounds _ _ Hl W') as (A1 & A2 & A3 & _ & _ & A6).
    assert (Q : (c_seq (advance t s) < length lengths)%nat) by (apply A6, Ne; intros ->; cbn in Ht; lia). clear Ne A6 W'.
    split; [apply (Forall_impl (P := fun z => 0 <= z <= zsum lengths)); [intros z Hz; unfold int32; lia | apply search_bounded; [exact S1 | exact S5 | lia]]|].
    set (q := Z.of_nat (c_seq (advance t s))) in *. set (o := Z.of_nat O) in *.
    assert (P1 : (Z.of_nat t + 1) * o <= zsum lengths * o) by (apply Z.mul_le_mono_nonneg_r; lia). assert (P2 : (q + 1) * o <= Z.of_nat (length lengths) * o) by (apply Z.mul_le_mono_nonneg_r; lia). rewrite Z.mul_add_distr_r in P1, P2.
    split; [apply Z.mul_nonneg_nonneg; lia|]. split; [lia|]. split; [apply Z.mul_nonneg_nonneg; lia|]. split; [lia|]. unfold int32; lia.
  Qed.
  Lemma backprop_reduce_sum_same c f dY O lengths m : countable c (Z.to_nat (zsum lengths)) -> Forall (fun x => 0 <= x) lengths ->
    indexable (zsum lengths * Z.of_nat O) -> indexable (Z.of_nat (length lengths) * Z.of_nat O) ->
    launch32 c (Z.to_nat (zsum lengths)) (ints_backprop_reduce_sum O) (k_backprop_reduce (T := T) f dY O) (mkCur lengths 0 0) m =
    launch c (Z.to_nat (zsum lengths)) (k_backprop_reduce f dY O) (mkCur lengths 0 0) m.
  Proof.
    intros C Hl H1 H3. destruct (Nat.eq_dec (num_blocks c * threads_per_block c) 0) as [Zc|Zc]; [unfold launch32, launch; rewrite Zc; reflexivity|].
    apply (launch_same (within lengths)); [exact C | | intros b s p Hb W E; exact (keeps_backprop_reduce f dY O lengths b s p ltac:(lia) Hl W E) | apply within_start].
    intros t s Ht W. unfold countable in C. destruct (reduce_facts lengths O s t Hl W Ht H1 ltac:(lia) H3) as (F1 & F2 & F3 & F4 & F5 & F6). unfold ints_backprop_reduce_sum.
    apply Forall_app. split; [exact F1|]. apply each_all. intros i Hi. repeat constructor; unfold int32; lia.
  Qed.
  Lemma rows_fit lengths O s t : Forall (fun x => 0 <= x) lengths -> within lengths s -> (t < Z.to_nat (zsum lengths))%nat -> indexable (zsum lengths * Z.of_nat O) -> zsum lengths < 2 ^ 31 ->
    indexable (Z.of_nat (length lengths) * Z.of_nat O) -> Forall int32 (ints_backprop_reduce_rows O t s).
  Proof.
    intros Hl W Ht H1 H2 H3. destruct (reduce_facts lengths O s t Hl W Ht H1 H2 H3) as (F1 & F2 & F3 & F4 & F5 & F6). unfold ints_backprop_reduce_rows. apply Forall_app. split; [exact F1|].
    constructor; [exact F6|]. assert (Z.of_nat O = 0 \/ 0 < Z.of_nat O) as [Z0|Z0] by lia.
    - rewrite Z0. rewrite !Z.mul_0_r. repeat constructor; unfold int32; lia.
    - repeat constructor; unfold int32; lia.
  Qed.
  Lemma backprop_reduce_mean_same c f dY O lengths m : countable c (Z.to_nat (zsum lengths)) -> Forall (fun x => 0 <= x) lengths ->
    indexable (zsum lengths * Z.of_nat O) -> indexable (Z.of_nat (length lengths) * Z.of_nat O) ->
    launch32 c (Z.to_nat (zsum lengths)) (ints_backprop_reduce_rows O) (k_backprop_reduce (T := T) f dY O) (mkCur lengths 0 0) m =
    launch c (Z.to_nat (zsum lengths)) (k_backprop_reduce f dY O) (mkCur lengths 0 0) m.
  Proof.
    intros C Hl H1 H3. destruct (Nat.eq_dec (num_blocks c * threads_per_block c) 0) as [Zc|Zc]; [unfold launch32, launch; rewrite Zc; reflexivity|].
    apply (launch_same (within lengths)); [exact C | | intros b s p Hb W E; exact (keeps_backprop_reduce f dY O lengths b s p ltac:(lia) Hl W E) | apply within_start].
    intros t s Ht W. unfold countable in C. apply (rows_fit lengths); [exact Hl | exact W | exact Ht | exact H1 | lia | exact H3].
  Qed.
  Lemma backprop_reduce_max_same c dY which O lengths m : countable c (Z.to_nat (zsum lengths)) -> Forall (fun x => 0 <= x) lengths ->
    indexable (zsum lengths * Z.of_nat O) -> indexable (Z.of_nat (length lengths) * Z.of_nat O) ->
    launch32 c (Z.to_nat (zsum lengths)) (ints_backprop_reduce_rows O) (k_backprop_reduce_max (T := T) dY which O) (mkCur lengths 0 0) m =
    launch c (Z.to_nat (zsum lengths)) (k_backprop_reduce_max dY which O) (mkCur lengths 0 0) m.
  Proof.
    intros C Hl H1 H3. destruct (Nat.eq_dec (num_blocks c * threads_per_block c) 0) as [Zc|Zc]; [unfold launch32, launch; rewrite Zc; reflexivity|].
    apply (launch_same (within lengths)); [exact C | | intros b s p Hb W E; exact (keeps_backprop_reduce_max dY which O lengths b s p ltac:(lia) Hl W E) | apply within_start].
    intros t s Ht W. unfold countable in C. apply (rows_fit lengths); [exact Hl | exact W | exact Ht | exact H1 | lia | exact H3].
  Qed.
End Stateful.

Lemma uncountable_undefined {V} c N ints (body : nat -> result (list (instr V))) m m' : N <> O -> ~ countable c N -> launch32 c N (no_state ints) (stateless body) tt m <> Ok m'.
Proof. intros HN C E. apply (launch_exact c N ints body m m' HN) in E. tauto. Qed.
Lemma unfit_undefined {V} c N ints b z (body : nat -> result (list (instr V))) m m' : (b < N)%nat -> In z (ints b) -> ~ int32 z -> launch32 c N (no_state ints) (stateless body) tt m <> Ok m'.
Proof.
  intros Hb Hz F E. apply (launch_exact c N ints body m m' ltac:(lia)) in E. destruct E as (_ & _ & E). specialize (E b Hb). rewrite Forall_forall in E. exact (F (E z Hz)).
Qed.
Lemma loop_overflows : exists N c, Z.of_nat N < 2 ^ 31 /\ has_threads c /\ Z.of_nat (num_blocks c * threads_per_block c) < 2 ^ 31 /\
  forall V ints (body : nat -> result (list (instr V))) m m', launch32 c N (no_state ints) (stateless body) tt m <> Ok m'.
Proof.
  remember (2 ^ 31 - 1) as top eqn:Et. exists (Z.to_nat top), (mkC 128 128 []). assert (Hn : Z.of_nat (Z.to_nat top) = top) by (apply Z2Nat.id; lia). set (N := Z.to_nat top) in *. clearbody N.
  split; [lia|]. split; [unfold has_threads; discriminate|]. assert (Ht : Z.of_nat (num_blocks (mkC 128 128 []) * threads_per_block (mkC 128 128 [])) = 16384) by reflexivity. split; [lia|].
  intros V ints body m m'. apply uncountable_undefined; [lia|]. unfold countable. rewrite Ht. lia.
Qed.
Lemma maxout_overflows : exists N P c, Z.of_nat N < 2 ^ 31 /\ Z.of_nat P < 2 ^ 31 /\ has_threads c /\ countable c N /\
  forall V (body : nat -> result (list (instr V))) m m', launch32 c N (no_state (ints_maxout P)) (stateless body) tt m <> Ok m'.
Proof.
  remember (2 ^ 16) as big eqn:Et. exists (Z.to_nat big), (Z.to_nat big), (mkC 128 128 []). assert (Hn : Z.of_nat (Z.to_nat big) = big) by (apply Z2Nat.id; lia). set (N := Z.to_nat big) in *. clearbody N.
  split; [lia|]. split; [lia|]. split; [unfold has_threads; discriminate|]. assert (Ht : Z.of_nat (num_blocks (mkC 128 128 []) * threads_per_block (mkC 128 128 [])) = 16384) by reflexivity. split; [unfold countable; rewrite Ht; lia|].
  intros V body m m' E. apply (maxout_exact (V := V)) in E; [|lia|lia]. destruct E as (_ & _ & E). rewrite Hn, Et in E. lia.
Qed.
Lemma gather_add_overflows : forall c B O K indices b k, (b < B)%nat -> (k < K)%nat -> 2 ^ 31 <= nth (b * K + k) indices 0 * Z.of_nat O ->
  forall V (body : nat -> result (list (instr V))) m m', launch32 c B (no_state (ints_gather_add indices O K)) (stateless body) tt m <> Ok m'.
Proof.
  intros c B O K indices b k Hb Hk Hz V body m m'. apply (unfit_undefined c B (ints_gather_add indices O K) b (nth (b * K + k) indices 0 * Z.of_nat O)); [exact Hb | | unfold int32; lia].
  unfold ints_gather_add. unfold each. apply in_flat_map. exists k. split; [apply in_seq; lia|]. right. right. left. f_equal. f_equal. lia.
Qed.
