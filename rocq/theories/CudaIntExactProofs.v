(** Proofs about 32-bit integers: when exactly a kernel stays in range. *)
From Coq Require Import Lia ZArith List.
From Verif Require Import BaseFacts CudaIntModel CudaIntSpec CudaProofs CudaIntProofs CudaIntKernelProofs.
Import ListNotations.
Local Open Scope Z_scope.
Set Default Goal Selector "!".

Section Exact.
  Context {V : Type}.
  Lemma each_in P n f i x : Forall P (each n f) -> 0 <= i < n -> In x (f i) -> P x.
  Proof. intros H Hi Hx. rewrite each_all in H. specialize (H i Hi). rewrite Forall_forall in H. exact (H x Hx). Qed.

  Lemma gather_add_exact c B O K indices (body : nat -> result (list (instr V))) m m' : (0 < B)%nat -> (0 < K)%nat ->
    Forall (fun i => 0 <= i) indices -> length indices = (B * K)%nat ->
    (launch32 c B (no_state (ints_gather_add indices O K)) (stateless body) tt m = Ok m' <->
     launch c B (stateless body) tt m = Ok m' /\ countable c B /\ indexable (Z.of_nat B * Z.of_nat K) /\
     (Z.of_nat B - 1) * Z.of_nat O < 2 ^ 31 /\ Forall (fun i => i * Z.of_nat O < 2 ^ 31) indices).
  Proof.
    intros HB HK Hi Hl. rewrite (launch_exact c B _ body m m') by lia. unfold ints_gather_add, indexable. split.
    - intros (H1 & H2 & H3). split; [exact H1|]. split; [exact H2|].
      pose proof (H3 (B - 1)%nat ltac:(lia)) as Hb.
      assert (Q1 := each_in _ _ _ (Z.of_nat K - 1) (Z.of_nat (B - 1) * Z.of_nat K + (Z.of_nat K - 1)) Hb ltac:(lia) ltac:(right; left; reflexivity)).
      assert (Q2 := each_in _ _ _ (Z.of_nat K - 1) (Z.of_nat (B - 1) * Z.of_nat O) Hb ltac:(lia) ltac:(right; right; right; left; reflexivity)).
      destruct Q1 as [_ Q1]. destruct Q2 as [_ Q2]. rewrite Nat2Z.inj_sub in Q1, Q2 by lia.
      split; [replace (Z.of_nat B * Z.of_nat K) with ((Z.of_nat B - Z.of_nat 1) * Z.of_nat K + Z.of_nat K) by ring; lia|]. split; [exact Q2|].
      apply Forall_forall. intros x Hx. destruct (In_nth _ _ 0 Hx) as (n & Hn & En). rewrite Hl in Hn.
      assert (Hd : (n / K < B)%nat) by (apply Nat.div_lt_upper_bound; lia).
      assert (Hm : (n mod K < K)%nat) by (apply Nat.mod_upper_bound; lia).
      pose proof (Nat.div_mod n K ltac:(lia)) as Hdm.
      assert (Q := each_in _ _ _ (Z.of_nat (n mod K)) (x * Z.of_nat O) (H3 _ Hd) ltac:(lia)).
      apply Q. right. right. left. f_equal. rewrite <- En. f_equal. lia.
    - intros (H1 & H2 & H3 & H4 & H5). split; [exact H1|]. split; [exact H2|]. intros b Hb. apply each_all. intros k Hk.
      assert (Qi : In (nth (Z.to_nat (Z.of_nat b * Z.of_nat K + k)) indices 0) indices) by (apply nth_In; rewrite Hl; nia).
      rewrite Forall_forall in Hi, H5. specialize (Hi _ Qi). specialize (H5 _ Qi). cbv beta in H5. set (idx := nth _ indices 0) in *.
      pose proof (below (Z.of_nat b) (Z.of_nat B) (Z.of_nat K) ltac:(lia) ltac:(lia)).
      assert (0 <= Z.of_nat b * Z.of_nat K) by nia. assert (0 <= Z.of_nat b * Z.of_nat O <= (Z.of_nat B - 1) * Z.of_nat O) by nia. assert (0 <= idx * Z.of_nat O) by nia.
      repeat constructor; unfold int32; lia.
  Qed.

  Lemma in_firstn {A} (n : nat) (l : list A) x : In x (firstn n l) -> In x l.
  Proof. intros H. rewrite <- (firstn_skipn n l). apply in_or_app. left; exact H. Qed.
  Lemma reduce_max_exact c O lengths (body : nat -> result (list (instr V))) m m' : lengths <> [] -> Forall (fun x => 0 < x) lengths ->
    (launch32 c (length lengths) (no_state (ints_reduce_max lengths O)) (stateless body) tt m = Ok m' <->
     launch c (length lengths) (stateless body) tt m = Ok m' /\ countable c (length lengths) /\
     (Z.of_nat (length lengths) - 1) * Z.of_nat O < 2 ^ 31 /\
     forall i, (S i < length lengths)%nat -> nth i lengths 0 * Z.of_nat O < 2 ^ 31).
  Proof.
    intros Hne Hl. assert (Hz : length lengths <> 0%nat) by (destruct lengths; [contradiction|discriminate]).
    rewrite (launch_exact c _ _ body m m' Hz). unfold ints_reduce_max. split.
    - intros (H1 & H2 & H3). split; [exact H1|]. split; [exact H2|]. specialize (H3 (length lengths - 1)%nat ltac:(lia)).
      rewrite Forall_forall in H3. split.
      + destruct (H3 (Z.of_nat (length lengths - 1) * Z.of_nat O) ltac:(left; reflexivity)) as [_ Q]. rewrite Nat2Z.inj_sub in Q by lia. exact Q.
      + intros i Hi. apply (H3 (nth i lengths 0 * Z.of_nat O)). right. apply in_map_iff. exists (nth i lengths 0). split; [reflexivity|].
        assert (E : nth i lengths 0 = nth i (firstn (length lengths - 1) lengths) 0).
        { rewrite <- (firstn_skipn (length lengths - 1) lengths) at 1. apply app_nth1. rewrite firstn_length. lia. }
        rewrite E. apply nth_In. rewrite firstn_length. lia.
    - intros (H1 & H2 & H3 & H4). split; [exact H1|]. split; [exact H2|]. intros b Hb. constructor; [unfold int32; nia|].
      apply Forall_forall. intros z Hz'. apply in_map_iff in Hz'. destruct Hz' as (len & <- & Hin).
      destruct (In_nth _ _ 0 Hin) as (i & Hi & Ei). rewrite firstn_length in Hi.
      assert (E : nth i lengths 0 = len).
      { rewrite <- Ei. rewrite <- (firstn_skipn b lengths) at 1. apply app_nth1. rewrite firstn_length. lia. }
      pose proof (H4 i ltac:(lia)) as Q. rewrite E in Q. rewrite Forall_forall in Hl. pose proof (Hl _ (in_firstn _ _ _ Hin)).
      unfold int32. nia.
  Qed.

  Lemma backprop_maxout_exact c B O P which (body : nat -> result (list (instr V))) m m' : (0 < B)%nat -> (0 < O)%nat ->
    Forall (fun w => 0 <= w < Z.of_nat P) which -> length which = (B * O)%nat ->
    (launch32 c B (no_state (ints_backprop_maxout which O P)) (stateless body) tt m = Ok m' <->
     launch c B (stateless body) tt m = Ok m' /\ countable c B /\ (Z.of_nat B - 1) * Z.of_nat O * Z.of_nat P < 2 ^ 31 /\
     forall b i, (b < B)%nat -> (i < O)%nat -> Z.of_nat i * Z.of_nat P + nth (b * O + i) which 0 < 2 ^ 31).
  Proof.
    intros HB HO Hw Hl. rewrite (launch_exact c B _ body m m') by lia. unfold ints_backprop_maxout. split.
    - intros (H1 & H2 & H3). split; [exact H1|]. split; [exact H2|]. split.
      + specialize (H3 (B - 1)%nat ltac:(lia)). rewrite Forall_forall in H3.
        destruct (H3 (Z.of_nat (B - 1) * Z.of_nat O * Z.of_nat P) ltac:(right; left; reflexivity)) as [_ Q].
        rewrite Nat2Z.inj_sub in Q by lia. exact Q.
      + intros b i Hb Hi. specialize (H3 b Hb). apply Forall_app in H3. destruct H3 as (_ & H3).
        apply (each_in _ _ _ (Z.of_nat i) (Z.of_nat i * Z.of_nat P + nth (b * O + i) which 0) H3); [lia|].
        right. left. f_equal. f_equal. lia.
    - intros (H1 & H2 & H3 & H4). split; [exact H1|]. split; [exact H2|]. intros b Hb.
      assert (Qp : 0 < Z.of_nat P).
      { destruct which as [|w which]; [cbn in Hl; nia|]. inversion Hw. lia. }
      assert (A1 : 0 <= Z.of_nat b * Z.of_nat O) by nia.
      assert (A2 : 0 <= Z.of_nat b * Z.of_nat O * Z.of_nat P) by nia.
      assert (A3 : Z.of_nat b * Z.of_nat O <= Z.of_nat b * Z.of_nat O * Z.of_nat P) by nia.
      assert (A4 : Z.of_nat b * Z.of_nat O * Z.of_nat P <= (Z.of_nat B - 1) * Z.of_nat O * Z.of_nat P).
      { apply Z.mul_le_mono_nonneg_r; [lia|]. apply Z.mul_le_mono_nonneg_r; lia. }
      apply Forall_app. split; [repeat constructor; unfold int32; lia|].
      apply each_all. intros i Hi.
      assert (Qi : In (nth (Z.to_nat (Z.of_nat b * Z.of_nat O + i)) which 0) which) by (apply nth_In; rewrite Hl; nia).
      rewrite Forall_forall in Hw. specialize (Hw _ Qi).
      pose proof (H4 b (Z.to_nat i) Hb ltac:(lia)) as Q. rewrite Z2Nat.id in Q by lia.
      replace (b * O + Z.to_nat i)%nat with (Z.to_nat (Z.of_nat b * Z.of_nat O + i)) in Q by lia.
      set (w := nth _ which 0) in *. assert (0 <= i * Z.of_nat P) by nia.
      repeat constructor; unfold int32; lia.
  Qed.

  Lemma row_in_sequence : forall lengths r, Forall (fun x => 0 <= x) lengths -> 0 <= r < zsum lengths ->
    exists b, (b < length lengths)%nat /\ 0 <= r - zsum (firstn b lengths) < nth b lengths 0.
  Proof.
    induction lengths as [|x l IH]; intros r Hl Hr; [cbn in Hr; lia|]. inversion Hl as [|? ? Hx Hl']; subst.
    cbn [zsum fold_right] in Hr. fold (zsum l) in Hr. destruct (Z.lt_ge_cases r x) as [H|H].
    - exists 0%nat. split; [cbn; lia|]. cbn. lia.
    - destruct (IH (r - x) Hl' ltac:(lia)) as (b & Hb & Q). exists (S b). split; [cbn; lia|]. cbn [firstn nth zsum fold_right]. fold (zsum (firstn b l)). lia.
  Qed.
  Lemma sums_last : forall l t, l <> [] -> In (t + zsum l) (ints_sums t l).
  Proof.
    induction l as [|x l IH]; intros t H; [contradiction|]. cbn [ints_sums zsum fold_right]. fold (zsum l). destruct l as [|y l].
    - left. cbn. lia.
    - right. rewrite Z.add_assoc. apply IH. discriminate.
  Qed.
  Lemma zsum_firstn_mono : forall l b k, Forall (fun x => 0 <= x) l -> (b <= k)%nat -> zsum (firstn b l) <= zsum (firstn k l).
  Proof.
    induction l as [|x l IH]; intros b k Hl Hb; [rewrite !firstn_nil; lia|]. inversion Hl as [|? ? Hx Hl']; subst.
    destruct k as [|k]; [replace b with 0%nat by lia; lia|]. destruct b as [|b].
    - cbn [firstn zsum fold_right]. fold (zsum (firstn k l)). pose proof (zsum_nonneg _ (forall_firstn _ k _ Hl')). lia.
    - cbn [firstn zsum fold_right]. fold (zsum (firstn k l)). fold (zsum (firstn b l)). pose proof (IH b k Hl' ltac:(lia)). lia.
  Qed.

  Lemma reduce_sum_exact c O lengths (body : nat -> result (list (instr V))) m m' : lengths <> [] -> Forall (fun x => 0 <= x) lengths -> 
    (launch32 c (length lengths) (no_state (ints_reduce_sum lengths O)) (stateless body) tt m = Ok m' <->
     launch c (length lengths) (stateless body) tt m = Ok m' /\ countable c (length lengths) /\
     (Z.of_nat (length lengths) - 1) * Z.of_nat O < 2 ^ 31 /\ zsum (firstn (length lengths - 1) lengths) < 2 ^ 31 /\
     indexable (zsum lengths) /\ (0 < zsum lengths -> (zsum lengths - 1) * Z.of_nat O < 2 ^ 31)).
  Proof.
    intros Hne Hl. assert (Hz : length lengths <> 0%nat) by (destruct lengths; [contradiction|discriminate]).
    rewrite (launch_exact c _ _ body m m' Hz). unfold ints_reduce_sum, indexable. split.
    - intros (H1 & H2 & H3). split; [exact H1|]. split; [exact H2|].
      assert (Hrow : 0 < zsum lengths -> int32 (zsum lengths - 1) /\ int32 ((zsum lengths - 1) * Z.of_nat O)).
      { intros Hp. destruct (row_in_sequence lengths (zsum lengths - 1) Hl ltac:(lia)) as (b & Hb & Q).
        specialize (H3 b Hb). apply Forall_app in H3. destruct H3 as (_ & H3). apply Forall_app in H3. destruct H3 as (_ & H3).
        split; apply (each_in _ _ _ (zsum lengths - 1 - zsum (firstn b lengths)) _ H3 Q).
        - left. lia.
        - right. left. f_equal. lia. }
      specialize (H3 (length lengths - 1)%nat ltac:(lia)). apply Forall_app in H3. destruct H3 as (Ha & H3). apply Forall_app in H3. destruct H3 as (Hb & _).
      split; [|split; [|split]].
      + inversion Ha as [|? ? [_ Q] _]. rewrite Nat2Z.inj_sub in Q by lia. exact Q.
      + destruct (firstn (length lengths - 1) lengths) as [|x l] eqn:E; [cbn; lia|].
        rewrite Forall_forall in Hb. apply (Hb (0 + zsum (x :: l))). apply sums_last. discriminate.
      + destruct (Z.lt_ge_cases 0 (zsum lengths)) as [Hp|Hp]; [|lia]. destruct (Hrow Hp) as ([_ Q] & _). lia.
      + intros Hp. exact (proj2 (proj2 (Hrow Hp))).
    - intros (H1 & H2 & H3 & H4 & H5 & H6). split; [exact H1|]. split; [exact H2|]. intros b Hb.
      pose proof (split_at b lengths Hb) as Sp. pose proof (zsum_nonneg _ (forall_firstn _ b _ Hl)) as P1. pose proof (zsum_nonneg _ (forall_skipn _ (Datatypes.S b) _ Hl)) as P2.
      assert (P3 : 0 <= nth b lengths 0) by (rewrite Forall_forall in Hl; apply Hl; apply nth_In; exact Hb).
      pose proof (zsum_firstn_mono lengths b (length lengths - 1) Hl ltac:(lia)) as P4.
      apply Forall_app. split; [|apply Forall_app; split].
      + constructor; [|constructor]. unfold int32. nia.
      + apply (Forall_impl (P := fun z => 0 <= z <= zsum (firstn b lengths))); [intros z Hz'; unfold int32; lia|].
        apply sums_bounded; [lia|apply forall_firstn; exact Hl|lia].
      + apply each_all. intros i Hi. specialize (H6 ltac:(lia)). set (t := zsum (firstn b lengths)) in *.
        assert (0 <= (t + i) * Z.of_nat O <= (zsum lengths - 1) * Z.of_nat O) by nia.
        repeat constructor; unfold int32; lia.
  Qed.
End Exact.

Section Reached.
  Context {V S : Type}.
  Implicit Types (ints : nat -> S -> list Z) (body : nat -> S -> result (S * list (instr V))).
  Lemma loop_reaches stride N ints body : forall fuel b s l, grid_for32 fuel b stride N ints body s = Ok l ->
    forall j, (b + j * stride < N)%nat -> exists s', Forall int32 (ints (b + j * stride)%nat s').
  Proof.
    induction fuel as [|fuel IH]; intros b s l E j Hj; cbn [grid_for32] in E; destruct (Nat.ltb b N) eqn:L.
    - discriminate.
    - apply Nat.ltb_ge in L. lia.
    - destruct (forallb fits (ints b s)) eqn:F; [|discriminate]. destruct (body b s) as [p|]; cbn [bind] in E; [|discriminate].
      destruct (fits (Z.of_nat b + Z.of_nat stride)) eqn:G; [|discriminate].
      destruct (grid_for32 fuel (b + stride) stride N ints body (fst p)) as [rest|] eqn:R; cbn [bind] in E; [|discriminate].
      destruct j as [|j].
      + replace (b + 0 * stride)%nat with b by lia. exists s. apply all_fit. exact F.
      + replace (b + Datatypes.S j * stride)%nat with ((b + stride) + j * stride)%nat in * by lia. exact (IH _ _ _ R j Hj).
    - apply Nat.ltb_ge in L. lia.
  Qed.
  (** Every iteration of a launch with a defined result computes its integers, in some state of its thread. *)
  Lemma launch_reaches c N ints body s m m' : launch32 c N ints body s m = Ok m' -> forall b, (b < N)%nat -> exists s', Forall int32 (ints b s').
  Proof.
    intros E b Hb. unfold launch32 in E. destruct (Nat.eqb (num_blocks c * threads_per_block c) 0) eqn:Z0; [discriminate|]. apply Nat.eqb_neq in Z0. rewrite (Nat.mul_comm (threads_per_block c)) in E.
    set (st := (num_blocks c * threads_per_block c)%nat) in *.
    destruct (fits (Z.of_nat N)) eqn:F1; [|discriminate]. destruct (fits (Z.of_nat st)) eqn:F2; [|discriminate]. cbn [andb negb] in E.
    destruct (mapM _ _) as [codes|] eqn:M in E; cbn [bind] in E; [|discriminate].
    pose proof (Nat.div_mod b st Z0) as D. pose proof (Nat.mod_upper_bound b st Z0) as U.
    destruct (nth_error codes (b mod st)%nat) as [l|] eqn:Nc.
    2: { apply nth_error_None in Nc. rewrite (mapM_length _ _ _ M), loop_starts_seq, seq_length in Nc. fold st in Nc. lia. }
    assert (Q : nth_error (loop_starts (num_blocks c) (threads_per_block c)) (b mod st)%nat = Some (b mod st)%nat).
    { rewrite loop_starts_seq. fold st. rewrite (nth_error_nth' _ O); [|rewrite seq_length; exact U]. rewrite seq_nth; [reflexivity | exact U]. }
    destruct (mapM_nth_error _ _ _ _ _ M Q) as [l' [Hl' _]]. cbv beta in Hl'.
    destruct (fits (Z.of_nat (b mod st))) eqn:F3; [|discriminate].
    replace b with ((b mod st) + (b / st) * st)%nat by lia. apply (loop_reaches st N ints body N (b mod st)%nat s l' Hl'). lia.
  Qed.
End Reached.

Lemma rows_overflow V c N O (body : nat -> cursor -> result (cursor * list (instr V))) s m m' :
  2 ^ 31 <= (Z.of_nat N - 1) * Z.of_nat O -> launch32 c N (ints_backprop_reduce_rows O) body s m <> Ok m'.
Proof.
  intros H E. assert (HN : (0 < N)%nat) by (destruct N; [change (Z.of_nat 0) with 0 in H; exfalso; lia|lia]).
  destruct (launch_reaches _ _ _ _ _ _ _ E (N - 1)%nat ltac:(lia)) as (s' & F). unfold ints_backprop_reduce_rows in F.
  apply Forall_app in F. destruct F as (_ & F). rewrite Forall_forall in F.
  destruct (F (Z.of_nat (N - 1) * Z.of_nat O) ltac:(right; left; reflexivity)) as [_ Q]. rewrite Nat2Z.inj_sub in Q by lia. lia.
Qed.
Lemma sum_rows_overflow V c N O (body : nat -> cursor -> result (cursor * list (instr V))) s m m' : (0 < O)%nat ->
  ~ indexable (Z.of_nat N * Z.of_nat O) -> launch32 c N (ints_backprop_reduce_sum O) body s m <> Ok m'.
Proof.
  unfold indexable. intros HO H E. assert (HN : (0 < N)%nat) by (destruct N; [change (Z.of_nat 0) with 0 in H; exfalso; lia|lia]).
  destruct (launch_reaches _ _ _ _ _ _ _ E (N - 1)%nat ltac:(lia)) as (s' & F). unfold ints_backprop_reduce_sum in F.
  apply Forall_app in F. destruct F as (_ & F).
  assert (Q := each_in _ _ _ (Z.of_nat O - 1) (Z.of_nat (N - 1) * Z.of_nat O + (Z.of_nat O - 1)) F ltac:(lia) ltac:(right; left; reflexivity)).
  destruct Q as [_ Q]. rewrite Nat2Z.inj_sub in Q by lia.
  replace (Z.of_nat N * Z.of_nat O) with ((Z.of_nat N - Z.of_nat 1) * Z.of_nat O + Z.of_nat O) in H by ring. lia.
Qed.
