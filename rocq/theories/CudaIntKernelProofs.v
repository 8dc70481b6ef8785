(** Proofs about 32-bit integers: kernel by kernel. *)
From Coq Require Import Lia ZArith.
From Verif Require Import BaseFacts CudaIntModel CudaIntSpec CudaIntProofs.
Local Open Scope Z_scope.
Set Default Goal Selector "!".

Lemma each_all P n f : Forall P (each n f) <-> forall i, 0 <= i < n -> Forall P (f i).
Proof.
  unfold each. rewrite Forall_forall. split.
  - intros H i Hi. apply Forall_forall. intros x Hx. apply H. apply in_flat_map. exists (Z.to_nat i). split; [apply in_seq; lia|]. rewrite Z2Nat.id by lia. exact Hx.
  - intros H x Hx. apply in_flat_map in Hx. destruct Hx as [i [Hi Hx]]. apply in_seq in Hi. assert (Q := H (Z.of_nat i) ltac:(lia)). rewrite Forall_forall in Q. apply Q. exact Hx.
Qed.
Lemma below b n k : 0 <= b < n -> 0 <= k -> b * k <= n * k - k.
Proof. intros. nia. Qed.

Section Stateless.
  Context {V : Type}.
  Lemma stateless_same c N ints (body : nat -> result (list (instr V))) m : countable c N -> (forall b, (b < N)%nat -> Forall int32 (ints b)) ->
    launch32 c N (no_state ints) (stateless body) tt m = launch c N (stateless body) tt m.
  Proof. intros C F. apply (launch_same (fun _ => True)); [exact C | | intros; exact I | exact I]. intros b s Hb _. apply F. exact Hb. Qed.

  Lemma map_same c N (body : nat -> result (list (instr V))) m : countable c N -> launch32 c N (no_state ints_map) (stateless body) tt m = launch c N (stateless body) tt m.
  Proof. intros C. apply stateless_same; [exact C|]. intros b _. constructor. Qed.

  Lemma gather_add_same c B O K T indices (body : nat -> result (list (instr V))) m : countable c B ->
    Forall (fun i => 0 <= i < Z.of_nat T) indices -> length indices = (B * K)%nat ->
    indexable (Z.of_nat B * Z.of_nat K) -> indexable (Z.of_nat B * Z.of_nat O) -> indexable (Z.of_nat T * Z.of_nat O) ->
    launch32 c B (no_state (ints_gather_add indices O K)) (stateless body) tt m = launch c B (stateless body) tt m.
  Proof.
    unfold indexable. intros C Hi Hl H1 H2 H3. apply stateless_same; [exact C|]. intros b Hb. unfold ints_gather_add. apply each_all. intros k Hk.
    assert (Q : In (nth (Z.to_nat (Z.of_nat b * Z.of_nat K + k)) indices 0) indices) by (apply nth_In; rewrite Hl; nia).
    rewrite Forall_forall in Hi. specialize (Hi _ Q). set (idx := nth _ indices 0) in *. unfold countable in C.
    pose proof (below (Z.of_nat b) (Z.of_nat B) (Z.of_nat K) ltac:(lia) ltac:(lia)). pose proof (below (Z.of_nat b) (Z.of_nat B) (Z.of_nat O) ltac:(lia) ltac:(lia)). pose proof (below idx (Z.of_nat T) (Z.of_nat O) ltac:(lia) ltac:(lia)).
    assert (0 <= Z.of_nat b * Z.of_nat K) by nia. assert (0 <= Z.of_nat b * Z.of_nat O) by nia. assert (0 <= idx * Z.of_nat O) by nia.
    assert (Z.of_nat O = 0 \/ 0 < Z.of_nat O) as [Z0|Z0] by lia.
    - rewrite Z0 in *. rewrite !Z.mul_0_r. repeat constructor; unfold int32; lia.
    - repeat constructor; unfold int32; lia.
  Qed.

  Lemma pad_same c N L stride lengths (body : nat -> result (list (instr V))) m : countable c (L * stride) ->
    Forall (fun len => 0 <= len <= Z.of_nat L) lengths -> indexable (Z.of_nat N * Z.of_nat L * Z.of_nat stride) ->
    launch32 c (L * stride) (no_state (ints_pad lengths stride N L)) (stateless body) tt m = launch c (L * stride) (stateless body) tt m.
  Proof.
    unfold indexable. intros C Hl H1. destruct (Nat.eq_dec (num_blocks c * threads_per_block c) 0) as [Zc|Zc].
    { unfold launch32, launch. rewrite Zc. reflexivity. }
    apply stateless_same; [exact C|]. intros i Hi. unfold ints_pad. apply each_all. intros j Hj. unfold countable in C.
    assert (Q : 0 <= nth (Z.to_nat j) lengths 0 <= Z.of_nat L).
    { destruct (Nat.lt_ge_cases (Z.to_nat j) (length lengths)) as [H|H]; [|rewrite (nth_overflow _ _ H); lia]. rewrite Forall_forall in Hl. apply Hl. apply nth_In. exact H. }
    set (len := nth _ lengths 0) in *. assert (0 < Z.of_nat stride) by nia. assert (0 < Z.of_nat L) by nia. assert (Z.of_nat (L * stride) = Z.of_nat L * Z.of_nat stride) as E by lia.
    assert (0 <= len * Z.of_nat stride <= Z.of_nat L * Z.of_nat stride) by nia. pose proof (below j (Z.of_nat N) (Z.of_nat L * Z.of_nat stride) ltac:(lia) ltac:(nia)). assert (0 <= j * Z.of_nat L) by nia. assert (j * Z.of_nat L <= j * Z.of_nat L * Z.of_nat stride) by nia.
    assert (Z.of_nat i < Z.of_nat L * Z.of_nat stride) by lia. rewrite Z.mul_assoc in *. assert (Z.of_nat L * Z.of_nat stride < 2 ^ 31) by lia. repeat constructor; unfold int32; lia.
  Qed.

  Lemma pad_exact c N L stride lengths (body : nat -> result (list (instr V))) m m' : (0 < N)%nat -> (0 < L)%nat -> (0 < stride)%nat -> 
    Forall (fun len => 0 <= len <= Z.of_nat L) lengths ->
    (launch32 c (L * stride) (no_state (ints_pad lengths stride N L)) (stateless body) tt m = Ok m' <->
     launch c (L * stride) (stateless body) tt m = Ok m' /\ countable c (L * stride) /\ indexable (Z.of_nat N * Z.of_nat L * Z.of_nat stride)).
  Proof.
    intros HN HL Hs Hl. split.
    - intros H. assert (Hz : (L * stride)%nat <> O) by nia. apply (launch_exact c _ _ body m m' Hz) in H. destruct H as (H1 & H2 & H3).
      split; [exact H1|]. split; [exact H2|]. unfold indexable.
      specialize (H3 (L * stride - 1)%nat ltac:(nia)). unfold ints_pad in H3. rewrite each_all in H3.
      specialize (H3 (Z.of_nat N - 1) ltac:(lia)).
      assert (Q : int32 ((Z.of_nat N - 1) * Z.of_nat L * Z.of_nat stride + Z.of_nat (L * stride - 1))).
      { rewrite Forall_forall in H3. apply H3. right. right. right. left. reflexivity. }
      destruct Q as [_ Q]. rewrite Nat2Z.inj_sub, Nat2Z.inj_mul in Q by nia.
      replace (Z.of_nat N * Z.of_nat L * Z.of_nat stride) with ((Z.of_nat N - 1) * Z.of_nat L * Z.of_nat stride + Z.of_nat L * Z.of_nat stride) by ring.
      lia.
    - intros (H1 & H2 & H3). rewrite (pad_same c N L stride lengths body m H2 Hl H3). exact H1.
  Qed.

  Lemma maxout_ints P N : (0 < P)%nat -> ((forall bo, (bo < N)%nat -> Forall int32 (ints_maxout P bo)) <-> N = O \/ (Z.of_nat N - 1) * Z.of_nat P < 2 ^ 31).
  Proof.
    intros HP. unfold ints_maxout. split.
    - intros H. destruct N as [|N]; [left; reflexivity|]. right. specialize (H N ltac:(lia)). inversion H as [|? ? [_ H1] _]. lia.
    - intros [->|H] bo Hb; [lia|]. repeat constructor; unfold int32; nia.
  Qed.
  Lemma maxout_exact c N P (body : nat -> result (list (instr V))) m m' : N <> O -> (0 < P)%nat ->
    (launch32 c N (no_state (ints_maxout P)) (stateless body) tt m = Ok m' <->
     launch c N (stateless body) tt m = Ok m' /\ countable c N /\ (Z.of_nat N - 1) * Z.of_nat P < 2 ^ 31).
  Proof.
    intros HN HP. rewrite (launch_exact c N _ body m m' HN). rewrite (maxout_ints P N HP). intuition lia.
  Qed.

  Lemma sums_bounded lo hi : forall l t, lo <= t -> Forall (fun x => 0 <= x) l -> t + zsum l <= hi -> Forall (fun z => lo <= z <= hi) (ints_sums t l).
  Proof.
    induction l as [|x l IH]; intros t Ht Hl Hs; [constructor|]. inversion Hl as [|? ? Hx Hl']. cbn [zsum fold_right] in Hs. fold (zsum l) in Hs.
    assert (0 <= zsum l) by (clear - Hl'; induction Hl'; cbn [zsum fold_right]; [lia|]; fold (zsum l); lia).
    cbn [ints_sums]. constructor; [lia|]. apply IH; [lia | exact Hl' | lia].
  Qed.
  Lemma zsum_nonneg l : Forall (fun x => 0 <= x) l -> 0 <= zsum l.
  Proof. induction 1; cbn [zsum fold_right]; [lia|]. fold (zsum l). lia. Qed.
  Lemma zsum_app a b : zsum (a ++ b) = zsum a + zsum b.
  Proof. induction a as [|x a IH]; cbn [zsum fold_right app]; [reflexivity|]. fold (zsum (a ++ b)%list). fold (zsum a). lia. Qed.
  Lemma split_at b lengths : (b < length lengths)%nat -> zsum lengths = zsum (firstn b lengths) + nth b lengths 0 + zsum (skipn (S b) lengths).
  Proof.
    intros H. rewrite <- (firstn_skipn b lengths) at 1. rewrite zsum_app. assert (skipn b lengths = nth b lengths 0 :: skipn (S b) lengths) as ->; [|cbn [zsum fold_right]; fold (zsum (skipn (S b) lengths)); lia].
    revert lengths H. induction b as [|b IH]; intros [|x l] H; cbn in H; try lia; [reflexivity|]. cbn. apply IH. lia.
  Qed.
  Lemma forall_firstn {A} (P : A -> Prop) n l : Forall P l -> Forall P (firstn n l).
  Proof. intros H. rewrite <- (firstn_skipn n l) in H. apply Forall_app in H. exact (proj1 H). Qed.
  Lemma forall_skipn {A} (P : A -> Prop) n l : Forall P l -> Forall P (skipn n l).
  Proof. intros H. rewrite <- (firstn_skipn n l) in H. apply Forall_app in H. exact (proj2 H). Qed.

  Lemma reduce_sum_same c O lengths (body : nat -> result (list (instr V))) m : countable c (length lengths) -> Forall (fun x => 0 <= x) lengths ->
    zsum lengths < 2 ^ 31 -> indexable (zsum lengths * Z.of_nat O) -> indexable (Z.of_nat (length lengths) * Z.of_nat O) ->
    launch32 c (length lengths) (no_state (ints_reduce_sum lengths O)) (stateless body) tt m = launch c (length lengths) (stateless body) tt m.
  Proof.
    unfold indexable. intros C Hl H1 H2 H3. apply stateless_same; [exact C|]. intros b Hb. unfold countable in C. unfold ints_reduce_sum.
    pose proof (split_at b lengths Hb) as S. pose proof (zsum_nonneg _ (forall_firstn _ b _ Hl)) as P1. pose proof (zsum_nonneg _ (forall_skipn _ (Datatypes.S b) _ Hl)) as P2.
    assert (P3 : 0 <= nth b lengths 0) by (rewrite Forall_forall in Hl; apply Hl; apply nth_In; exact Hb).
    set (t := zsum (firstn b lengths)) in *. set (len := nth b lengths 0) in *.
    pose proof (below (Z.of_nat b) (Z.of_nat (length lengths)) (Z.of_nat O) ltac:(lia) ltac:(lia)).
    assert (0 <= Z.of_nat b * Z.of_nat O) by nia.
    assert (Ho : Z.of_nat O = 0 \/ 0 < Z.of_nat O) by lia.
    apply Forall_app. split; [|apply Forall_app; split].
    - constructor; [|constructor]. unfold int32. destruct Ho as [->|Ho]; lia.
    - apply (Forall_impl (P := fun z => 0 <= z <= zsum lengths)); [intros z Hz; unfold int32; lia|]. apply sums_bounded; [lia | apply forall_firstn; exact Hl | fold t; lia].
    - apply each_all. intros i Hi. assert (0 <= (t + i) * Z.of_nat O) by nia. pose proof (below (t + i) (zsum lengths) (Z.of_nat O) ltac:(lia) ltac:(lia)).
      repeat constructor; unfold int32; destruct Ho as [Ho|Ho]; rewrite ?Ho in *; lia.
  Qed.

  Lemma reduce_max_same c O lengths (body : nat -> result (list (instr V))) m : countable c (length lengths) -> Forall (fun x => 0 < x) lengths ->
    indexable (zsum lengths * Z.of_nat O) ->
    launch32 c (length lengths) (no_state (ints_reduce_max lengths O)) (stateless body) tt m = launch c (length lengths) (stateless body) tt m.
  Proof.
    unfold indexable. intros C Hl H2. apply stateless_same; [exact C|]. intros b Hb. unfold countable in C. unfold ints_reduce_max.
    assert (Hl' : Forall (fun x => 0 <= x) lengths) by (apply (Forall_impl (P := fun x => 0 < x)); [intros; lia | exact Hl]).
    assert (L : forall l, Forall (fun x => 0 < x) l -> Z.of_nat (length l) <= zsum l) by (clear; induction 1; cbn [zsum fold_right length]; [lia|]; fold (zsum l); lia).
    pose proof (L lengths Hl) as L1. pose proof (split_at b lengths Hb) as S. pose proof (zsum_nonneg _ (forall_firstn _ b _ Hl')) as P1. pose proof (zsum_nonneg _ (forall_skipn _ (Datatypes.S b) _ Hl')) as P2.
    assert (P3 : 0 < nth b lengths 0) by (rewrite Forall_forall in Hl; apply Hl; apply nth_In; exact Hb).
    assert (0 < Z.of_nat O \/ Z.of_nat O = 0) as [Ho|Ho] by lia.
    2: { rewrite Ho. constructor; [unfold int32; lia|]. apply Forall_forall. intros x Hx. apply in_map_iff in Hx. destruct Hx as [y [<- _]]. unfold int32. lia. }
    pose proof (below (Z.of_nat b) (Z.of_nat (length lengths)) (Z.of_nat O) ltac:(lia) ltac:(lia)). assert (Z.of_nat (length lengths) * Z.of_nat O <= zsum lengths * Z.of_nat O) by nia. assert (0 <= Z.of_nat b * Z.of_nat O) by nia.
    constructor; [unfold int32; lia|]. apply Forall_forall. intros x Hx. apply in_map_iff in Hx. destruct Hx as [y [<- Hy]].
    assert (Q : y <= zsum (firstn b lengths)).
    { pose proof (forall_firstn _ b _ Hl') as F. clear - Hy F. induction F as [|z l Hz F IH]; [destruct Hy|]. cbn [zsum fold_right]. fold (zsum l). pose proof (zsum_nonneg _ F). destruct Hy as [->|Hy]; [lia|]. specialize (IH Hy). lia. }
    assert (0 < y). { pose proof (forall_firstn _ b _ Hl) as F. rewrite Forall_forall in F. apply F. exact Hy. }
    pose proof (below y (zsum lengths) (Z.of_nat O) ltac:(lia) ltac:(lia)). unfold int32. nia.
  Qed.

  Lemma backprop_maxout_same c B O P which (body : nat -> result (list (instr V))) m : countable c B ->
    Forall (fun w => 0 <= w < Z.of_nat P) which -> length which = (B * O)%nat -> indexable (Z.of_nat B * Z.of_nat O * Z.of_nat P) -> (0 < P)%nat ->
    launch32 c B (no_state (ints_backprop_maxout which O P)) (stateless body) tt m = launch c B (stateless body) tt m.
  Proof.
    unfold indexable. intros C Hw Hl H1 HP. apply stateless_same; [exact C|]. intros b Hb. unfold countable in C. unfold ints_backprop_maxout.
    pose proof (below (Z.of_nat b) (Z.of_nat B) (Z.of_nat O * Z.of_nat P) ltac:(lia) ltac:(nia)) as Q. rewrite !Z.mul_assoc in Q.
    assert (0 <= Z.of_nat b * Z.of_nat O) by nia. assert (Z.of_nat b * Z.of_nat O <= Z.of_nat b * Z.of_nat O * Z.of_nat P) by nia.
    apply Forall_app. split.
    - assert (Z.of_nat O = 0 \/ 0 < Z.of_nat O) as [Ho|Ho] by lia; [rewrite Ho; repeat constructor; unfold int32; lia|].
      assert (0 < Z.of_nat O * Z.of_nat P) by nia. repeat constructor; unfold int32; lia.
    - apply each_all. intros i Hi. assert (In (nth (Z.to_nat (Z.of_nat b * Z.of_nat O + i)) which 0) which) as N by (apply nth_In; rewrite Hl; nia).
      rewrite Forall_forall in Hw. specialize (Hw _ N). set (w := nth _ which 0) in *.
      pose proof (below i (Z.of_nat O) (Z.of_nat P) ltac:(lia) ltac:(lia)). assert (0 <= i * Z.of_nat P) by nia.
      assert (Z.of_nat O * Z.of_nat P <= Z.of_nat B * Z.of_nat O * Z.of_nat P) by nia. repeat constructor; unfold int32; lia.
  Qed.
End Stateless.
