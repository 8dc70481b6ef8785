(** Proofs about 32-bit integers: windows beyond 2^31 numbers. *)
From Coq Require Import Lia ZArith List.
From Verif Require Import BaseFacts CudaIntModel CudaIntSpec CudaProofs CudaIntProofs CudaIntKernelProofs CudaIntExactProofs CudaIntSeqProofs.
Import ListNotations.
Local Open Scope Z_scope.
Set Default Goal Selector "!".

Section ReachedInv.
  Context {V S : Type}.
  Variable inv : nat -> S -> Prop.
  Implicit Types (ints : nat -> S -> list Z) (body : nat -> S -> result (S * list (instr V))).
  Lemma loop_reaches_inv stride N ints body : (forall b s p, (b < N)%nat -> inv b s -> body b s = Ok p -> inv (b + stride) (fst p)) ->
    forall fuel b s l, inv b s -> grid_for32 fuel b stride N ints body s = Ok l ->
    forall j, (b + j * stride < N)%nat -> exists s', inv (b + j * stride) s' /\ Forall int32 (ints (b + j * stride)%nat s').
  Proof.
    intros Hp. induction fuel as [|fuel IH]; intros b s l Hs E j Hj; cbn [grid_for32] in E; destruct (Nat.ltb b N) eqn:L.
    - discriminate.
    - apply Nat.ltb_ge in L. lia.
    - destruct (forallb fits (ints b s)) eqn:F; [|discriminate]. destruct (body b s) as [p|] eqn:Bd; cbn [bind] in E; [|discriminate].
      destruct (fits (Z.of_nat b + Z.of_nat stride)) eqn:G; [|discriminate].
      destruct (grid_for32 fuel (b + stride) stride N ints body (fst p)) as [rest|] eqn:R; cbn [bind] in E; [|discriminate].
      destruct j as [|j].
      + replace (b + 0 * stride)%nat with b by lia. exists s. split; [exact Hs|]. apply all_fit. exact F.
      + replace (b + Datatypes.S j * stride)%nat with ((b + stride) + j * stride)%nat in * by lia. apply Nat.ltb_lt in L. exact (IH _ _ _ (Hp _ _ _ L Hs Bd) R j Hj).
    - apply Nat.ltb_ge in L. lia.
  Qed.
  Lemma launch_reaches_inv c N ints body s m m' : launch32 c N ints body s m = Ok m' -> (forall b, inv b s) ->
    (forall stride b s p, (b < N)%nat -> inv b s -> body b s = Ok p -> inv (b + stride) (fst p)) ->
    forall b, (b < N)%nat -> exists s', inv b s' /\ Forall int32 (ints b s').
  Proof.
    intros E Hs Hp b Hb. unfold launch32 in E. destruct (Nat.eqb (num_blocks c * threads_per_block c) 0) eqn:Z0; [discriminate|]. apply Nat.eqb_neq in Z0. rewrite (Nat.mul_comm (threads_per_block c)) in E.
    set (st := (num_blocks c * threads_per_block c)%nat) in *.
    destruct (fits (Z.of_nat N)) eqn:F1; [|discriminate]. destruct (fits (Z.of_nat st)) eqn:F2; [|discriminate]. cbn [andb negb] in E.
    destruct (mapM _ _) as [codes|] eqn:M in E; cbn [bind] in E; [|discriminate].
    pose proof (Nat.div_mod b st Z0) as D. pose proof (Nat.mod_upper_bound b st Z0) as U.
    destruct (nth_error codes (b mod st)%nat) as [l|] eqn:Nc.
    2: { apply nth_error_None in Nc. rewrite (mapM_length _ _ _ M), loop_starts_seq, seq_length in Nc. fold st in Nc. lia. }
    assert (Q : nth_error (loop_starts (num_blocks c) (threads_per_block c)) (b mod st)%nat = Some (b mod st)%nat).
    { rewrite loop_starts_seq. fold st. rewrite (nth_error_nth' _ O); [|rewrite seq_length; exact U]. rewrite seq_nth; [reflexivity | exact U]. }
    destruct (mapM_nth_error _ _ _ _ _ M Q) as [l' [Hl' _]]. cbv beta in Hl'.
    destruct (fits (Z.of_nat (b mod st))) eqn:F3; [|discriminate].
    replace b with ((b mod st) + (b / st) * st)%nat by lia. apply (loop_reaches_inv st N ints body (Hp st) N (b mod st)%nat s l' (Hs _) Hl'). lia.
  Qed.
End ReachedInv.

Lemma find_start t : forall rest seq start, start <= t -> c_start (find_seq t rest seq start) <= t.
Proof.
  induction rest as [|len rest IH]; intros sq start H; cbn [find_seq]; [exact H|]. destruct (t <? start + len) eqn:L; [exact H|].
  apply Z.ltb_ge in L. apply IH. exact L.
Qed.
Lemma find_inside t : forall rest seq start, start <= t < start + zsum rest ->
  c_start (find_seq t rest seq start) <= t < c_start (find_seq t rest seq start) + length_at (find_seq t rest seq start).
Proof.
  induction rest as [|len rest IH]; intros sq start H; cbn [find_seq]; [cbn in H; lia|]. cbn [zsum fold_right] in H. fold (zsum rest) in H.
  destruct (t <? start + len) eqn:L.
  - apply Z.ltb_lt in L. unfold length_at. cbn. lia.
  - apply Z.ltb_ge in L. apply IH. lia.
Qed.

Definition before (lengths : list Z) (b : nat) (c : cursor) : Prop := walked lengths c /\ c_start c <= Z.of_nat b.
Lemma before_start lengths b : before lengths b (mkCur lengths 0 0).
Proof. split; [apply walked_start|cbn; lia]. Qed.
Lemma before_advance lengths b c stride : before lengths b c -> before lengths (b + stride) (advance b c).
Proof.
  intros (W & H). split; [apply walked_advance; exact W|]. pose proof (find_start (Z.of_nat b) (c_rest c) (c_seq c) (c_start c) H) as Q.
  unfold advance. lia.
Qed.
Lemma before_inside lengths b c : Forall (fun x => 0 <= x) lengths -> Z.of_nat b < zsum lengths -> before lengths b c ->
  c_start (advance b c) <= Z.of_nat b < c_start (advance b c) + length_at (advance b c).
Proof.
  intros Hl Hb (W & H). destruct (walked_bounds _ _ Hl W) as (_ & _ & _ & S4 & _). unfold advance. apply find_inside. lia.
Qed.

Section Windows.
  Context {T : Type} `{Num T}.
  Lemma seq2col_overflow c X nW I lengths m m' : Forall (fun x => 0 <= x) lengths -> 0 <= nW -> (0 < I)%nat ->
    2 ^ 31 <= (zsum lengths - 1) * Z.of_nat I * (nW * 2 + 1) ->
    launch32 c (Z.to_nat (zsum lengths)) (ints_seq2col nW I) (k_seq2col (T := T) X nW I) (mkCur lengths 0 0) m <> Ok m'.
  Proof.
    intros Hl HW HI Hs E. assert (HN : 0 < zsum lengths).
    { destruct (Z.lt_ge_cases 0 (zsum lengths)) as [Hp|Hp]; [exact Hp|]. exfalso.
      assert ((zsum lengths - 1) * Z.of_nat I <= 0) by nia. set (u := (zsum lengths - 1) * Z.of_nat I) in *. clearbody u. nia. }
    set (b := (Z.to_nat (zsum lengths) - 1)%nat). assert (Hb : Z.of_nat b = zsum lengths - 1) by lia.
    destruct (launch_reaches_inv (before lengths) _ _ _ _ _ _ _ E (before_start lengths)) with (b := b) as (s & Bs & F); [|lia|].
    { intros stride b' s p _ Hs' Hk. unfold k_seq2col in Hk. destruct (cur_length (advance b' s)); cbn [bind] in Hk; [|discriminate].
      match type of Hk with bind ?x _ = _ => destruct x; cbn [bind] in Hk; [|discriminate] end. injection Hk as <-. cbn [fst]. apply before_advance. exact Hs'. }
    pose proof (before_inside lengths b s Hl ltac:(lia) Bs) as In1. unfold ints_seq2col in F. cbv zeta in F.
    apply Forall_app in F. destruct F as (_ & F). apply Forall_app in F. destruct F as (_ & F). apply Forall_app in F. destruct F as (_ & F).
    assert (Q := each_in _ _ _ 0 (Z.of_nat b * Z.of_nat I * (nW * 2 + 1)) F). destruct Q as [_ Q].
    - split; [lia|]. apply Z.mul_pos_pos; lia.
    - right. left. reflexivity.
    - rewrite Hb in Q. lia.
  Qed.
  Lemma backprop_seq2col_overflow c X nW I lengths m m' : Forall (fun x => 0 <= x) lengths -> 0 <= nW -> (0 < I)%nat ->
    2 ^ 31 <= (zsum lengths - 1) * Z.of_nat I * (nW * 2 + 1) ->
    launch32 c (Z.to_nat (zsum lengths)) (ints_backprop_seq2col nW I) (k_backprop_seq2col (T := T) X nW I) (mkCur lengths 0 0) m <> Ok m'.
  Proof.
    intros Hl HW HI Hs E. assert (HN : 0 < zsum lengths).
    { destruct (Z.lt_ge_cases 0 (zsum lengths)) as [Hp|Hp]; [exact Hp|]. exfalso.
      assert ((zsum lengths - 1) * Z.of_nat I <= 0) by nia. set (u := (zsum lengths - 1) * Z.of_nat I) in *. clearbody u. nia. }
    set (b := (Z.to_nat (zsum lengths) - 1)%nat). assert (Hb : Z.of_nat b = zsum lengths - 1) by lia.
    destruct (launch_reaches_inv (before lengths) _ _ _ _ _ _ _ E (before_start lengths)) with (b := b) as (s & Bs & F); [|lia|].
    { intros stride b' s p _ Hs' Hk. unfold k_backprop_seq2col in Hk. destruct (cur_length (advance b' s)); cbn [bind] in Hk; [|discriminate].
      match type of Hk with bind ?x _ = _ => destruct x; cbn [bind] in Hk; [|discriminate] end. injection Hk as <-. cbn [fst]. apply before_advance. exact Hs'. }
    pose proof (before_inside lengths b s Hl ltac:(lia) Bs) as In1. unfold ints_backprop_seq2col in F. cbv zeta in F.
    apply Forall_app in F. destruct F as (_ & F). apply Forall_app in F. destruct F as (_ & F). apply Forall_app in F. destruct F as (_ & F).
    set (d := Z.max (c_start (advance b s)) (Z.of_nat b - nW)) in *.
    assert (Q := each_in _ _ _ (Z.of_nat b - d) (Z.of_nat b * Z.of_nat I * (nW * 2 + 1)) F). destruct Q as [_ Q].
    - split; lia.
    - apply in_or_app. left. do 4 right. left. f_equal. f_equal. lia.
    - rewrite Hb in Q. lia.
  Qed.
End Windows.
