(** Proofs about 32-bit integers in CUDA kernels. *)
From Coq Require Import Lia.
From Verif Require Import BaseFacts CudaIntModel CudaIntSpec CudaProofs.
Local Open Scope Z_scope.
Set Default Goal Selector "!".

Lemma fits_iff z : fits z = true <-> int32 z.
Proof. unfold fits, int32. rewrite Bool.andb_true_iff, Z.leb_le, Z.ltb_lt. tauto. Qed.
Lemma all_fit l : forallb fits l = true <-> Forall int32 l.
Proof.
  rewrite forallb_forall, Forall_forall. split; intros H x Hx.
  - apply fits_iff. apply H. exact Hx.
  - apply fits_iff. apply H. exact Hx.
Qed.

Section Machine.
  Context {V S : Type}.
  Implicit Types (ints : nat -> S -> list Z) (body : nat -> S -> result (S * list (instr V))).

  Lemma loop_same (inv : S -> Prop) stride N ints body : Z.of_nat (Nat.max 1 N) + Z.of_nat stride <= 2 ^ 31 ->
    (forall b s, (b < N)%nat -> inv s -> Forall int32 (ints b s)) ->
    (forall b s p, (b < N)%nat -> inv s -> body b s = Ok p -> inv (fst p)) ->
    forall fuel b s, inv s -> grid_for32 fuel b stride N ints body s = grid_for fuel b stride N body s.
  Proof.
    intros Hn Hi Hp. induction fuel as [|fuel IH]; intros b s Hs; cbn [grid_for32 grid_for]; [reflexivity|].
    destruct (Nat.ltb b N) eqn:L; [|reflexivity]. apply Nat.ltb_lt in L.
    rewrite (proj2 (all_fit _) (Hi b s L Hs)). destruct (body b s) as [p|e] eqn:E; cbn [bind]; [|reflexivity].
    replace (fits (Z.of_nat b + Z.of_nat stride)) with true by (symmetry; apply fits_iff; unfold int32; lia).
    rewrite IH; [reflexivity|]. exact (Hp b s p L Hs E).
  Qed.

  (** Without overflow the launch is that of unbounded integers. *)
  Lemma launch_same (inv : S -> Prop) c N ints body s m : countable c N ->
    (forall b s, (b < N)%nat -> inv s -> Forall int32 (ints b s)) ->
    (forall b s p, (b < N)%nat -> inv s -> body b s = Ok p -> inv (fst p)) -> inv s ->
    launch32 c N ints body s m = launch c N body s m.
  Proof.
    intros Hc Hi Hp Hs. unfold launch32, launch, countable in *. destruct (Nat.eqb (num_blocks c * threads_per_block c) 0) eqn:Z0; [reflexivity|]. apply Nat.eqb_neq in Z0.
    rewrite (Nat.mul_comm (threads_per_block c)).
    replace (fits (Z.of_nat N)) with true by (symmetry; apply fits_iff; unfold int32; lia).
    replace (fits (Z.of_nat (num_blocks c * threads_per_block c))) with true by (symmetry; apply fits_iff; unfold int32; lia).
    cbn [andb negb]. f_equal. apply mapM_ext. intros start Hin. rewrite loop_starts_seq in Hin. apply in_seq in Hin.
    replace (fits (Z.of_nat start)) with true by (symmetry; apply fits_iff; unfold int32; lia).
    apply (loop_same inv); [exact Hc | exact Hi | exact Hp | exact Hs].
  Qed.
End Machine.

Section Stateless.
  Context {V : Type}.
  Lemma loop_fits stride N ints (body : nat -> result (list (instr V))) : forall fuel b l, grid_for32 fuel b stride N (no_state ints) (stateless body) tt = Ok l ->
    forall j, (b + j * stride < N)%nat -> Forall int32 (ints (b + j * stride)%nat) /\ int32 (Z.of_nat (b + j * stride) + Z.of_nat stride).
  Proof.
    induction fuel as [|fuel IH]; intros b l E j Hj; cbn [grid_for32] in E; destruct (Nat.ltb b N) eqn:L.
    - discriminate.
    - apply Nat.ltb_ge in L. lia.
    - unfold no_state at 1 in E. destruct (forallb fits (ints b)) eqn:F; [|discriminate]. unfold stateless at 1 in E. destruct (body b) as [p|]; cbn [bind] in E; [|discriminate]. cbn [fst snd] in E.
      destruct (fits (Z.of_nat b + Z.of_nat stride)) eqn:G; [|discriminate].
      destruct (grid_for32 fuel (b + stride) stride N (no_state ints) (stateless body) tt) as [rest|] eqn:R; cbn [bind] in E; [|discriminate].
      destruct j as [|j].
      + replace (b + 0 * stride)%nat with b by lia. split; [apply all_fit; exact F | apply fits_iff; exact G].
      + replace (b + Datatypes.S j * stride)%nat with ((b + stride) + j * stride)%nat in * by lia. exact (IH _ _ R j Hj).
    - apply Nat.ltb_ge in L. lia.
  Qed.

  (** A launch with a defined result computes no integer that is out of range. *)
  Lemma launch_fits c N ints (body : nat -> result (list (instr V))) m m' : launch32 c N (no_state ints) (stateless body) tt m = Ok m' ->
    has_threads c /\ (N <> O -> countable c N) /\ forall b, (b < N)%nat -> Forall int32 (ints b).
  Proof.
    intros E. unfold launch32 in E. destruct (Nat.eqb (num_blocks c * threads_per_block c) 0) eqn:Z0; [discriminate|]. apply Nat.eqb_neq in Z0. rewrite (Nat.mul_comm (threads_per_block c)) in E.
    set (st := (num_blocks c * threads_per_block c)%nat) in *.
    destruct (fits (Z.of_nat N)) eqn:F1; [|discriminate]. destruct (fits (Z.of_nat st)) eqn:F2; [|discriminate]. cbn [andb negb] in E.
    destruct (mapM _ _) as [codes|] eqn:M in E; cbn [bind] in E; [|discriminate].
    assert (T : forall b, (b < N)%nat -> Forall int32 (ints b) /\ int32 (Z.of_nat b + Z.of_nat st)).
    { intros b Hb. pose proof (Nat.div_mod b st Z0) as D. pose proof (Nat.mod_upper_bound b st Z0) as U.
      destruct (nth_error codes (b mod st)%nat) as [l|] eqn:Nc.
      2: { apply nth_error_None in Nc. rewrite (mapM_length _ _ _ M), loop_starts_seq, seq_length in Nc. fold st in Nc. lia. }
      assert (Q : nth_error (loop_starts (num_blocks c) (threads_per_block c)) (b mod st)%nat = Some (b mod st)%nat).
      { rewrite loop_starts_seq. fold st. rewrite (nth_error_nth' _ O); [|rewrite seq_length; exact U]. rewrite seq_nth; [reflexivity | exact U]. }
      destruct (mapM_nth_error _ _ _ _ _ M Q) as [l' [Hl' _]]. cbv beta in Hl'.
      destruct (fits (Z.of_nat (b mod st))) eqn:F3; [|discriminate].
      replace b with ((b mod st) + (b / st) * st)%nat at 1 2 by lia. apply (loop_fits st N ints body N (b mod st)%nat l' Hl'). lia. }
    split; [exact Z0|]. split.
    - intros HN. unfold countable. fold st. destruct (T (N - 1)%nat ltac:(lia)) as [_ [_ C]]. lia.
    - intros b Hb. exact (proj1 (T b Hb)).
  Qed.
  (** so that the result is defined exactly if it is with unbounded integers and none of the integers is out of range. *)
  Lemma launch_exact c N ints (body : nat -> result (list (instr V))) m m' : N <> O ->
    (launch32 c N (no_state ints) (stateless body) tt m = Ok m' <->
     launch c N (stateless body) tt m = Ok m' /\ countable c N /\ forall b, (b < N)%nat -> Forall int32 (ints b)).
  Proof.
    intros HN. split.
    - intros E. destruct (launch_fits _ _ _ _ _ _ E) as (_ & C & F). specialize (C HN). split; [|split; [exact C | exact F]].
      rewrite <- E. symmetry. apply (launch_same (fun _ => True)); [exact C | | intros; exact I | exact I]. intros b s Hb _. apply F. exact Hb.
    - intros (E & C & F). rewrite <- E. apply (launch_same (fun _ => True)); [exact C | | intros; exact I | exact I]. intros b s Hb _. apply F. exact Hb.
  Qed.
End Stateless.
