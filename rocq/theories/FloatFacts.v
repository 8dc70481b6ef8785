(** Facts about the floats of the standard library: exact results, classes of results, the order. *)
From Coq Require Import ZArith Lia Bool List.
From Verif Require Import FloatModel FloatSpec.
From Coq.Floats Require Import SpecFloat.
Set Default Goal Selector "!".
Local Open Scope Z_scope.

Fixpoint iter_n {A} (f : A -> A) (n : nat) (x : A) : A := match n with O => x | S n => iter_n f n (f x) end.
Lemma iter_n_add : forall A (f : A -> A) a b x, iter_n f (a + b) x = iter_n f b (iter_n f a x).
Proof. intros A f a. induction a as [|a IH]; intros b x; cbn; [reflexivity|apply IH]. Qed.
Lemma iter_pos_nat : forall A (f : A -> A) n x, iter_pos f n x = iter_n f (Pos.to_nat n) x.
Proof.
  intros A f n. induction n as [n IH|n IH|]; intro x; cbn [iter_pos].
  - rewrite !IH, Pos2Nat.inj_xI. replace (S (2 * Pos.to_nat n)) with (S (Pos.to_nat n + Pos.to_nat n)) by lia. cbn [iter_n]. now rewrite iter_n_add.
  - rewrite !IH, Pos2Nat.inj_xO, <- iter_n_add. f_equal. lia.
  - reflexivity.
Qed.
Lemma iter_pos_succ : forall A (f : A -> A) n x, iter_pos f (Pos.succ n) x = iter_pos f n (f x).
Proof. intros A f n x. now rewrite !iter_pos_nat, Pos2Nat.inj_succ. Qed.

Lemma shift_pos_succ : forall d m, shift_pos (Pos.succ d) m = xO (shift_pos d m).
Proof. intros d m. unfold shift_pos. now rewrite Pos.iter_succ. Qed.
Lemma shift_pos_eq : forall d m, Z.pos (shift_pos d m) = Z.pos m * 2 ^ Z.pos d.
Proof.
  intros d m. induction d as [|d IH] using Pos.peano_ind.
  - cbn. lia.
  - rewrite shift_pos_succ, (Pos2Z.inj_xO (shift_pos d m)), IH, Pos2Z.inj_succ, Z.pow_succ_r by lia. lia.
Qed.
Lemma digits_shift : forall d m, Z.pos (digits2_pos (shift_pos d m)) = Z.pos (digits2_pos m) + Z.pos d.
Proof.
  intros d m. induction d as [|d IH] using Pos.peano_ind.
  - cbn. lia.
  - rewrite shift_pos_succ. cbn [digits2_pos]. rewrite !Pos2Z.inj_succ, IH. lia.
Qed.
Lemma digits_bounds : forall m, 2 ^ (Z.pos (digits2_pos m) - 1) <= Z.pos m < 2 ^ Z.pos (digits2_pos m).
Proof.
  induction m as [m IH|m IH|]; cbn [digits2_pos]; [| |now cbn].
  - rewrite Pos2Z.inj_succ, Pos2Z.inj_xI. replace (Z.succ (Z.pos (digits2_pos m)) - 1) with (Z.succ (Z.pos (digits2_pos m) - 1)) by lia.
        rewrite (Z.pow_succ_r 2 (Z.pos (digits2_pos m) - 1)), (Z.pow_succ_r 2 (Z.pos (digits2_pos m))) by lia.
    generalize dependent (2 ^ (Z.pos (digits2_pos m) - 1)). generalize (2 ^ Z.pos (digits2_pos m)). intros. lia.
  - rewrite Pos2Z.inj_succ, (Pos2Z.inj_xO m). replace (Z.succ (Z.pos (digits2_pos m)) - 1) with (Z.succ (Z.pos (digits2_pos m) - 1)) by lia.
        rewrite (Z.pow_succ_r 2 (Z.pos (digits2_pos m) - 1)), (Z.pow_succ_r 2 (Z.pos (digits2_pos m))) by lia.
    generalize dependent (2 ^ (Z.pos (digits2_pos m) - 1)). generalize (2 ^ Z.pos (digits2_pos m)). intros. lia.
Qed.
(** Shifting by a number that may be zero *)
Definition shl (m : positive) (n : Z) : positive := match n with Z.pos d => shift_pos d m | _ => m end.
Lemma shl_eq : forall m n, 0 <= n -> Z.pos (shl m n) = Z.pos m * 2 ^ n.
Proof. intros m [|d|d] Hn; cbn [shl]; [lia|apply shift_pos_eq|lia]. Qed.
Lemma digits_shl : forall m n, 0 <= n -> Z.pos (digits2_pos (shl m n)) = Z.pos (digits2_pos m) + n.
Proof. intros m [|d|d] Hn; cbn [shl]; [lia|apply digits_shift|lia]. Qed.
Lemma shl_unique : forall m m' n, 0 <= n -> Z.pos m' = Z.pos m * 2 ^ n -> m' = shl m n.
Proof. intros m m' n Hn E. apply Pos2Z.inj. now rewrite shl_eq. Qed.

Lemma shr_exact : forall p m, iter_pos shr_1 p {| shr_m := Z.pos (shift_pos p m); shr_r := false; shr_s := false |} = {| shr_m := Z.pos m; shr_r := false; shr_s := false |}.
Proof.
  intros p m. induction p as [|p IH] using Pos.peano_ind; [reflexivity|].
  rewrite iter_pos_succ, shift_pos_succ. exact IH.
Qed.

Section Format.
  Variables prec emax : Z.
  Hypothesis F : format prec emax.

  Lemma prec_ge : 2 <= prec. Proof. apply F. Qed.
  Lemma emax_gt : prec < emax. Proof. apply F. Qed.

  Definition canon (m : positive) (e : Z) : Prop := fexp prec emax (Z.pos (digits2_pos m) + e) = e.

  Lemma bounded_canon : forall m e, bounded prec emax m e = true <-> canon m e /\ e <= emax - prec.
  Proof.
    intros m e. unfold bounded, canonical_mantissa, canon. rewrite andb_true_iff, Z.leb_le, <- Zeq_is_eq_bool. tauto.
  Qed.

  (** Rounding an exact value to its canonical representation *)
  Lemma aux_exact : forall s m e n, canon m e -> 0 <= n ->
    binary_round_aux prec emax s (Z.pos (shl m n)) (e - n) loc_Exact = if e <=? emax - prec then S754_finite s m e else S754_infinity s.
  Proof.
    intros s m e n C Hn. unfold binary_round_aux, shr_fexp. cbn [Zdigits2]. rewrite digits_shl by exact Hn.
    replace (Z.pos (digits2_pos m) + n + (e - n)) with (Z.pos (digits2_pos m) + e) by lia.
    assert (E : shr (shr_record_of_loc (Z.pos (shl m n)) loc_Exact) (e - n) (fexp prec emax (Z.pos (digits2_pos m) + e) - (e - n)) =
                ({| shr_m := Z.pos m; shr_r := false; shr_s := false |}, e)).
    { rewrite C. replace (e - (e - n)) with n by lia. cbn [shr_record_of_loc].
      destruct n as [|d|d]; cbn [shr shl]; [f_equal; lia| |lia]. rewrite shr_exact. f_equal. lia. }
    rewrite E. cbn [shr_m shr_r shr_s loc_of_shr_record round_nearest_even].
    cbn [Zdigits2 shr_record_of_loc]. rewrite C, Z.sub_diag. cbn [shr shr_m]. reflexivity.
  Qed.

  Lemma aux_same : forall s m e m' e', canon m e -> e' <= e -> Z.pos m' = Z.pos m * 2 ^ (e - e') ->
    binary_round_aux prec emax s (Z.pos m') e' loc_Exact = if e <=? emax - prec then S754_finite s m e else S754_infinity s.
  Proof.
    intros s m e m' e' C Le E. rewrite (shl_unique m m' (e - e')) by (lia || exact E).
    replace e' with (e - (e - e')) at 2 by lia. apply aux_exact; [exact C|lia].
  Qed.

  (** Two representations of the same value *)
  Definition same (m : positive) (e : Z) (m' : positive) (e' : Z) : Prop := Z.pos m * 2 ^ (e - Z.min e e') = Z.pos m' * 2 ^ (e' - Z.min e e').

  Lemma round_same : forall s m e m' e', canon m e -> same m e m' e' ->
    binary_round prec emax s m' e' = if e <=? emax - prec then S754_finite s m e else S754_infinity s.
  Proof.
    intros s m e m' e' C E. unfold same in E. unfold binary_round.
    destruct (Z.le_gt_cases e' e) as [Le|Gt].
    - rewrite Z.min_r in E by lia. rewrite Z.sub_diag, Z.mul_1_r in E.
      assert (Em : m' = shl m (e - e')) by (apply shl_unique; lia).
      assert (Ed : Z.pos (digits2_pos m') + e' = Z.pos (digits2_pos m) + e) by (rewrite Em, digits_shl; lia).
      rewrite Ed, C. unfold shl_align. destruct (e - e') as [|d|d] eqn:Ee; [| |lia]; apply aux_same; lia || exact C || (rewrite <- Ee in E; lia) || idtac.
      all: rewrite Ee; symmetry; exact E.
    - rewrite Z.min_l in E by lia. rewrite Z.sub_diag, Z.mul_1_r in E.
      assert (Em : m = shl m' (e' - e)) by (apply shl_unique; lia).
      assert (Ed : Z.pos (digits2_pos m') + e' = Z.pos (digits2_pos m) + e) by (rewrite Em, digits_shl; lia).
      rewrite Ed, C. unfold shl_align. replace (e - e') with (- (e' - e)) by lia. destruct (e' - e) as [|d|d] eqn:Ee; [lia| |lia].
      cbn [Z.opp shl] in *. rewrite <- Em. apply aux_same; [exact C|lia|]. rewrite Z.sub_diag. lia.
  Qed.

  Lemma round_valid : forall s m e, bounded prec emax m e = true -> binary_round prec emax s m e = S754_finite s m e.
  Proof.
    intros s m e B. apply bounded_canon in B. destruct B as [C L]. rewrite (round_same s m e m e C) by reflexivity.
    now rewrite (proj2 (Z.leb_le _ _) L).
  Qed.

  (** ** Powers of two *)
  Definition top : positive := shl 1 (prec - 1).
  Lemma top_eq : Z.pos top = 2 ^ (prec - 1).
  Proof. unfold top. rewrite shl_eq by (pose proof prec_ge; lia). lia. Qed.
  Lemma digits_top : Z.pos (digits2_pos top) = prec.
  Proof. unfold top. rewrite digits_shl by (pose proof prec_ge; lia). cbn [digits2_pos]. lia. Qed.
  Lemma canon_top : forall k, 2 - emax <= k -> canon top (k + 1 - prec).
  Proof. intros k Hk. unfold canon, fexp, emin. rewrite digits_top. lia. Qed.

  Lemma pow2_eq : forall k, 2 - emax <= k -> k < emax -> pow2 prec emax k = S754_finite false top (k + 1 - prec).
  Proof.
    intros k Hk Hk'. unfold pow2. cbn [binary_normalize]. rewrite (round_same false top (k + 1 - prec)).
    - rewrite (proj2 (Z.leb_le _ _)) by lia. reflexivity.
    - now apply canon_top.
    - unfold same. pose proof prec_ge. rewrite Z.min_l by lia. rewrite Z.sub_diag, top_eq, Z.mul_1_l, Z.pow_0_r, Z.mul_1_r. f_equal. lia.
  Qed.
  Lemma one_eq : binary_normalize prec emax 1 0 false = S754_finite false top (1 - prec).
  Proof. pose proof prec_ge. pose proof emax_gt. change (pow2 prec emax 0 = S754_finite false top (0 + 1 - prec)). apply pow2_eq; lia. Qed.

  (** The canonical mantissa of a value times a power of two that is not smaller *)
  Lemma scaled : forall m e k, canon m e -> 0 <= k -> exists m' e', canon m' e' /\ e' <= e + k /\ Z.pos m' = Z.pos m * 2 ^ (e + k - e').
  Proof.
    intros m e k C Hk. set (e' := fexp prec emax (Z.pos (digits2_pos m) + e + k)).
    assert (L : e' <= e + k) by (unfold e', canon, fexp in *; lia).
    exists (shl m (e + k - e')), e'. split; [|split; [exact L|apply shl_eq; lia]].
    unfold canon. rewrite digits_shl by lia. replace (Z.pos (digits2_pos m) + (e + k - e') + e') with (Z.pos (digits2_pos m) + e + k) by lia. reflexivity.
  Qed.

  Lemma canon_min : forall m e, canon m e -> e <= Z.pos (digits2_pos m) + e - prec \/ e = 3 - emax - prec.
  Proof. intros m e C. unfold canon, fexp, emin in C. lia. Qed.

  Lemma mul_top : forall s m e k m' e', canon m' e' -> same m' e' m (e + k) -> e + k + 1 - prec <= e' -> 2 - emax <= k -> k < emax ->
    SFmul prec emax (S754_finite s m e) (pow2 prec emax k) = if e' <=? emax - prec then S754_finite s m' e' else S754_infinity s.
  Proof.
    intros s m e k m' e' C E L Hk Hk'. rewrite pow2_eq by assumption. cbn [SFmul]. rewrite xorb_false_r.
    apply aux_same; [exact C|lia|]. rewrite Pos2Z.inj_mul, top_eq. unfold same in E.
    pose proof prec_ge as Hp. destruct (Z.le_gt_cases e' (e + k)) as [Le|Gt].
    - rewrite Z.min_l in E by lia. rewrite Z.sub_diag, Z.mul_1_r in E. rewrite E, <- Z.mul_assoc, <- Z.pow_add_r by lia. f_equal. f_equal. lia.
    - rewrite Z.min_r in E by lia. rewrite Z.sub_diag, Z.mul_1_r in E. rewrite <- E, <- Z.mul_assoc, <- Z.pow_add_r by lia. f_equal. f_equal. lia.
  Qed.

  Lemma mul_one : forall x, valid_binary prec emax x = true -> SFmul prec emax x (binary_normalize prec emax 1 0 false) = x.
  Proof.
    intros [s|s| |s m e] V; try (rewrite one_eq; cbn; now rewrite ?xorb_false_r).
    cbn [valid_binary] in V. apply bounded_canon in V. destruct V as [C L]. pose proof prec_ge. pose proof emax_gt.
    change (binary_normalize prec emax 1 0 false) with (pow2 prec emax 0). rewrite (mul_top s m e 0 m e C).
    - now rewrite (proj2 (Z.leb_le _ _) L).
    - unfold same. now rewrite Z.add_0_r.
    - lia.
    - lia.
    - lia.
  Qed.

  Lemma one_mul : forall x, valid_binary prec emax x = true -> SFmul prec emax (binary_normalize prec emax 1 0 false) x = x.
  Proof.
    intros x V. etransitivity; [|exact (mul_one x V)]. rewrite one_eq. destruct x as [s|s| |s m e]; [now destruct s|now destruct s|reflexivity|].
    cbn [SFmul]. rewrite xorb_false_r, xorb_false_l, Pos.mul_comm, Z.add_comm. reflexivity.
  Qed.
End Format.
