(** Integers in floating point: exact up to 2^prec, and where counting stops. *)
From Coq Require Import ZArith Lia Bool List.
From Verif Require Import FloatModel FloatSpec FloatFacts.
From Coq.Floats Require Import SpecFloat.
Set Default Goal Selector "!".
Local Open Scope Z_scope.

Section Format.
  Variables prec emax : Z.
  Hypothesis F : format prec emax.
  Local Notation Nz z := (binary_normalize prec emax z 0 false).

  (** An integer of at most [prec] bits, or 2^prec, has a canonical representation. *)
  Lemma int_canon : forall z, Z.pos z <= 2 ^ prec -> exists m e, canon prec emax m e /\ e <= emax - prec /\ 1 - prec <= e /\ e <= 1 /\ same m e z 0.
  Proof.
    intros z Hz. pose proof (prec_ge _ _ F) as Hp. pose proof (emax_gt _ _ F) as He. pose proof (digits_bounds z) as D.
    destruct (Z.le_gt_cases (Z.pos (digits2_pos z)) prec) as [Le|Gt].
    - exists (shl z (prec - Z.pos (digits2_pos z))), (Z.pos (digits2_pos z) - prec).
      split; [unfold canon, fexp, emin; rewrite digits_shl by lia; lia|]. split; [lia|]. split; [lia|]. split; [lia|].
      unfold same. rewrite shl_eq, Z.min_l by lia. rewrite Z.sub_diag, Z.pow_0_r, Z.mul_1_r. f_equal. f_equal. lia.
    - exists (top prec), 1. split; [replace 1 with (prec + 1 - prec) by lia; apply canon_top; [exact F|lia]|]. split; [lia|]. split; [lia|]. split; [lia|].
      assert (E : Z.pos z = 2 ^ prec).
      { apply Z.le_antisymm; [exact Hz|]. transitivity (2 ^ (Z.pos (digits2_pos z) - 1)); [apply Z.pow_le_mono_r; lia|apply D]. }
      unfold same. rewrite (top_eq _ _ F), E. rewrite Z.min_r by lia. rewrite !Z.sub_0_r, Z.pow_0_r, Z.mul_1_r, <- Z.pow_add_r by lia. f_equal. lia.
  Qed.

  (** An integer value at any exponent is rounded to the float of that integer. *)
  Lemma norm_int : forall c S ez, Z.abs c <= 2 ^ prec -> S * 2 ^ (ez - Z.min ez 0) = c * 2 ^ (0 - Z.min ez 0) ->
    binary_normalize prec emax S ez false = Nz c.
  Proof.
    intros c S ez Hc E.
    assert (P1 : 0 < 2 ^ (ez - Z.min ez 0)) by (apply Z.pow_pos_nonneg; lia).
    assert (P2 : 0 < 2 ^ (0 - Z.min ez 0)) by (apply Z.pow_pos_nonneg; lia).
    assert (K : forall s z Sp, Z.pos z <= 2 ^ prec -> Z.pos Sp * 2 ^ (ez - Z.min ez 0) = Z.pos z * 2 ^ (0 - Z.min ez 0) ->
                binary_round prec emax s Sp ez = binary_round prec emax s z 0).
    { clear - F P1 P2. intros s z Sp Hz E. destruct (int_canon z Hz) as [m [e [C [L [_ [_ S]]]]]].
      rewrite (round_same prec emax s m e Sp ez C), (round_same prec emax s m e z 0 C S); [reflexivity|].
      unfold same in *.
      (* m * 2^e = z = Sp * 2^ez *)
      set (t := Z.min (Z.min e ez) 0).
      assert (A : Z.pos m * 2 ^ (e - t) = Z.pos z * 2 ^ (0 - t)).
      { replace (e - t) with ((e - Z.min e 0) + (Z.min e 0 - t)) by lia. replace (0 - t) with ((0 - Z.min e 0) + (Z.min e 0 - t)) by lia.
        rewrite !Z.pow_add_r by lia. rewrite !Z.mul_assoc. now rewrite S. }
      assert (B : Z.pos Sp * 2 ^ (ez - t) = Z.pos z * 2 ^ (0 - t)).
      { replace (ez - t) with ((ez - Z.min ez 0) + (Z.min ez 0 - t)) by lia. replace (0 - t) with ((0 - Z.min ez 0) + (Z.min ez 0 - t)) by lia.
        rewrite !Z.pow_add_r by lia. rewrite !Z.mul_assoc. now rewrite E. }
      rewrite <- B in A. replace (e - t) with ((e - Z.min e ez) + (Z.min e ez - t)) in A by lia.
      replace (ez - t) with ((ez - Z.min e ez) + (Z.min e ez - t)) in A by lia.
      rewrite !Z.pow_add_r in A by lia. rewrite !Z.mul_assoc in A.
      assert (P : 0 < 2 ^ (Z.min e ez - t)) by (apply Z.pow_pos_nonneg; lia).
      apply Z.mul_reg_r in A; [exact A|lia]. }
    destruct c as [|z|z].
    - assert (S0 : S = 0) by nia. rewrite S0. reflexivity.
    - destruct S as [|Sp|Sp]; [lia| |nia]. cbn [binary_normalize]. apply K; [exact Hc|exact E].
    - destruct S as [|Sp|Sp]; [lia|nia|]. cbn [binary_normalize]. apply K; [exact Hc|].
      rewrite <- (Pos2Z.opp_pos Sp), <- (Pos2Z.opp_pos z) in E. lia.
  Qed.

  (** The shape of the float of an integer *)
  Lemma int_shape : forall c, Z.abs c <= 2 ^ prec -> c <> 0 ->
    exists m e, Nz c = S754_finite (c <? 0) m e /\ canon prec emax m e /\ 1 - prec <= e /\ e <= 1 /\ cond_Zopp (c <? 0) (Z.pos m) * 2 ^ (e - Z.min e 0) = c * 2 ^ (0 - Z.min e 0).
  Proof.
    intros c Hc Hn. pose proof (emax_gt _ _ F) as He. destruct c as [|z|z]; [contradiction| |].
    - destruct (int_canon z) as [m [e [C [L [L1 [L2 E]]]]]]; [exact Hc|]. exists m, e. cbn [binary_normalize Z.ltb Z.compare].
      rewrite (round_same prec emax _ m e z 0 C E), (proj2 (Z.leb_le _ _) L). repeat split; try assumption.
    - destruct (int_canon z) as [m [e [C [L [L1 [L2 E]]]]]]; [exact Hc|]. exists m, e. cbn [binary_normalize Z.ltb Z.compare].
      rewrite (round_same prec emax _ m e z 0 C E), (proj2 (Z.leb_le _ _) L). repeat split; try assumption.
      unfold same in E. cbn [cond_Zopp Z.opp]. rewrite <- (Pos2Z.opp_pos m), <- (Pos2Z.opp_pos z), !Z.mul_opp_l. now rewrite E.
  Qed.

  Lemma align_eq : forall m e ez, ez <= e -> Z.pos (fst (shl_align m e ez)) = Z.pos m * 2 ^ (e - ez).
  Proof.
    intros m e ez L. unfold shl_align. replace (ez - e) with (- (e - ez)) by lia. destruct (e - ez) as [|d|d] eqn:E; cbn [Z.opp fst]; [lia| |lia].
    apply shift_pos_eq.
  Qed.
  Lemma cond_mul : forall s a b, cond_Zopp s (a * b) = cond_Zopp s a * b.
  Proof. intros [|] a b; cbn [cond_Zopp]; lia. Qed.

  Lemma add_int : forall a b, Z.abs a <= 2 ^ prec -> Z.abs b <= 2 ^ prec -> Z.abs (a + b) <= 2 ^ prec ->
    SFadd prec emax (Nz a) (Nz b) = Nz (a + b).
  Proof.
    intros a b Ha Hb Hab.
    destruct (Z.eq_dec a 0) as [->|Na].
    { cbn [Z.add]. change (Nz 0) with (S754_zero false). destruct (Z.eq_dec b 0) as [->|Nb]; [reflexivity|].
      destruct (int_shape b Hb Nb) as [m [e [-> _]]]. reflexivity. }
    destruct (Z.eq_dec b 0) as [->|Nb].
    { rewrite Z.add_0_r. change (Nz 0) with (S754_zero false). destruct (int_shape a Ha Na) as [m [e [-> _]]]. reflexivity. }
    destruct (int_shape a Ha Na) as [m1 [e1 [Ea [_ [_ [_ Va]]]]]]. destruct (int_shape b Hb Nb) as [m2 [e2 [Eb [_ [_ [_ Vb]]]]]].
    rewrite Ea, Eb. cbn [SFadd]. apply norm_int; [exact Hab|].
    set (ez := Z.min e1 e2). rewrite !align_eq by lia. rewrite !cond_mul, Z.mul_add_distr_r.
    set (t := Z.min ez 0).
    assert (A : cond_Zopp (a <? 0) (Z.pos m1) * 2 ^ (e1 - ez) * 2 ^ (ez - t) = a * 2 ^ (0 - t)).
    { rewrite <- Z.mul_assoc, <- Z.pow_add_r by lia. replace (e1 - ez + (ez - t)) with ((e1 - Z.min e1 0) + (Z.min e1 0 - t)) by lia.
      replace (0 - t) with ((0 - Z.min e1 0) + (Z.min e1 0 - t)) by lia. rewrite !Z.pow_add_r by lia. rewrite !Z.mul_assoc. now rewrite Va. }
    assert (B : cond_Zopp (b <? 0) (Z.pos m2) * 2 ^ (e2 - ez) * 2 ^ (ez - t) = b * 2 ^ (0 - t)).
    { rewrite <- Z.mul_assoc, <- Z.pow_add_r by lia. replace (e2 - ez + (ez - t)) with ((e2 - Z.min e2 0) + (Z.min e2 0 - t)) by lia.
      replace (0 - t) with ((0 - Z.min e2 0) + (Z.min e2 0 - t)) by lia. rewrite !Z.pow_add_r by lia. rewrite !Z.mul_assoc. now rewrite Vb. }
    rewrite A, B. now rewrite Z.mul_add_distr_r.
  Qed.

  (** 2^prec + 1 is a tie between 2^prec and the next float; the even one is 2^prec. *)
  Lemma add_tie : SFadd prec emax (Nz (2 ^ prec)) (Nz 1) = Nz (2 ^ prec).
  Proof.
    pose proof (prec_ge _ _ F) as Hp. pose proof (emax_gt _ _ F) as He.
    assert (E2 : Nz (2 ^ prec) = S754_finite false (top prec) 1).
    { destruct (2 ^ prec) as [|z|z] eqn:Ez; [pose proof (Z.pow_pos_nonneg 2 prec); lia| |pose proof (Z.pow_pos_nonneg 2 prec); lia].
      cbn [binary_normalize]. rewrite (round_same prec emax false (top prec) 1).
      - now rewrite (proj2 (Z.leb_le _ _)) by lia.
      - replace 1 with (prec + 1 - prec) by lia. apply canon_top; [exact F|lia].
      - unfold same. rewrite (top_eq _ _ F), <- Ez. rewrite Z.min_r by lia. rewrite !Z.sub_0_r, Z.pow_0_r, Z.mul_1_r, <- Z.pow_add_r by lia. f_equal. lia. }
    rewrite E2, (one_eq _ _ F). cbn [SFadd]. rewrite Z.min_r by lia.
    rewrite !align_eq by lia. cbn [cond_Zopp].
    assert (Ht : Z.pos (top prec) * 2 ^ (1 - (1 - prec)) + Z.pos (top prec) * 2 ^ (1 - prec - (1 - prec)) = Z.pos (shl (shl 1 prec + 1) (prec - 1))).
    { rewrite shl_eq by lia. rewrite Pos2Z.inj_add, shl_eq by lia. rewrite (top_eq _ _ F), Z.sub_diag, Z.pow_0_r. replace (1 - (1 - prec)) with prec by lia. ring. }
    rewrite Ht. cbn [binary_normalize]. unfold binary_round.
    assert (D1 : Z.pos (digits2_pos (shl 1 prec + 1)) = prec + 1).
    { assert (G : forall q, Z.pos (digits2_pos (shift_pos (Pos.succ q) 1 + 1)) = Z.pos q + 2).
      { intro q. rewrite shift_pos_succ. change ((shift_pos q 1)~0 + 1)%positive with ((shift_pos q 1)~1)%positive. cbn [digits2_pos].
        rewrite Pos2Z.inj_succ, digits_shift. cbn [digits2_pos]. lia. }
      destruct prec as [|p|p] eqn:Ep; [lia| |lia]. cbn [shl]. specialize (G (Pos.pred p)). rewrite Pos.succ_pred in G by lia. rewrite G. lia. }
    rewrite digits_shl, D1 by lia. replace (prec + 1 + (prec - 1) + (1 - prec)) with (prec + 1) by lia.
    assert (Fx : fexp prec emax (prec + 1) = 1) by (unfold fexp, emin; lia). rewrite Fx.
    assert (Al : shl_align (shl (shl 1 prec + 1) (prec - 1)) (1 - prec) 1 = (shl (shl 1 prec + 1) (prec - 1), 1 - prec)).
    { unfold shl_align. destruct (1 - (1 - prec)) eqn:Q; [reflexivity|reflexivity|lia]. }
    rewrite Al. unfold binary_round_aux, shr_fexp. cbn [Zdigits2]. rewrite digits_shl, D1 by lia.
    replace (prec + 1 + (prec - 1) + (1 - prec)) with (prec + 1) by lia. rewrite Fx. replace (1 - (1 - prec)) with prec by lia.
    assert (Sh : shr (shr_record_of_loc (Z.pos (shl (shl 1 prec + 1) (prec - 1))) loc_Exact) (1 - prec) prec = ({| shr_m := Z.pos (top prec); shr_r := true; shr_s := false |}, 1)).
    { cbn [shr_record_of_loc]. unfold top. replace prec with (Z.pos (Z.to_pos prec)) by (rewrite Z2Pos.id; lia).
      replace (Z.to_pos prec) with (Pos.succ (Pos.pred (Z.to_pos prec))) by (apply Pos.succ_pred; intro Q; lia). set (q := Pos.pred (Z.to_pos prec)).
      cbn [shr]. f_equal; [|lia]. replace (Z.pos (Pos.succ q) - 1) with (Z.pos q) by lia. cbn [shl].
      rewrite iter_pos_nat, Pos2Nat.inj_succ. replace (S (Pos.to_nat q)) with (Pos.to_nat q + 1)%nat by lia. rewrite iter_n_add, <- iter_pos_nat, shr_exact.
      rewrite shift_pos_succ. cbn [Pos.add iter_n shr_1 orb]. reflexivity. }
    rewrite Sh. cbn [shr_m shr_r shr_s loc_of_shr_record round_nearest_even].
    assert (Ev : Z.even (Z.pos (top prec)) = true).
    { rewrite (top_eq _ _ F). replace (prec - 1) with (Z.succ (prec - 2)) by lia. rewrite Z.pow_succ_r, Z.even_mul by lia. reflexivity. }
    rewrite Ev. cbn [Zdigits2 shr_record_of_loc]. rewrite (digits_top _ _ F), Fx. cbn [Z.sub Z.opp Z.add Z.pos_sub shr shr_m].
    now rewrite (proj2 (Z.leb_le _ _)) by lia.
  Qed.
End Format.
