From Coq Require Import Reals Rpower Lra.
From Verif Require Import BaseFacts SchedSpec SchedProofs.
Set Default Goal Selector "!".
Local Open Scope R_scope.

Lemma nmax_Rmax (a b : R) : nmax a b = Rmax a b.
Proof.
  unfold nmax. cbn [nltb num_R]. destruct (Rlt_dec a b); [rewrite Rmax_right | rewrite Rmax_left]; lra.
Qed.
Lemma nmin_Rmin (a b : R) : nmin a b = Rmin a b.
Proof.
  unfold nmin. cbn [nltb num_R]. destruct (Rlt_dec b a); [rewrite Rmin_right | rewrite Rmin_left]; lra.
Qed.
Lemma nabs_Rabs (a : R) : nabs a = Rabs a.
Proof.
  unfold nabs. cbn [nltb nZ nopp num_R]. destruct (Rlt_dec a 0); [rewrite Rabs_left | rewrite Rabs_right]; lra.
Qed.

(** *** Decaying *)
Lemma decaying_ok base decay t step : 0 <= decay -> 0 <= t -> (0 <= step)%Z ->
  decaying_value base decay t step = Ok (base / (1 + decay * (IZR step + t))).
Proof.
  intros Hd Ht Hs. unfold decaying_value. cbn [neqb nadd nmul ndiv nZ num_R].
  assert (Hz : 0 <= IZR step) by (apply IZR_le; exact Hs).
  assert (Hp : 0 <= decay * (IZR step + t)) by (apply Rmult_le_pos; lra).
  destruct (Req_EM_T (1 + decay * (IZR step + t)) 0); [lra|]. f_equal. unfold Rdiv. ring.
Qed.

Lemma decaying_bounds base decay t step : 0 <= base -> 0 <= decay -> 0 <= t -> (0 <= step)%Z ->
  0 <= base / (1 + decay * (IZR step + t)) <= base.
Proof.
  intros Hb Hd Ht Hs. assert (Hz : 0 <= IZR step) by (apply IZR_le; exact Hs).
  assert (Hp : 0 <= decay * (IZR step + t)) by (apply Rmult_le_pos; lra).
  split; [apply Rmult_le_pos; [lra | left; apply Rinv_0_lt_compat; lra]|].
  apply Rmult_le_reg_r with (1 + decay * (IZR step + t)); [lra|].
  unfold Rdiv. rewrite Rmult_assoc, Rinv_l by lra.
  assert (0 <= base * (decay * (IZR step + t))) by (apply Rmult_le_pos; lra). lra.
Qed.

Lemma decaying_antitone base decay t s1 s2 : 0 <= base -> 0 <= decay -> 0 <= t -> (0 <= s1 <= s2)%Z ->
  base / (1 + decay * (IZR s2 + t)) <= base / (1 + decay * (IZR s1 + t)).
Proof.
  intros Hb Hd Ht Hs. assert (Hz : 0 <= IZR s1) by (apply IZR_le; lia). assert (Hz2 : IZR s1 <= IZR s2) by (apply IZR_le; lia).
  assert (Hp : 0 <= decay * (IZR s1 + t)) by (apply Rmult_le_pos; lra).
  assert (Hq : decay * (IZR s1 + t) <= decay * (IZR s2 + t)) by (apply Rmult_le_compat_l; lra).
  apply Rmult_le_compat_l; [exact Hb|]. apply Rinv_le_contravar; lra.
Qed.

(** *** Compounding *)
Lemma Rpower_int c n : 0 < c -> Rpower c (IZR (Z.of_nat n) + 0) = c ^ n.
Proof. intros Hc. rewrite Rplus_0_r, <- INR_IZR_INZ. now apply Rpower_pow. Qed.

Definition cvalue (start stop c : R) (n : nat) : R := compounding_value start stop c 0 (Z.of_nat n).

Lemma compounding_eq start stop c n : 0 < c ->
  compounding_value start stop c 0 (Z.of_nat n) = if Rlt_dec stop start then Rmax (start * c ^ n) stop else Rmin (start * c ^ n) stop.
Proof.
  intros Hc. unfold compounding_value, sclip. cbn [nltb nmul nadd nZ nrpow num_R numx_R].
  change (IZR 0) with 0. rewrite Rpower_int by exact Hc.
  destruct (Rlt_dec stop start); [apply nmax_Rmax | apply nmin_Rmin].
Qed.

Lemma pow_ge_1 c n : 1 <= c -> 1 <= c ^ n.
Proof. intros Hc. induction n as [|n IH]; cbn; [lra|]. apply Rle_trans with (1 * c ^ n); [lra|]. apply Rmult_le_compat_r; lra. Qed.
Lemma pow_le_1 c n : 0 < c <= 1 -> 0 < c ^ n <= 1.
Proof.
  intros Hc. induction n as [|n IH]; cbn; [lra|]. split; [apply Rmult_lt_0_compat; lra|].
  apply Rle_trans with (1 * c ^ n); [|lra]. apply Rmult_le_compat_r; lra.
Qed.

Lemma compounding_up start stop c : 0 <= start <= stop -> 1 <= c ->
  let v := fun n => compounding_value start stop c 0 (Z.of_nat n) in
  v 0%nat = start /\ (forall n, v (S n) = Rmin (v n * c) stop) /\ (forall n, start <= v n <= stop) /\ (forall n, v n <= v (S n)).
Proof.
  intros Hs Hc v.
  assert (E : forall n, v n = Rmin (start * c ^ n) stop).
  { intros n. unfold v. rewrite compounding_eq by lra. destruct (Rlt_dec stop start); [lra | reflexivity]. }
  assert (S1 : forall n, start <= start * c ^ n).
  { intros n. pose proof (pow_ge_1 c n Hc). apply Rle_trans with (start * 1); [lra|]. apply Rmult_le_compat_l; lra. }
  assert (S2 : forall n, start * c ^ n <= start * c ^ S n).
  { intros n. cbn [pow]. pose proof (S1 n). assert (0 <= start * c ^ n) by lra.
    replace (start * (c * c ^ n)) with (c * (start * c ^ n)) by ring. apply Rle_trans with (1 * (start * c ^ n)); [lra|].
    apply Rmult_le_compat_r; lra. }
  split; [rewrite E; cbn; rewrite Rmin_left; lra|]. split; [|split].
  - intros n. rewrite !E. cbn [pow]. pose proof (S1 n). pose proof (S2 n) as S2n. cbn [pow] in S2n.
    destruct (Rle_dec (start * c ^ n) stop) as [H1|H1].
    + rewrite (Rmin_left (start * c ^ n)) by lra. f_equal. ring.
    + rewrite (Rmin_right (start * c ^ n)) by lra. rewrite !Rmin_right; [reflexivity| |lra].
      assert (0 <= stop) by lra. apply Rle_trans with (stop * 1); [lra|]. apply Rmult_le_compat_l; lra.
  - intros n. rewrite E. pose proof (S1 n). split; [apply Rmin_glb; lra | apply Rmin_r].
  - intros n. rewrite !E. pose proof (S2 n). apply Rmin_glb; [apply Rle_trans with (start * c ^ n); [apply Rmin_l | lra] | apply Rmin_r].
Qed.

Lemma compounding_down start stop c : 0 <= stop < start -> 0 < c <= 1 ->
  let v := fun n => compounding_value start stop c 0 (Z.of_nat n) in
  v 0%nat = start /\ (forall n, v (S n) = Rmax (v n * c) stop) /\ (forall n, stop <= v n <= start) /\ (forall n, v (S n) <= v n).
Proof.
  intros Hs Hc v.
  assert (E : forall n, v n = Rmax (start * c ^ n) stop).
  { intros n. unfold v. rewrite compounding_eq by lra. destruct (Rlt_dec stop start); [reflexivity | lra]. }
  assert (S1 : forall n, 0 <= start * c ^ n <= start).
  { intros n. pose proof (pow_le_1 c n Hc). split; [apply Rmult_le_pos; lra|].
    apply Rle_trans with (start * 1); [|lra]. apply Rmult_le_compat_l; lra. }
  assert (S2 : forall n, start * c ^ S n <= start * c ^ n).
  { intros n. cbn [pow]. pose proof (S1 n).
    replace (start * (c * c ^ n)) with (c * (start * c ^ n)) by ring. apply Rle_trans with (1 * (start * c ^ n)); [|lra].
    apply Rmult_le_compat_r; lra. }
  split; [rewrite E; cbn; rewrite Rmax_left; lra|]. split; [|split].
  - intros n. rewrite !E. cbn [pow]. pose proof (S1 n). pose proof (S2 n) as S2n. cbn [pow] in S2n.
    destruct (Rle_dec (start * c ^ n) stop) as [H1|H1].
    + rewrite (Rmax_right (start * c ^ n)) by lra. rewrite !Rmax_right; [reflexivity| |lra].
      apply Rle_trans with (stop * 1); [|lra]. apply Rmult_le_compat_l; lra.
    + rewrite (Rmax_left (start * c ^ n)) by lra. f_equal. ring.
  - intros n. rewrite E. pose proof (S1 n). split; [apply Rmax_r | apply Rmax_lub; lra].
  - intros n. rewrite !E. pose proof (S2 n). apply Rmax_lub; [apply Rle_trans with (start * c ^ n); [lra | apply Rmax_l] | apply Rmax_r].
Qed.

(** *** Warmup *)
Lemma warmup_eq initial warmup total step : (0 <= warmup <= total)%Z -> (0 <= step)%Z ->
  warmup_value initial warmup total step =
  if Z.ltb step warmup then IZR step / IZR warmup * initial
  else if Z.ltb step total then IZR (total - step) / IZR (total - warmup) * initial
  else 0.
Proof.
  intros Hw Hs. unfold warmup_value. cbn [nmul ndiv nZ num_R].
  destruct (Z.ltb_spec step warmup) as [H1|H1]; [now rewrite Z.max_r by lia|].
  rewrite !nmax_Rmax.
  destruct (Z.ltb_spec step total) as [H2|H2].
  - assert (1 <= IZR (total - warmup)) by (apply IZR_le; lia). rewrite (Rmax_right 1) by lra.
    assert (0 <= IZR (total - step)) by (apply IZR_le; lia). rewrite Rmax_right; [reflexivity|].
    apply Rmult_le_pos; [lra | left; apply Rinv_0_lt_compat; lra].
  - assert (IZR (total - step) <= 0) by (apply IZR_le; lia).
    assert (0 < Rmax 1 (IZR (total - warmup))) by (apply Rlt_le_trans with 1; [lra | apply Rmax_l]).
    rewrite Rmax_left; [lra|].
    apply Rmult_le_reg_r with (Rmax 1 (IZR (total - warmup))); [lra|]. unfold Rdiv. rewrite Rmult_assoc, Rinv_l by lra. lra.
Qed.

Lemma frac_bounds a b x : 0 <= x -> (0 <= a <= b)%Z -> (0 < b)%Z -> 0 <= IZR a / IZR b * x <= x.
Proof.
  intros Hx Ha Hb. assert (0 <= IZR a <= IZR b) by (split; apply IZR_le; lia). assert (0 < IZR b) by (apply IZR_lt; lia).
  assert (0 <= IZR a / IZR b <= 1).
  { split; [apply Rmult_le_pos; [lra | left; apply Rinv_0_lt_compat; lra]|].
    apply Rmult_le_reg_r with (IZR b); [lra|]. unfold Rdiv. rewrite Rmult_assoc, Rinv_l by lra. lra. }
  split; [apply Rmult_le_pos; lra|]. apply Rle_trans with (1 * x); [|lra]. apply Rmult_le_compat_r; lra.
Qed.

Lemma warmup_bounds initial warmup total step : 0 <= initial -> (0 <= warmup <= total)%Z -> (0 <= step)%Z ->
  0 <= warmup_value initial warmup total step <= initial.
Proof.
  intros Hi Hw Hs. rewrite warmup_eq by assumption.
  destruct (Z.ltb_spec step warmup); [apply frac_bounds; lia || lra|].
  destruct (Z.ltb_spec step total); [apply frac_bounds; lia || lra | lra].
Qed.

Lemma frac_mono a b c x : 0 <= x -> (a <= b)%Z -> (0 < c)%Z -> IZR a / IZR c * x <= IZR b / IZR c * x.
Proof.
  intros Hx Hab Hc. apply Rmult_le_compat_r; [exact Hx|]. apply Rmult_le_compat_r.
  - left. apply Rinv_0_lt_compat. now apply IZR_lt.
  - now apply IZR_le.
Qed.

Lemma warmup_rises initial warmup total s1 s2 : 0 <= initial -> (0 <= warmup < total)%Z -> (0 <= s1 <= s2)%Z -> (s2 <= warmup)%Z ->
  warmup_value initial warmup total s1 <= warmup_value initial warmup total s2.
Proof.
  intros Hi Hw Hs H2. rewrite !warmup_eq by lia.
  destruct (Z.ltb_spec s1 warmup), (Z.ltb_spec s2 warmup); try lia.
  - apply frac_mono; lia || lra.
  - destruct (Z.ltb_spec s2 total); [|lia]. replace (IZR (total - s2) / IZR (total - warmup)) with 1.
    + apply Rle_trans with initial; [apply frac_bounds; lia || lra | lra].
    + replace s2 with warmup by lia. field. apply not_0_IZR. lia.
  - assert (s1 = s2) by lia. subst s2. lra.
Qed.

Lemma warmup_falls initial warmup total s1 s2 : 0 <= initial -> (0 <= warmup <= total)%Z -> (warmup <= s1 <= s2)%Z ->
  warmup_value initial warmup total s2 <= warmup_value initial warmup total s1.
Proof.
  intros Hi Hw Hs. rewrite !warmup_eq by lia.
  destruct (Z.ltb_spec s1 warmup), (Z.ltb_spec s2 warmup); try lia.
  destruct (Z.ltb_spec s2 total).
  - destruct (Z.ltb_spec s1 total); [|lia]. apply frac_mono; lia || lra.
  - destruct (Z.ltb_spec s1 total); [apply frac_bounds; lia || lra | lra].
Qed.

(** *** Cyclic *)
Lemma floor_unique x z : IZR z <= x < IZR z + 1 -> Int_part x = z.
Proof.
  intros Hx. unfold Int_part. assert (up x = (z + 1)%Z); [|lia].
  symmetry. apply tech_up; rewrite plus_IZR; lra.
Qed.

Lemma cyclic_eq min_lr max_lr period step cycle r : (0 < period)%Z ->
  (step + 1 = 2 * period * cycle + r)%Z -> (0 <= r < 2 * period)%Z ->
  cyclic_value min_lr max_lr period step = Ok (min_lr + (max_lr - min_lr) * (1 - Rabs (IZR r / IZR period - 1))).
Proof.
  intros Hp Hs Hr. unfold cyclic_value. destruct (Z.eqb_spec period 0); [lia|].
  rewrite nmax_Rmax, nabs_Rabs. cbn [nadd nsub nmul ndiv nZ nfloor num_R numx_R].
  assert (Hpr : 0 < IZR period) by (apply IZR_lt; lia).
  assert (E1 : IZR (step + 1) / IZR (2 * period) = IZR cycle + IZR r / IZR (2 * period)).
  { rewrite Hs, plus_IZR, !mult_IZR. field. lra. }
  assert (E2 : IZR (step + 1) / IZR period = 2 * IZR cycle + IZR r / IZR period).
  { rewrite Hs, plus_IZR, !mult_IZR. field. lra. }
  assert (Hf : 0 <= IZR r / IZR (2 * period) < 1).
  { assert (0 <= IZR r < IZR (2 * period)) by (split; [apply IZR_le; lia | apply IZR_lt; lia]).
    split; [apply Rmult_le_pos; [lra | left; apply Rinv_0_lt_compat; lra]|].
    apply Rmult_lt_reg_r with (IZR (2 * period)); [lra|]. unfold Rdiv. rewrite Rmult_assoc, Rinv_l by lra. lra. }
  rewrite E1, E2. rewrite (floor_unique _ (1 + cycle)) by (rewrite plus_IZR; lra). rewrite plus_IZR.
  replace (2 * IZR cycle + IZR r / IZR period - 2 * (1 + IZR cycle) + 1) with (IZR r / IZR period - 1) by lra.
  rewrite Rmax_right; [reflexivity|].
  assert (0 <= IZR r / IZR period < 2).
  { assert (0 <= IZR r < 2 * IZR period).
    { split; [apply IZR_le; lia|]. rewrite <- mult_IZR. apply IZR_lt. lia. }
    split; [apply Rmult_le_pos; [lra | left; apply Rinv_0_lt_compat; lra]|].
    apply Rmult_lt_reg_r with (IZR period); [lra|]. unfold Rdiv. rewrite Rmult_assoc, Rinv_l by lra. lra. }
  unfold Rabs. destruct (Rcase_abs _); lra.
Qed.

Lemma cyclic_bounds min_lr max_lr period step : min_lr <= max_lr -> (0 < period)%Z -> (0 <= step)%Z ->
  exists v, cyclic_value min_lr max_lr period step = Ok v /\ min_lr <= v <= max_lr.
Proof.
  intros Hm Hp Hs. pose proof (Z.div_mod (step + 1) (2 * period) ltac:(lia)) as D.
  pose proof (Z.mod_pos_bound (step + 1) (2 * period) ltac:(lia)) as B.
  rewrite (cyclic_eq min_lr max_lr period step _ _ Hp D B). eexists. split; [reflexivity|].
  set (r := ((step + 1) mod (2 * period))%Z) in *. clearbody r. clear D.
  assert (Hpr : 0 < IZR period) by (apply IZR_lt; lia).
  assert (0 <= IZR r / IZR period < 2).
  { assert (0 <= IZR r < 2 * IZR period).
    { split; [apply IZR_le; lia|]. rewrite <- mult_IZR. apply IZR_lt. lia. }
    split; [apply Rmult_le_pos; [lra | left; apply Rinv_0_lt_compat; lra]|].
    apply Rmult_lt_reg_r with (IZR period); [lra|]. unfold Rdiv. rewrite Rmult_assoc, Rinv_l by lra. lra. }
  assert (0 <= 1 - Rabs (IZR r / IZR period - 1) <= 1) by (unfold Rabs; destruct (Rcase_abs _); lra).
  set (q := 1 - Rabs (IZR r / IZR period - 1)) in *. clearbody q.
  assert (0 <= (max_lr - min_lr) * q) by (apply Rmult_le_pos; lra).
  assert ((max_lr - min_lr) * q <= (max_lr - min_lr) * 1) by (apply Rmult_le_compat_l; lra). lra.
Qed.

Lemma cyclic_periodic min_lr max_lr period step : (0 < period)%Z -> (0 <= step)%Z ->
  cyclic_value min_lr max_lr period (step + 2 * period) = cyclic_value min_lr max_lr period step.
Proof.
  intros Hp Hs. pose proof (Z.div_mod (step + 1) (2 * period) ltac:(lia)) as D.
  pose proof (Z.mod_pos_bound (step + 1) (2 * period) ltac:(lia)) as B.
  rewrite (cyclic_eq min_lr max_lr period step _ _ Hp D B).
  apply cyclic_eq with (cycle := ((step + 1) / (2 * period) + 1)%Z); [exact Hp| |exact B]. lia.
Qed.

(** *** Slanted triangular *)
Definition slanted_p (cut : Z) (cut_frac t : R) (step : Z) : R :=
  let ts := IZR step + t + 1 in
  if Rlt_dec ts (IZR cut) then ts / IZR cut else 1 - (ts - IZR cut) / (IZR cut * (1 / cut_frac - 1)).

Lemma inv_frac c : 0 < c < 1 -> 0 < 1 / c - 1.
Proof.
  intros Hc. assert (1 < / c) by (rewrite <- Rinv_1; apply Rinv_lt_contravar; lra). unfold Rdiv. lra.
Qed.

Lemma slanted_eq max_rate cut cut_frac ratio t step : (0 < cut)%Z -> 0 < cut_frac < 1 -> (0 < ratio)%Z ->
  slanted_value max_rate cut cut_frac ratio t step =
  Ok (max_rate * (1 + slanted_p cut cut_frac t step * (IZR ratio - 1)) / IZR ratio).
Proof.
  intros Hc Hf Hr. unfold slanted_value, slanted_p. cbn [nltb neqb nadd nsub nmul ndiv nZ num_R].
  assert (Hcr : 0 < IZR cut) by (apply IZR_lt; lia). pose proof (inv_frac cut_frac Hf) as Hi.
  assert (Hd : 0 < IZR cut * (1 / cut_frac - 1)) by (apply Rmult_lt_0_compat; lra).
  destruct (Rlt_dec (IZR step + t + 1) (IZR cut)).
  - destruct (Z.eqb_spec cut 0); [lia|]. cbn [bind]. destruct (Z.eqb_spec ratio 0); [lia|].
    rewrite minus_IZR. f_equal. unfold Rdiv. ring.
  - destruct (Req_EM_T cut_frac 0); [lra|]. destruct (Req_EM_T (IZR cut * (1 / cut_frac - 1)) 0); [lra|].
    cbn [bind]. destruct (Z.eqb_spec ratio 0); [lia|]. rewrite minus_IZR. f_equal. unfold Rdiv. ring.
Qed.

Lemma slanted_p_bounds cut cut_frac step : (0 < cut)%Z -> 0 < cut_frac < 1 -> (0 <= step)%Z ->
  IZR step + 1 <= IZR cut / cut_frac -> 0 <= slanted_p cut cut_frac 0 step <= 1.
Proof.
  intros Hc Hf Hs He. unfold slanted_p. rewrite Rplus_0_r.
  assert (Hcr : 0 < IZR cut) by (apply IZR_lt; lia). pose proof (inv_frac cut_frac Hf) as Hi.
  assert (Hsr : 0 <= IZR step) by (apply IZR_le; lia).
  destruct (Rlt_dec (IZR step + 1) (IZR cut)).
  - split; [apply Rmult_le_pos; [lra | left; apply Rinv_0_lt_compat; lra]|].
    apply Rmult_le_reg_r with (IZR cut); [lra|]. unfold Rdiv. rewrite Rmult_assoc, Rinv_l by lra. lra.
  - assert (Hd : 0 < IZR cut * (1 / cut_frac - 1)) by (apply Rmult_lt_0_compat; lra).
    assert (0 <= (IZR step + 1 - IZR cut) / (IZR cut * (1 / cut_frac - 1)) <= 1); [|lra].
    split; [apply Rmult_le_pos; [lra | left; apply Rinv_0_lt_compat; lra]|].
    apply Rmult_le_reg_r with (IZR cut * (1 / cut_frac - 1)); [lra|]. unfold Rdiv at 1. rewrite Rmult_assoc, Rinv_l by lra.
    rewrite Rmult_1_r, Rmult_1_l. unfold Rdiv in *. lra.
Qed.

Lemma slanted_bounds max_rate cut cut_frac ratio step : 0 <= max_rate -> (0 < cut)%Z -> 0 < cut_frac < 1 -> (1 <= ratio)%Z ->
  (0 <= step)%Z -> IZR step + 1 <= IZR cut / cut_frac ->
  exists v, slanted_value max_rate cut cut_frac ratio 0 step = Ok v /\ max_rate / IZR ratio <= v <= max_rate.
Proof.
  intros Hm Hc Hf Hr Hs He. rewrite slanted_eq by lia || lra. eexists. split; [reflexivity|].
  pose proof (slanted_p_bounds cut cut_frac step Hc Hf Hs He) as Hp. set (p := slanted_p cut cut_frac 0 step) in *. clearbody p.
  assert (Hrr : 1 <= IZR ratio) by (apply IZR_le; lia).
  assert (0 <= p * (IZR ratio - 1) <= IZR ratio - 1).
  { split; [apply Rmult_le_pos; lra|]. apply Rle_trans with (1 * (IZR ratio - 1)); [|lra]. apply Rmult_le_compat_r; lra. }
  assert (Hi : 0 < / IZR ratio) by (apply Rinv_0_lt_compat; lra).
  split.
  - apply Rmult_le_compat_r; [lra|]. apply Rle_trans with (max_rate * 1); [lra|]. apply Rmult_le_compat_l; lra.
  - apply Rmult_le_reg_r with (IZR ratio); [lra|]. unfold Rdiv. rewrite Rmult_assoc, Rinv_l by lra.
    rewrite Rmult_1_r. apply Rmult_le_compat_l; lra.
Qed.

Lemma slanted_peak max_rate cut cut_frac ratio : (0 < cut)%Z -> 0 < cut_frac < 1 -> (0 < ratio)%Z ->
  slanted_value max_rate cut cut_frac ratio 0 (cut - 1) = Ok max_rate.
Proof.
  intros Hc Hf Hr. rewrite slanted_eq by assumption. unfold slanted_p. rewrite minus_IZR, Rplus_0_r.
  replace (IZR cut - 1 + 1) with (IZR cut) by lra. destruct (Rlt_dec (IZR cut) (IZR cut)); [lra|].
  f_equal. replace (IZR cut - IZR cut) with 0 by lra. assert (0 < IZR ratio) by (apply IZR_lt; lia).
  unfold Rdiv at 2. rewrite Rmult_0_l. field. lra.
Qed.

Lemma slanted_rises max_rate cut cut_frac ratio s1 s2 v1 v2 : 0 <= max_rate -> (0 < cut)%Z -> 0 < cut_frac < 1 -> (1 <= ratio)%Z ->
  (0 <= s1 <= s2)%Z -> (s2 + 1 <= cut)%Z ->
  slanted_value max_rate cut cut_frac ratio 0 s1 = Ok v1 -> slanted_value max_rate cut cut_frac ratio 0 s2 = Ok v2 -> v1 <= v2.
Proof.
  intros Hm Hc Hf Hr Hs Hcut. rewrite !slanted_eq by lia || lra. intros E1 E2. injection E1 as <-. injection E2 as <-.
  assert (Hrr : 1 <= IZR ratio) by (apply IZR_le; lia). assert (Hcr : 0 < IZR cut) by (apply IZR_lt; lia).
  apply Rmult_le_compat_r; [left; apply Rinv_0_lt_compat; lra|]. apply Rmult_le_compat_l; [lra|].
  apply Rplus_le_compat_l. apply Rmult_le_compat_r; [lra|]. unfold slanted_p. rewrite !Rplus_0_r.
  assert (IZR s1 <= IZR s2) by (apply IZR_le; lia). assert (IZR s2 + 1 <= IZR cut) by (rewrite <- plus_IZR; apply IZR_le; lia).
  destruct (Rlt_dec (IZR s1 + 1) (IZR cut)), (Rlt_dec (IZR s2 + 1) (IZR cut)); try lra.
  - apply Rmult_le_compat_r; [left; apply Rinv_0_lt_compat; lra | lra].
  - replace (IZR s2 + 1 - IZR cut) with 0 by lra. unfold Rdiv at 2. rewrite Rmult_0_l.
    apply Rmult_le_reg_r with (IZR cut); [lra|]. unfold Rdiv. rewrite Rmult_assoc, Rinv_l by lra. lra.
  - replace (IZR s1) with (IZR s2) by lra. lra.
Qed.

Lemma slanted_falls max_rate cut cut_frac ratio s1 s2 v1 v2 : 0 <= max_rate -> (0 < cut)%Z -> 0 < cut_frac < 1 -> (1 <= ratio)%Z ->
  (cut <= s1 + 1)%Z -> (s1 <= s2)%Z ->
  slanted_value max_rate cut cut_frac ratio 0 s1 = Ok v1 -> slanted_value max_rate cut cut_frac ratio 0 s2 = Ok v2 -> v2 <= v1.
Proof.
  intros Hm Hc Hf Hr Hs Hcut. rewrite !slanted_eq by lia || lra. intros E1 E2. injection E1 as <-. injection E2 as <-.
  assert (Hrr : 1 <= IZR ratio) by (apply IZR_le; lia). assert (Hcr : 0 < IZR cut) by (apply IZR_lt; lia).
  pose proof (inv_frac cut_frac Hf) as Hi.
  assert (Hd : 0 < IZR cut * (1 / cut_frac - 1)) by (apply Rmult_lt_0_compat; lra).
  apply Rmult_le_compat_r; [left; apply Rinv_0_lt_compat; lra|]. apply Rmult_le_compat_l; [lra|].
  apply Rplus_le_compat_l. apply Rmult_le_compat_r; [lra|]. unfold slanted_p. rewrite !Rplus_0_r.
  assert (IZR s1 <= IZR s2) by (apply IZR_le; lia). assert (IZR cut <= IZR s1 + 1) by (rewrite <- plus_IZR; apply IZR_le; lia).
  destruct (Rlt_dec (IZR s1 + 1) (IZR cut)), (Rlt_dec (IZR s2 + 1) (IZR cut)); try lra.
  assert ((IZR s1 + 1 - IZR cut) / (IZR cut * (1 / cut_frac - 1)) <= (IZR s2 + 1 - IZR cut) / (IZR cut * (1 / cut_frac - 1))); [|lra].
  apply Rmult_le_compat_r; [left; apply Rinv_0_lt_compat; lra | lra].
Qed.

Lemma slanted_negative : exists v, slanted_value 1 1 (1 / 10) 32 0 20 = Ok v /\ v < 0.
Proof.
  rewrite slanted_eq by lia || lra. eexists. split; [reflexivity|]. unfold slanted_p.
  destruct (Rlt_dec (20 + 0 + 1) 1); [lra|]. lra.
Qed.

Lemma slanted_zero_division max_rate cut_frac ratio t step : (0 <= step)%Z -> 0 <= t ->
  slanted_value max_rate 0 cut_frac ratio t step = Err ZeroDivisionError.
Proof.
  intros Hs Ht. unfold slanted_value. cbn [nltb neqb nadd nsub nmul ndiv nZ num_R].
  assert (0 <= IZR step) by (apply IZR_le; lia).
  destruct (Rlt_dec (IZR step + t + 1) 0); [lra|].
  destruct (Req_EM_T cut_frac 0); [reflexivity|].
  destruct (Req_EM_T (0 * (1 / cut_frac - 1)) 0); [reflexivity | lra].
Qed.

(** *** At the level of schedule objects *)
Lemma call_nonneg step : (0 <= step)%Z -> (step <? 0)%Z = false.
Proof. intros. destruct (Z.ltb_spec step 0); [lia | reflexivity]. Qed.

Lemma decaying_call base decay t step ls : 0 <= base -> 0 <= decay -> 0 <= t -> (0 <= step)%Z ->
  exists v, sched_call (Decaying base decay t) step ls = (Decaying base decay t, Ok v) /\
    v = base / (1 + decay * (IZR step + t)) /\ 0 <= v <= base /\
    forall step' w, (step <= step')%Z -> snd (sched_call (Decaying base decay t) step' ls) = Ok w -> w <= v.
Proof.
  intros Hb Hd Ht Hs. exists (base / (1 + decay * (IZR step + t))). cbn [sched_call].
  rewrite call_nonneg, decaying_ok by assumption. split; [reflexivity|]. split; [reflexivity|].
  split; [now apply decaying_bounds|]. intros step' w Hle. rewrite call_nonneg by lia.
  rewrite decaying_ok by lia || lra. cbn [snd]. intros E. injection E as <-. apply decaying_antitone; lia || lra.
Qed.

Lemma compounding_call start stop c t step ls : (0 <= step)%Z ->
  sched_call (Compounding start stop c t) step ls = (Compounding start stop c t, Ok (compounding_value start stop c t step)).
Proof. intros. cbn [sched_call]. now rewrite call_nonneg. Qed.

Lemma compounding_call_up start stop c ls : 0 <= start <= stop -> 1 <= c ->
  exists v : nat -> R, (forall n, sched_call (Compounding start stop c 0) (Z.of_nat n) ls = (Compounding start stop c 0, Ok (v n))) /\
    v 0%nat = start /\ (forall n, v (S n) = Rmin (v n * c) stop) /\ (forall n, start <= v n <= stop) /\ (forall n, v n <= v (S n)).
Proof.
  intros Hs Hc. exists (fun n => compounding_value start stop c 0 (Z.of_nat n)).
  split; [intros n; apply compounding_call; lia | now apply compounding_up].
Qed.

Lemma compounding_call_down start stop c ls : 0 <= stop < start -> 0 < c <= 1 ->
  exists v : nat -> R, (forall n, sched_call (Compounding start stop c 0) (Z.of_nat n) ls = (Compounding start stop c 0, Ok (v n))) /\
    v 0%nat = start /\ (forall n, v (S n) = Rmax (v n * c) stop) /\ (forall n, stop <= v n <= start) /\ (forall n, v (S n) <= v n).
Proof.
  intros Hs Hc. exists (fun n => compounding_value start stop c 0 (Z.of_nat n)).
  split; [intros n; apply compounding_call; lia | now apply compounding_down].
Qed.

Lemma warmup_call initial warmup total ls : 0 <= initial -> (0 <= warmup < total)%Z ->
  exists v : Z -> R,
    (forall step, (0 <= step)%Z -> sched_call (Warmup initial warmup total) step ls = (Warmup initial warmup total, Ok (v step))) /\
    (forall step, (0 <= step < warmup)%Z -> v step = initial * (IZR step / IZR warmup)) /\
    v warmup = initial /\
    (forall step, (warmup <= step <= total)%Z -> v step = initial * (IZR (total - step) / IZR (total - warmup))) /\
    (forall step, (total <= step)%Z -> v step = 0) /\
    (forall step, (0 <= step)%Z -> 0 <= v step <= initial).
Proof.
  intros Hi Hw. exists (warmup_value initial warmup total).
  split; [intros step Hs; cbn [sched_call]; now rewrite call_nonneg|].
  split; [|split; [|split; [|split]]].
  - intros step Hs. rewrite warmup_eq by lia. destruct (Z.ltb_spec step warmup); [|lia]. apply Rmult_comm.
  - rewrite warmup_eq by lia. rewrite Z.ltb_irrefl. destruct (Z.ltb_spec warmup total); [|lia].
    field. apply not_0_IZR. lia.
  - intros step Hs. rewrite warmup_eq by lia. destruct (Z.ltb_spec step warmup); [lia|]. destruct (Z.ltb_spec step total).
    + apply Rmult_comm.
    + replace (total - step)%Z with 0%Z by lia. unfold Rdiv. rewrite Rmult_0_l, Rmult_0_r. reflexivity.
  - intros step Hs. rewrite warmup_eq by lia. destruct (Z.ltb_spec step warmup); [lia|]. destruct (Z.ltb_spec step total); [lia | reflexivity].
  - intros step Hs. now apply warmup_bounds; [|lia|].
Qed.

Lemma cyclic_call min_lr max_lr period ls : min_lr <= max_lr -> (0 < period)%Z ->
  exists v : Z -> R,
    (forall step, (0 <= step)%Z -> sched_call (Cyclic min_lr max_lr period) step ls = (Cyclic min_lr max_lr period, Ok (v step))) /\
    (forall step cycle r, (0 <= step)%Z -> (step + 1 = 2 * period * cycle + r)%Z -> (0 <= r < 2 * period)%Z ->
       v step = min_lr + (max_lr - min_lr) * (1 - Rabs (IZR r / IZR period - 1))) /\
    (forall step, (0 <= step)%Z -> min_lr <= v step <= max_lr) /\
    (forall step, (0 <= step)%Z -> v (step + 2 * period)%Z = v step).
Proof.
  intros Hm Hp. set (v := fun step => match cyclic_value min_lr max_lr period step with Ok x => x | Err _ => 0 end).
  assert (E : forall step, (0 <= step)%Z -> cyclic_value min_lr max_lr period step = Ok (v step)).
  { intros step Hs. unfold v. destruct (cyclic_bounds min_lr max_lr period step Hm Hp Hs) as (x & -> & _). reflexivity. }
  exists v. split; [|split; [|split]].
  - intros step Hs. cbn [sched_call]. rewrite call_nonneg by assumption. now rewrite E.
  - intros step cycle r Hs E1 Hr. unfold v. now rewrite (cyclic_eq min_lr max_lr period step cycle r Hp E1 Hr).
  - intros step Hs. unfold v. destruct (cyclic_bounds min_lr max_lr period step Hm Hp Hs) as (x & -> & B). exact B.
  - intros step Hs. unfold v. now rewrite cyclic_periodic.
Qed.

Lemma slanted_call max_rate num_steps cut_frac ratio ls : 0 <= max_rate -> 0 < cut_frac < 1 -> (1 <= ratio)%Z ->
  1 <= IZR num_steps * cut_frac ->
  let s := slanted_triangular py_int max_rate num_steps cut_frac ratio 0 in
  exists (cut : Z) (v : Z -> R),
    (0 < cut)%Z /\ IZR cut <= IZR num_steps * cut_frac < IZR cut + 1 /\
    (forall step, (0 <= step)%Z -> sched_call s step ls = (s, Ok (v step))) /\
    v (cut - 1)%Z = max_rate /\
    (forall s1 s2, (0 <= s1 <= s2)%Z -> (s2 + 1 <= cut)%Z -> v s1 <= v s2) /\
    (forall s1 s2, (cut <= s1 + 1)%Z -> (s1 <= s2)%Z -> v s2 <= v s1) /\
    (forall step, (0 <= step)%Z -> IZR step + 1 <= IZR cut / cut_frac -> max_rate / IZR ratio <= v step <= max_rate).
Proof.
  intros Hm Hf Hr Hn s. set (cut := py_int (IZR num_steps * cut_frac)).
  assert (Hcut : IZR cut <= IZR num_steps * cut_frac < IZR cut + 1).
  { unfold cut, py_int. destruct (Rlt_dec (IZR num_steps * cut_frac) 0); [lra|].
    pose proof (base_Int_part (IZR num_steps * cut_frac)). lra. }
  assert (Hc : (0 < cut)%Z) by (apply lt_IZR; lra).
  set (v := fun step => match slanted_value max_rate cut cut_frac ratio 0 step with Ok x => x | Err _ => 0 end).
  assert (E : forall step, slanted_value max_rate cut cut_frac ratio 0 step = Ok (v step)).
  { intros step. unfold v. now rewrite slanted_eq by lia || lra. }
  exists cut, v. split; [exact Hc|]. split; [exact Hcut|]. split; [|split; [|split; [|split]]].
  - intros step Hs. unfold s, slanted_triangular. cbn [sched_call]. rewrite call_nonneg by assumption.
    cbn [nmul nZ num_R]. fold cut. now rewrite E.
  - unfold v. now rewrite slanted_peak by lia || lra.
  - intros s1 s2 H1 H2. apply (slanted_rises max_rate cut cut_frac ratio s1 s2); try assumption; apply E.
  - intros s1 s2 H1 H2. apply (slanted_falls max_rate cut cut_frac ratio s1 s2); try assumption; apply E.
  - intros step Hs He. destruct (slanted_bounds max_rate cut cut_frac ratio step) as (x & Ex & B); try assumption.
    rewrite E in Ex. injection Ex as ->. exact B.
Qed.

Lemma slanted_zero_cut max_rate num_steps cut_frac ratio step ls : 0 <= IZR num_steps * cut_frac < 1 -> (0 <= step)%Z ->
  snd (sched_call (slanted_triangular py_int max_rate num_steps cut_frac ratio 0) step ls) = Err ZeroDivisionError.
Proof.
  intros Hn Hs. unfold slanted_triangular. cbn [sched_call]. rewrite call_nonneg by assumption. cbn [snd nmul nZ num_R].
  replace (py_int (IZR num_steps * cut_frac)) with 0%Z; [apply slanted_zero_division; lia || lra|].
  unfold py_int. destruct (Rlt_dec (IZR num_steps * cut_frac) 0); [lra|].
  symmetry. apply floor_unique. lra.
Qed.

Lemma slanted_negative_call : exists v,
  snd (sched_call (slanted_triangular py_int 1 10 (1 / 10) 32 0) 20 None) = Ok v /\ v < 0.
Proof.
  unfold slanted_triangular. cbn [sched_call Z.ltb Z.compare snd nmul nZ num_R].
  replace (py_int (10 * (1 / 10))) with 1%Z; [apply slanted_negative|].
  unfold py_int. destruct (Rlt_dec (10 * (1 / 10)) 0); [lra|]. symmetry. apply floor_unique. lra.
Qed.

(** Plateau: a decreasing evaluation step is rejected only when the score does not improve. *)
Lemma plateau_order_unchecked : exists (st : pstate R) st',
  plateau_update 2 st (Some (5%Z, 3)) = Ok st' /\ p_last st = Some 10%Z /\ p_best st = Some 1.
Proof.
  exists (mkP (Some 1) (Some 10%Z) 0 0). eexists. cbn. destruct (Rlt_dec 1 3); [|lra]. auto.
Qed.

Lemma plateau_order_checked mp (st : pstate R) best last step score : p_best st = Some best -> p_last st = Some last ->
  score <= best -> (step < last)%Z -> plateau_update mp st (Some (step, score)) = Err ValueError.
Proof.
  intros Eb El Hle Hlt. unfold plateau_update. rewrite Eb, El. cbn [nltb num_R]. destruct (Rlt_dec best score); [lra|].
  destruct (Z.ltb_spec step last); [reflexivity | lia].
Qed.

Lemma plateau_no_score mp scale inner (st : pstate R) step :
  fst (sched_call (Plateau mp scale inner st) step None) = Plateau mp scale (if Z.ltb step 0 then inner else fst (sched_call inner step None)) st.
Proof.
  cbn [sched_call plateau_update]. destruct (Z.ltb step 0); [reflexivity|]. destruct (sched_call inner step None). reflexivity.
Qed.

Lemma to_generator_values (s : schedule R) start step_size n : (0 <= start)%Z -> (0 <= step_size)%Z ->
  (forall step, fst (sched_call s step None) = s) ->
  to_generator s start step_size n = Ok (map (fun i => snd (sched_call s (start + Z.of_nat i * step_size)%Z None)) (seq 0 n)).
Proof.
  intros Hs Hz Hf. unfold to_generator. destruct (Z.ltb_spec start 0); [lia|]. destruct (Z.ltb_spec step_size 0); [lia|].
  f_equal. generalize (seq 0 n). intros l. induction l as [|i l IH]; [reflexivity|]. cbn [map sched_run].
  specialize (Hf (start + Z.of_nat i * step_size)%Z).
  destruct (sched_call s (start + Z.of_nat i * step_size) None) as [s1 r] eqn:E. cbn [fst] in Hf. subst s1.
  destruct (sched_run s _) as [s2 rs] eqn:E2. cbn [snd] in *. now rewrite IH.
Qed.

Lemma to_generator_errors (s : schedule R) start step_size n : (start < 0)%Z \/ (step_size < 0)%Z ->
  to_generator s start step_size n = Err ValueError.
Proof.
  intros Hn. unfold to_generator. destruct (Z.ltb_spec start 0); [reflexivity|]. destruct (Z.ltb_spec step_size 0); [reflexivity | lia].
Qed.
Lemma decaying_zero (base decay t : R) step ls : (0 <= step)%Z -> 1 + decay * (IZR step + t) = 0 -> snd (sched_call (Decaying base decay t) step ls) = Err ZeroDivisionError.
Proof. intros Hs E. cbn [sched_call snd]. destruct (Z.ltb_spec step 0); [lia|]. cbn [snd]. unfold decaying_value. cbn [nadd nmul nZ num_R neqb]. destruct (Req_EM_T _ _) as [|n]; [reflexivity|]. exfalso. now apply n. Qed.
