From Coq Require Import Reals Lra Lia.
From Verif Require Import BaseFacts MatProofs ActLayerProofs ActProofs ActGeluProofs CudaProofs CudaMapProofs CudaActSpec.
Set Default Goal Selector "!".
Local Open Scope R_scope.

Ltac nR := cbn [nadd nsub nmul ndiv nopp nsqrt num_R nexp nln ntanh ncosh npi trans_R] in *; change (@nZ R num_R) with IZR in *.

Lemma ge_spec (a b : R) : ge a b = true <-> b <= a.
Proof. unfold ge. cbn. destruct (Rlt_dec a b); cbn; split; intros; try discriminate; try reflexivity; lra. Qed.
Lemma ge_false (a b : R) : ge a b = false <-> a < b.
Proof. unfold ge. cbn. destruct (Rlt_dec a b); cbn; split; intros; try discriminate; try reflexivity; lra. Qed.
Lemma le_spec (a b : R) : le a b = true <-> a <= b.
Proof. unfold le. cbn. destruct (Rlt_dec b a); cbn; split; intros; try discriminate; try reflexivity; lra. Qed.
Lemma le_false (a b : R) : le a b = false <-> b < a.
Proof. unfold le. cbn. destruct (Rlt_dec b a); cbn; split; intros; try discriminate; try reflexivity; lra. Qed.
Lemma cmin_R (a b : R) : cmin a b = Rmin a b.
Proof. unfold cmin. cbn. unfold Rmin. destruct (Rlt_dec b a), (Rle_dec a b); lra. Qed.
Lemma cmax_R (a b : R) : cmax a b = Rmax a b.
Proof. unfold cmax. cbn. unfold Rmax. destruct (Rlt_dec a b), (Rle_dec a b); lra. Qed.

(** ** kernels that compute the same function *)
Lemma gpu_clipped_is (s o lo hi x : R) : gpu_clipped_linear s o lo hi x = clipped_linear s o lo hi x.
Proof. unfold gpu_clipped_linear, clipped_linear. rewrite cmin_R, cmax_R. nR. rewrite clip_is. unfold clamp. now rewrite Rmin_comm, (Rmax_comm lo). Qed.
Lemma gpu_dish_is (x : R) : gpu_dish x = dish x.
Proof. unfold gpu_dish, dish, dec. nR. rewrite (Rplus_comm 1 (x * x)). ring. Qed.
Lemma gpu_mish_is (t x : R) : gpu_mish t x = mish t x.
Proof. unfold gpu_mish, mish, ge. now destruct (nltb x t). Qed.
Lemma gpu_back_clipped_is (s o lo hi d x : R) : s <> 0 -> gpu_backprop_clipped_linear s o lo hi d x = backprop_clipped_linear s o lo hi d x.
Proof.
  intros Hs. unfold gpu_backprop_clipped_linear, backprop_clipped_linear. nR. cbv zeta. unfold neqb, num_R. destruct (Req_EM_T s (IZR 0)) as [E|_]; [contradiction|].
  fold num_R. destruct (_ && _); nR; ring.
Qed.
Lemma gpu_back_clipped_zero (o lo hi d x : R) : gpu_backprop_clipped_linear 0 o lo hi d x = 0.
Proof. unfold gpu_backprop_clipped_linear. nR. unfold neqb, num_R. destruct (Req_EM_T 0 (IZR 0)) as [_|E]; [reflexivity|now elim E]. Qed.
Lemma gpu_back_hard_swish_is (d x : R) : gpu_backprop_hard_swish d x = backprop_hard_swish d x.
Proof.
  unfold gpu_backprop_hard_swish, backprop_hard_swish. cbv zeta. destruct (nltb (dec 25 10) x) eqn:E1, (nltb x (nopp (dec 25 10))) eqn:E2; nR; try ring.
  exfalso. apply nltb_R in E1, E2. unfold dec in *. nR. lra.
Qed.
Lemma gpu_back_mobilenet_is (d x : R) : gpu_backprop_hard_swish_mobilenet d x = backprop_hard_swish_mobilenet d x.
Proof.
  unfold gpu_backprop_hard_swish_mobilenet, backprop_hard_swish_mobilenet. cbv zeta. destruct (nltb (nZ 3) x) eqn:E1, (nltb x (nZ (-3))) eqn:E2; nR; try ring; try (field).
  exfalso. apply nltb_R in E1, E2. lra.
Qed.
Lemma gpu_back_dish_is (d x : R) : gpu_backprop_dish d x = backprop_dish d x.
Proof. reflexivity. Qed.
Lemma gpu_back_mish_is (t d x : R) : gpu_backprop_mish t d x = backprop_mish t d x.
Proof. rewrite <- cpu_mish_back_is. unfold gpu_backprop_mish, cpu_backprop_mish, ge. now destruct (nltb x t). Qed.

(** ** swish *)
Lemma gpu_swish_mid (t x : R) : - t < x < t -> gpu_swish t x = exact_swish x.
Proof. intros H. unfold gpu_swish. rewrite (proj2 (ge_false x t)), (proj2 (le_false x (nopp t))) by (nR; lra). reflexivity. Qed.
Lemma gpu_swish_high (t x : R) : t <= x -> gpu_swish t x = x.
Proof. intros H. unfold gpu_swish. now rewrite (proj2 (ge_spec x t)). Qed.
Lemma gpu_swish_low (t x : R) : 0 < t -> x <= - t -> gpu_swish t x = 0.
Proof. intros Ht H. unfold gpu_swish. rewrite (proj2 (ge_false x t)), (proj2 (le_spec x (nopp t))) by (nR; lra). reflexivity. Qed.
Lemma gpu_back_swish_mid (t d x : R) y : - t < x < t -> gpu_backprop_swish t d x y = d * (y + logistic x * (1 - y)).
Proof. intros H. unfold gpu_backprop_swish. rewrite (proj2 (ge_false x t)), (proj2 (le_false x (nopp t))) by (nR; lra). reflexivity. Qed.
Lemma gpu_back_swish_high (t d x : R) y : t <= x -> gpu_backprop_swish t d x y = d.
Proof. intros H. unfold gpu_backprop_swish. now rewrite (proj2 (ge_spec x t)). Qed.
Lemma gpu_back_swish_low (t d x : R) y : 0 < t -> x <= - t -> gpu_backprop_swish t d x y = 0.
Proof. intros Ht H. unfold gpu_backprop_swish. rewrite (proj2 (ge_false x t)), (proj2 (le_spec x (nopp t))) by (nR; lra). reflexivity. Qed.
Lemma der_exact_swish x : derivable_pt_lim exact_swish x (exact_swish x + logistic x * (1 - exact_swish x)).
Proof.
  unfold exact_swish. eapply der_eq; [apply derivable_pt_lim_mult; [apply derivable_pt_lim_id|apply der_logistic]|]. unfold id. ring.
Qed.
Lemma swish_inside (x : R) : -17 < x < 17 -> gpu_swish 17 x = swish x /\ forall d, gpu_backprop_swish 17 d x (gpu_swish 17 x) = backprop_swish d x (swish x).
Proof.
  intros Hx. assert (E : gpu_swish 17 x = swish x). { rewrite gpu_swish_mid by lra. unfold exact_swish, swish. nR. now rewrite sigmoid_mid by lra. }
  split; [exact E|]. intros d. rewrite E, gpu_back_swish_mid by lra. unfold backprop_swish. nR. now rewrite sigmoid_mid by lra.
Qed.
Lemma gpu_swish_true (t x : R) : 0 < t -> x <> t -> x <> - t ->
  differentiable (gpu_swish t) x /\ true_at (gpu_swish t) (fun d z => gpu_backprop_swish t d z (gpu_swish t z)) x.
Proof.
  intros Ht N1 N2. destruct (Rlt_dec x t) as [H1|H1]; [destruct (Rlt_dec (- t) x) as [H2|H2]|].
  - apply (true_from _ _ x (exact_swish x + logistic x * (1 - exact_swish x))).
    + apply (der_local _ exact_swish x (- t) t); [lra| |apply der_exact_swish]. intros z Hz. now apply gpu_swish_mid.
    + intros d. rewrite gpu_back_swish_mid, gpu_swish_mid by lra. reflexivity.
  - apply (true_from _ _ x 0).
    + apply (der_local _ (fun _ => 0) x (x - 1) (- t)); [lra| |apply derivable_pt_lim_const]. intros z Hz. apply gpu_swish_low; lra.
    + intros d. rewrite gpu_back_swish_low by lra. ring.
  - apply (true_from _ _ x 1).
    + apply (der_local _ (fun z => z) x t (x + 1)); [lra| |apply derivable_pt_lim_id]. intros z Hz. apply gpu_swish_high; lra.
    + intros d. rewrite gpu_back_swish_high by lra. ring.
Qed.
Lemma logistic_exp x : logistic x = exp x / (1 + exp x).
Proof. unfold logistic. rewrite exp_Ropp. pose proof (exp_pos x). field. lra. Qed.
Lemma exp_le x y : x <= y -> exp x <= exp y.
Proof. intros [H| ->]; [left; now apply exp_increasing|right; reflexivity]. Qed.
Lemma x_exp_le (t x : R) : 1 <= t -> t <= x -> x * exp (- x) <= t * exp (- t).
Proof.
  intros Ht Hx. assert (E : exp (- x) = exp (- t) * exp (- (x - t))) by (rewrite <- exp_plus; f_equal; ring). rewrite E.
  assert (H1 : (1 + (x - t)) * exp (- (x - t)) <= 1).
  { pose proof (exp_ineq1_le (x - t)). rewrite exp_Ropp. pose proof (exp_pos (x - t)). apply (Rmult_le_reg_r (exp (x - t))); [lra|]. rewrite Rmult_assoc, Rinv_l by lra. lra. }
  pose proof (exp_pos (- t)). pose proof (exp_pos (- (x - t))). set (e := exp (- (x - t))) in *. assert (H3 : x * e <= t).
  { apply Rle_trans with (t * (1 + (x - t)) * e); [apply Rmult_le_compat_r; nra|]. rewrite Rmult_assoc. rewrite <- (Rmult_1_r t) at 3. apply Rmult_le_compat_l; lra. }
  replace (x * (exp (- t) * e)) with (x * e * exp (- t)) by ring. apply Rmult_le_compat_r; lra.
Qed.
Lemma swish_tail (t x : R) : 1 <= t -> t <= x -> 0 < x - exact_swish x <= t * exp (- t).
Proof.
  intros Ht Hx. unfold exact_swish. pose proof (logistic_bounds x). split; [nra|]. apply Rle_trans with (x * exp (- x)); [|now apply x_exp_le].
  replace (x - x * logistic x) with (x * (1 - logistic x)) by ring. apply Rmult_le_compat_l; [lra|]. rewrite <- logistic_opp. rewrite logistic_exp. pose proof (exp_pos (- x)).
  apply (Rmult_le_reg_r (1 + exp (- x))); [lra|]. unfold Rdiv. rewrite Rmult_assoc, Rinv_l by lra. nra.
Qed.
Lemma swish_opp x : exact_swish (- x) = exact_swish x - x.
Proof. unfold exact_swish. rewrite logistic_opp. ring. Qed.
Lemma gpu_swish_close (x : R) : Rabs (gpu_swish 17 x - exact_swish x) <= 17 * exp (- 17).
Proof.
  change (exp (-17)) with (exp (Ropp 17)). pose proof (exp_pos (Ropp 17)). destruct (Rlt_dec x 17) as [H1|H1]; [destruct (Rlt_dec (- 17) x) as [H2|H2]|].
  - rewrite gpu_swish_mid by lra. rewrite Rminus_diag_eq by reflexivity. rewrite Rabs_R0. nra.
  - rewrite gpu_swish_low by lra. pose proof (swish_tail 17 (- x) ltac:(lra) ltac:(lra)) as T1. rewrite swish_opp in T1. rewrite Rabs_right; lra.
  - rewrite gpu_swish_high by lra. pose proof (swish_tail 17 x ltac:(lra) ltac:(lra)) as T1. rewrite Rabs_right; lra.
Qed.
Lemma gpu_swish_jump (t : R) : 1 <= t -> ~ continuity_pt (gpu_swish t) t /\ ~ continuity_pt (gpu_swish t) (- t).
Proof.
  intros Ht. split; intros C.
  - set (g := fun z => gpu_swish t z - exact_swish z).
    assert (Cg : continuity_pt g t). { apply continuity_pt_minus; [exact C|]. apply derivable_continuous_pt. exists (exact_swish t + logistic t * (1 - exact_swish t)). apply der_exact_swish. }
    destruct (swish_tail t t Ht (Rle_refl t)) as [P _]. destruct (Cg (t - exact_swish t) P) as (del & Hd & Hc).
    assert (Hx : - t < t - Rmin 1 (del / 2) < t). { split; [|pose proof (Rmin_pos 1 (del / 2)); lra]. pose proof (Rmin_l 1 (del / 2)). lra. }
    assert (Hp : 0 < Rmin 1 (del / 2)) by (apply Rmin_pos; lra).
    specialize (Hc (t - Rmin 1 (del / 2))). unfold D_x, no_cond in Hc. cbn in Hc. unfold R_dist in Hc. assert (Hc' : Rabs (g (t - Rmin 1 (del / 2)) - g t) < t - exact_swish t).
    { apply Hc. split; [split; [exact I|lra]|]. replace (t - Rmin 1 (del / 2) - t) with (- Rmin 1 (del / 2)) by ring. rewrite Rabs_Ropp, Rabs_right by lra. pose proof (Rmin_r 1 (del / 2)). lra. }
    unfold g in Hc'. rewrite gpu_swish_mid in Hc' by lra. rewrite (gpu_swish_high t t) in Hc' by lra. match type of Hc' with Rabs ?e < _ => replace e with (- (t - exact_swish t)) in Hc' by ring end.
    rewrite Rabs_Ropp, Rabs_right in Hc' by lra. lra.
  - set (g := fun z => gpu_swish t z - exact_swish z).
    assert (Cg : continuity_pt g (- t)). { apply continuity_pt_minus; [exact C|]. apply derivable_continuous_pt. exists (exact_swish (- t) + logistic (- t) * (1 - exact_swish (- t))). apply der_exact_swish. }
    destruct (swish_tail t t Ht (Rle_refl t)) as [P _]. destruct (Cg (t - exact_swish t) P) as (del & Hd & Hc).
    assert (Hp : 0 < Rmin 1 (del / 2)) by (apply Rmin_pos; lra).
    assert (Hx : - t < - t + Rmin 1 (del / 2) < t). { split; [lra|]. pose proof (Rmin_l 1 (del / 2)). lra. }
    specialize (Hc (- t + Rmin 1 (del / 2))). unfold D_x, no_cond in Hc. cbn in Hc. unfold R_dist in Hc. assert (Hc' : Rabs (g (- t + Rmin 1 (del / 2)) - g (- t)) < t - exact_swish t).
    { apply Hc. split; [split; [exact I|lra]|]. replace (- t + Rmin 1 (del / 2) - - t) with (Rmin 1 (del / 2)) by ring. rewrite Rabs_right by lra. pose proof (Rmin_r 1 (del / 2)). lra. }
    unfold g in Hc'. rewrite gpu_swish_mid in Hc' by lra. rewrite (gpu_swish_low t (- t)) in Hc' by lra. rewrite swish_opp in Hc'. match type of Hc' with Rabs ?e < _ => replace e with (- (t - exact_swish t)) in Hc' by ring end.
    rewrite Rabs_Ropp, Rabs_right in Hc' by lra. lra.
Qed.
(** The CPU's swish clips the sigmoid at -20, so it runs away from the GPU's. *)
Lemma swish_apart (M : R) : exists x, M < Rabs (gpu_swish 17 x - swish x).
Proof.
  pose proof (logistic_bounds (-20)) as [Hl _]. set (x := - (Rmax 20 ((M + 1) / logistic (-20)))). exists x.
  assert (Hx : x <= -20) by (unfold x; pose proof (Rmax_l 20 ((M + 1) / logistic (-20))); lra).
  rewrite gpu_swish_low by lra. unfold swish. nR. rewrite sigmoid_low by lra. rewrite Rminus_0_l, Rabs_Ropp, Rabs_mult, (Rabs_left x), (Rabs_right (logistic (-20))) by lra.
  apply Rlt_le_trans with (M + 1); [lra|]. unfold x. rewrite Ropp_involutive. pose proof (Rmax_r 20 ((M + 1) / logistic (-20))) as Hr.
  apply Rle_trans with ((M + 1) / logistic (-20) * logistic (-20)); [right; field; lra|]. apply Rmult_le_compat_r; lra.
Qed.
