(** gelu and its tanh approximation. *)
From Coq Require Import Reals Lra Lia.
From Verif Require Import CombModel CombSpec DenseModel ActModel ActSpec ActLayerProofs ActProofs.
Set Default Goal Selector "!".
Local Open Scope R_scope.

Lemma gelu_approx_is x : gelu_approx x = x * ((1 + tanh (sqrt (2 / PI) * (x + 44715 / 1000000 * x ^ 3))) * (5 / 10)).
Proof. reflexivity. Qed.
Lemma sechsq_is x : sechsq x = sech2 (clamp (-20) 20 x).
Proof. unfold sechsq. rewrite clip_is. reflexivity. Qed.
Lemma gelu_approx_back d x : backprop_gelu_approx d x =
  d * ((5 / 10 * tanh (gelu_arg x) + (535161 / 10000000 * x ^ 3 + 398942 / 1000000 * x) * sechsq (gelu_arg x)) + 5 / 10).
Proof. reflexivity. Qed.

(** ** Where the argument is inside the clipping bounds *)
Lemma sech2_tanh x : sech2 x = 1 - tanh x ^ 2.
Proof.
  unfold sech2, tanh. pose proof (cosh_pos x) as P.
  assert (E : cosh x * cosh x - sinh x * sinh x = 1).
  { unfold cosh, sinh. rewrite exp_Ropp. pose proof (exp_pos x). field. lra. }
  replace ((1 / cosh x) ^ 2) with ((cosh x * cosh x - sinh x * sinh x) / (cosh x * cosh x)) by (rewrite E; field; lra). field. lra.
Qed.
Lemma der_cube x : derivable_pt_lim (fun z => z ^ 3) x (3 * x ^ 2).
Proof. apply (der_eq _ _ (INR 3 * x ^ pred 3)); [apply derivable_pt_lim_pow|cbn; ring]. Qed.
Lemma der_gelu_arg x : derivable_pt_lim gelu_arg x ((0 * x ^ 3 + 356774 / 10000000 * (3 * x ^ 2)) + (0 * x + 797885 / 1000000 * 1)).
Proof.
  apply (derivable_pt_lim_plus (fun z => 356774 / 10000000 * z ^ 3) (fun z => 797885 / 1000000 * z)).
  - apply (derivable_pt_lim_mult (fun _ => 356774 / 10000000) (fun z => z ^ 3)); [apply derivable_pt_lim_const|apply der_cube].
  - apply (derivable_pt_lim_mult (fun _ => 797885 / 1000000) (fun z => z)); [apply derivable_pt_lim_const|apply derivable_pt_lim_id].
Qed.
Lemma gelu_fixed_der x : exists l, derivable_pt_lim gelu_fixed x l /\
  (-20 <= gelu_arg x <= 20 -> forall d, backprop_gelu_approx d x = d * (l - 5 / 10000000 * x * sech2 (gelu_arg x))).
Proof.
  eexists. split.
  - apply (derivable_pt_lim_mult (fun z => z / 2) (fun z => 1 + tanh (gelu_arg z))).
    + apply (derivable_pt_lim_mult (fun z => z) (fun _ => / 2)); [apply derivable_pt_lim_id|apply derivable_pt_lim_const].
    + apply (derivable_pt_lim_plus (fun _ => 1) (fun z => tanh (gelu_arg z))); [apply derivable_pt_lim_const|].
      apply (derivable_pt_lim_comp gelu_arg tanh); [apply der_gelu_arg|apply der_tanh].
  - intros H d. rewrite gelu_approx_back, sechsq_is, clamp_mid by exact H. rewrite sech2_tanh. field.
Qed.

(** ** Far from zero *)
Lemma exp_20 : exp 20 <= 3 ^ 20.
Proof.
  assert (E : forall n, exp (INR n) <= 3 ^ n).
  { induction n as [|n IH]; [cbn; rewrite exp_0; lra|]. rewrite S_INR, exp_plus. cbn [pow]. rewrite (Rmult_comm 3).
    apply Rmult_le_compat; [left; apply exp_pos|left; apply exp_pos|exact IH|apply exp_le_3]. }
  specialize (E 20%nat). replace (INR 20) with 20 in E by (cbn; lra). exact E.
Qed.
Lemma cosh_20 : cosh 20 <= 3 ^ 20.
Proof.
  unfold cosh. pose proof exp_20. assert (exp (- (20)) <= exp 20) by (left; apply exp_increasing; lra). lra.
Qed.
Lemma sech2_20 : / (3 ^ 40) <= sech2 20.
Proof.
  unfold sech2. pose proof cosh_20. pose proof (cosh_pos 20). replace ((1 / cosh 20) ^ 2) with (/ (cosh 20 * cosh 20)) by (field; lra).
  apply Rinv_le_contravar; [apply Rmult_lt_0_compat; lra|]. replace (3 ^ 40) with (3 ^ 20 * 3 ^ 20) by ring. apply Rmult_le_compat; lra.
Qed.
Lemma tanh_pos x : 0 <= x -> 0 <= tanh x.
Proof.
  intros H. unfold tanh. pose proof (cosh_pos x). assert (0 <= sinh x).
  { unfold sinh. destruct (Rle_lt_or_eq_dec 0 x H) as [L|<-]; [|rewrite Ropp_0; lra]. assert (exp (- x) < exp x) by (apply exp_increasing; lra). lra. }
  unfold Rdiv. apply Rmult_le_pos; [assumption|]. left. now apply Rinv_0_lt_compat.
Qed.
Lemma cube_ge a x : 0 <= a <= x -> a ^ 3 <= x ^ 3.
Proof. intros H. apply pow_incr. exact H. Qed.
Lemma gelu_back_large x : 10000000 <= x -> 2 < backprop_gelu_approx 1 x.
Proof.
  intros H. rewrite gelu_approx_back, sechsq_is. pose proof (cube_ge 10000000 x ltac:(lra)) as C. replace (10000000 ^ 3) with 1000000000000000000000 in C by ring.
  assert (A : 20 <= gelu_arg x) by (unfold gelu_arg; lra). rewrite clamp_high by lra. pose proof (tanh_pos (gelu_arg x) ltac:(lra)) as T.
  pose proof sech2_20 as S. set (k := 535161 / 10000000 * x ^ 3 + 398942 / 1000000 * x).
  assert (K : 50000000000000000000 <= k) by (unfold k; lra).
  assert (B : 50000000000000000000 * / 3 ^ 40 <= k * sech2 20).
  { apply Rmult_le_compat; [lra| |exact K|exact S]. left. apply Rinv_0_lt_compat. apply pow_lt. lra. }
  assert (B' : 2 <= 50000000000000000000 * / 3 ^ 40).
  { apply (Rmult_le_reg_r (3 ^ 40)); [apply pow_lt; lra|]. rewrite Rmult_assoc, Rinv_l by (apply pow_nonzero; lra). lra. }
  lra.
Qed.
Lemma gelu_approx_range x : 0 <= x -> 0 <= gelu_approx x <= x.
Proof.
  intros H. rewrite gelu_approx_is. set (u := sqrt (2 / PI) * (x + 44715 / 1000000 * x ^ 3)). pose proof (tanh_bounds u) as T.
  assert (0 <= (1 + tanh u) * (5 / 10) <= 1) as [T1 T2] by lra. set (w := (1 + tanh u) * (5 / 10)) in *. split.
  - now apply Rmult_le_pos.
  - rewrite <- (Rmult_1_r x) at 2. now apply Rmult_le_compat_l.
Qed.
Lemma gelu_approx_wrong a : 10000000 <= a -> ~ (forall x, a <= x <= 3 * a -> derivable_pt_lim gelu_approx x (backprop_gelu_approx 1 x)).
Proof.
  intros Ha D. destruct (MVT_cor2 gelu_approx (backprop_gelu_approx 1) a (3 * a)) as (c & Hc & C1 & C2); [lra|exact D|].
  pose proof (gelu_back_large c ltac:(lra)) as B. pose proof (gelu_approx_range a ltac:(lra)). pose proof (gelu_approx_range (3 * a) ltac:(lra)).
  assert (2 * (3 * a - a) < backprop_gelu_approx 1 c * (3 * a - a)) by (apply Rmult_lt_compat_r; lra). lra.
Qed.
Lemma gelu_approx_differentiable x : differentiable gelu_approx x.
Proof.
  eexists. apply (derivable_pt_lim_mult (fun z => z) (fun z => (1 + tanh (sqrt (2 / PI) * (z + 44715 / 1000000 * z ^ 3))) * (5 / 10))); [apply derivable_pt_lim_id|].
  apply (derivable_pt_lim_mult (fun z => 1 + tanh (sqrt (2 / PI) * (z + 44715 / 1000000 * z ^ 3))) (fun _ => 5 / 10)); [|apply derivable_pt_lim_const].
  apply (derivable_pt_lim_plus (fun _ => 1) (fun z => tanh (sqrt (2 / PI) * (z + 44715 / 1000000 * z ^ 3)))); [apply derivable_pt_lim_const|].
  apply (derivable_pt_lim_comp (fun z => sqrt (2 / PI) * (z + 44715 / 1000000 * z ^ 3)) tanh); [|apply der_tanh].
  apply (derivable_pt_lim_mult (fun _ => sqrt (2 / PI)) (fun z => z + 44715 / 1000000 * z ^ 3)); [apply derivable_pt_lim_const|].
  apply (derivable_pt_lim_plus (fun z => z) (fun z => 44715 / 1000000 * z ^ 3)); [apply derivable_pt_lim_id|].
  apply (derivable_pt_lim_mult (fun _ => 44715 / 1000000) (fun z => z ^ 3)); [apply derivable_pt_lim_const|apply der_cube].
Qed.

(** ** gelu *)
(** With a cumulative distribution whose derivative is the density, the formula of the code is the derivative. *)
Lemma pdf_is x : gaussian_pdf x = / sqrt (2 * PI) * exp (- (x * x / 2)).
Proof. replace (- (x * x / 2)) with (- (5 / 10) * x * x) by field. unfold gaussian_pdf, inv_sqrt_2pi, dec. cbn [nmul ndiv nopp nexp nsqrt npi nZ num_R]. f_equal. unfold Rdiv. apply Rmult_1_l. Qed.
Lemma gelu_exact (Phi : R -> R) x : derivable_pt_lim Phi x (gaussian_pdf x) -> derivable_pt_lim (fun z => z * Phi z) x (Phi x + x * gaussian_pdf x).
Proof. intros H. apply (der_eq _ _ (1 * Phi x + x * gaussian_pdf x)); [|ring]. apply (derivable_pt_lim_mult (fun z => z) Phi); [apply derivable_pt_lim_id|exact H]. Qed.

Definition erf_poly (a : R) : R := 1 - (((((1061405429 / 1000000000 * (1 / (1 + 3275911 / 10000000 * a)) + -1453152027 / 1000000000) * (1 / (1 + 3275911 / 10000000 * a))) + 1421413741 / 1000000000) * (1 / (1 + 3275911 / 10000000 * a)) + -284496736 / 1000000000) * (1 / (1 + 3275911 / 10000000 * a)) + 254829592 / 1000000000) * (1 / (1 + 3275911 / 10000000 * a)) * exp (- a * a).
Lemma erf_pos x : 0 < x -> erf x = erf_poly x.
Proof.
  intros H. unfold erf. rewrite (proj2 (nltb_R_f x (nZ 0))) by (cbn; lra). unfold sign. rewrite (proj2 (nltb_R (nZ 0) x)) by (cbn; lra). cbn [nmul nZ num_R]. rewrite Rmult_1_l. reflexivity.
Qed.
Lemma erf_neg x : x < 0 -> erf x = - erf_poly (- x).
Proof.
  intros H. unfold erf. rewrite (proj2 (nltb_R x (nZ 0))) by (cbn; lra). unfold sign. rewrite (proj2 (nltb_R_f (nZ 0) x)) by (cbn; lra). rewrite (proj2 (nltb_R x (nZ 0))) by (cbn; lra).
  cbn [nmul nZ num_R]. replace (- erf_poly (- x)) with (-1 * erf_poly (- x)) by ring. reflexivity.
Qed.
Lemma erf_poly_0 : erf_poly 0 = 1 / 1000000000.
Proof. unfold erf_poly. rewrite Ropp_0, Rmult_0_l, exp_0. field. Qed.
Lemma erf_poly_der : differentiable erf_poly 0.
Proof.
  assert (D : derivable_pt erf_poly 0) by (unfold erf_poly; reg; lra). destruct D as [l D]. now exists l.
Qed.
Lemma der_timesz h : differentiable h 0 -> derivable_pt_lim (fun z => z * h z) 0 (h 0).
Proof. intros (l & D). apply (der_eq _ _ (1 * h 0 + 0 * l)); [|ring]. apply (derivable_pt_lim_mult (fun z => z) h); [apply derivable_pt_lim_id|exact D]. Qed.
Lemma inv_sqrt_2_pos : 0 < (inv_sqrt_2 : R).
Proof. unfold inv_sqrt_2. cbn. apply Rdiv_lt_0_compat; [lra|]. apply sqrt_lt_R0. lra. Qed.
Lemma gelu_side (s : R) : differentiable (fun z => 5 / 10 * (1 + s * erf_poly (s * inv_sqrt_2 * z))) 0.
Proof.
  destruct erf_poly_der as (l & D). eexists.
  apply (derivable_pt_lim_mult (fun _ => 5 / 10) (fun z => 1 + s * erf_poly (s * inv_sqrt_2 * z))); [apply derivable_pt_lim_const|].
  apply (derivable_pt_lim_plus (fun _ => 1) (fun z => s * erf_poly (s * inv_sqrt_2 * z))); [apply derivable_pt_lim_const|].
  apply (derivable_pt_lim_mult (fun _ => s) (fun z => erf_poly (s * inv_sqrt_2 * z))); [apply derivable_pt_lim_const|].
  apply (derivable_pt_lim_comp (fun z => s * inv_sqrt_2 * z) erf_poly _ (0 * 0 + s * inv_sqrt_2 * 1)).
  - apply (derivable_pt_lim_mult (fun _ => s * inv_sqrt_2) (fun z => z)); [apply derivable_pt_lim_const|apply derivable_pt_lim_id].
  - rewrite Rmult_0_r. exact D.
Qed.
Lemma gelu_kink : ~ differentiable gelu 0.
Proof.
  pose proof inv_sqrt_2_pos as P.
  apply (no_derivative _ (fun z => z * (5 / 10 * (1 + -1 * erf_poly (-1 * inv_sqrt_2 * z)))) (fun z => z * (5 / 10 * (1 + 1 * erf_poly (1 * inv_sqrt_2 * z)))) 0 (-1) 1
    (5 / 10 * (1 + -1 * erf_poly (-1 * inv_sqrt_2 * 0))) (5 / 10 * (1 + 1 * erf_poly (1 * inv_sqrt_2 * 0)))); [lra| | | | |].
  - intros z Hz. unfold gelu, gaussian_cdf, dec. cbn [nmul nadd nZ ndiv num_R]. destruct (Req_dec z 0) as [->|N]; [rewrite !Rmult_0_l; reflexivity|].
    rewrite erf_neg by nra. replace (- (inv_sqrt_2 * z)) with (-1 * inv_sqrt_2 * z) by ring. field.
  - intros z Hz. unfold gelu, gaussian_cdf, dec. cbn [nmul nadd nZ ndiv num_R]. destruct (Req_dec z 0) as [->|N]; [rewrite !Rmult_0_l; reflexivity|].
    rewrite erf_pos by nra. replace (1 * inv_sqrt_2 * z) with (inv_sqrt_2 * z) by ring. field.
  - apply (der_timesz (fun z => 5 / 10 * (1 + -1 * erf_poly (-1 * inv_sqrt_2 * z)))). apply (gelu_side (-1)).
  - apply (der_timesz (fun z => 5 / 10 * (1 + 1 * erf_poly (1 * inv_sqrt_2 * z)))). apply (gelu_side 1).
  - rewrite !Rmult_0_r, erf_poly_0. lra.
Qed.
Lemma erf_odd x : erf (- x) = - erf x.
Proof.
  assert (P : forall z : R, 0 < z -> erf (- z) = - erf z).
  { intros z Hz. unfold erf, sign. destruct (nltb_case (nZ 0) z) as [[E1 H1]|[E1 H1]]; [|cbn in H1; lra]. destruct (nltb_case z (nZ 0)) as [[E2 H2]|[E2 H2]]; [cbn in H2; lra|].
    destruct (nltb_case (nZ 0) (- z)) as [[E3 H3]|[E3 H3]]; [cbn in H3; lra|]. destruct (nltb_case (- z) (nZ 0)) as [[E4 H4]|[E4 H4]]; [|cbn in H4; lra].
    rewrite E1, E2, E3, E4. change (nopp (- z)) with (- - z). rewrite Ropp_involutive. cbn [nmul nZ num_R]. ring. }
  destruct (Rtotal_order x 0) as [H|[H|H]]; [|subst x|now apply P].
  - specialize (P (- x) ltac:(lra)). rewrite Ropp_involutive in P. rewrite P. now rewrite Ropp_involutive.
  - rewrite Ropp_0. assert (E : erf (0 : R) = 0); [|rewrite E; ring]. unfold erf, sign. destruct (nltb_case (nZ 0) (0 : R)) as [[E1 H1]|[E1 H1]]; [cbn in H1; lra|]. change (@nZ R num_R 0) with 0 in *. rewrite !E1. cbn [nmul nZ num_R]. ring.
Qed.
