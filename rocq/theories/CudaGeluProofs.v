From Coq Require Import Reals Lra Lia.
From Verif Require Import BaseFacts MatProofs ActLayerProofs ActProofs ActGeluProofs CudaProofs CudaMapProofs OptModel CudaActSpec CudaActProofs ErfProofs.
Set Default Goal Selector "!".
Local Open Scope R_scope.

Section Gelu.
  Variable erf : R -> R.
  Hypothesis HE : is_erf erf.
  Notation Phi := (gauss erf).
  Let phi := @gaussian_pdf R num_R trans_R.
  Lemma erf_der x : derivable_pt_lim erf x (2 / sqrt PI * exp (- (x * x))).
  Proof. apply HE. Qed.
  Lemma erf_is_odd x : erf (- x) = - erf x.
  Proof using HE.
    assert (E : erf (- x) + erf x = erf (- 0) + erf 0).
    { apply (constant (fun y => erf (- y) + erf y)). intros y. eapply der_eq; [apply derivable_pt_lim_plus; [apply (derivable_pt_lim_comp Ropp erf); [apply derivable_pt_lim_opp, derivable_pt_lim_id|apply erf_der]|apply erf_der]|]. replace (- y * - y) with (y * y) by ring. ring. }
    rewrite Ropp_0 in E. destruct HE as [E0 _]. rewrite E0 in E. lra.
  Qed.
  Lemma sqrt2_pos : 0 < sqrt 2.
  Proof. apply sqrt_lt_R0. lra. Qed.
  Lemma phi_is x : phi x = / sqrt (2 * PI) * exp (- (x * x / 2)).
  Proof. apply pdf_is. Qed.
  Lemma phi_pos x : 0 < phi x.
  Proof. rewrite phi_is. apply Rmult_lt_0_compat; [apply Rinv_0_lt_compat, sqrt_lt_R0; pose proof PI_RGT_0; lra|apply exp_pos]. Qed.
  Lemma der_Phi x : derivable_pt_lim Phi x (phi x).
  Proof using HE.
    pose proof sqrt2_pos. pose proof sqrt_PI_pos. unfold gauss. eapply der_eq; [apply derivable_pt_lim_mult; [apply derivable_pt_lim_const|apply derivable_pt_lim_plus; [apply derivable_pt_lim_const|apply (derivable_pt_lim_comp (fun t => t / sqrt 2) erf); [|apply erf_der]]]|].
    - unfold Rdiv. apply derivable_pt_lim_mult; [apply derivable_pt_lim_id|apply derivable_pt_lim_const].
    - rewrite phi_is. unfold id. rewrite sqrt_mult by (pose proof PI_RGT_0; lra). replace (x / sqrt 2 * (x / sqrt 2)) with (x * x / (sqrt 2 * sqrt 2)) by (field; lra). rewrite sqrt_sqrt by lra. field. lra.
  Qed.
  Lemma Phi_opp x : Phi (- x) = 1 - Phi x.
  Proof using HE. unfold gauss. replace (- x / sqrt 2) with (- (x / sqrt 2)) by (field; pose proof sqrt2_pos; lra). rewrite erf_is_odd. field. Qed.
  Lemma Phi_lim eps : 0 < eps -> exists M, forall x, M <= x -> 1 - eps < Phi x.
  Proof using HE.
    intros He. destruct HE as (_ & _ & L). destruct (L eps He) as [M HM]. exists (M * sqrt 2). intros x Hx. pose proof sqrt2_pos.
    assert (Hm : M <= x / sqrt 2). { apply (Rmult_le_reg_r (sqrt 2)); [lra|]. unfold Rdiv. rewrite Rmult_assoc, Rinv_l by lra. lra. }
    specialize (HM _ Hm). apply Rabs_def2 in HM. unfold gauss. lra.
  Qed.
  Lemma Phi_incr x y : x < y -> Phi x < Phi y.
  Proof using HE. intros L. destruct (MVT_cor2 Phi phi x y L (fun c _ => der_Phi c)) as (c & E & Hc). pose proof (phi_pos c). nra. Qed.
  Lemma Phi_lt_1 x : Phi x < 1.
  Proof using HE.
    destruct (Rlt_dec (Phi x) 1) as [L|N]; [exact L|]. exfalso. assert (H1 := Phi_incr x (x + 1) ltac:(lra)).
    destruct HE as (_ & _ & L). destruct (L ((Phi (x + 1) - 1)) ltac:(lra)) as [M HM]. pose proof sqrt2_pos. set (y := Rmax (x + 2) (M * sqrt 2)).
    assert (Hy : Phi (x + 1) < Phi y). { apply Phi_incr. unfold y. pose proof (Rmax_l (x + 2) (M * sqrt 2)). lra. }
    assert (Hm : M <= y / sqrt 2). { apply (Rmult_le_reg_r (sqrt 2)); [lra|]. unfold Rdiv. rewrite Rmult_assoc, Rinv_l by lra. unfold y. pose proof (Rmax_r (x + 2) (M * sqrt 2)). lra. }
    specialize (HM _ Hm). apply Rabs_def2 in HM. assert (E : Phi y = 1 / 2 * (1 + erf (y / sqrt 2))) by reflexivity. lra.
  Qed.
  Lemma der_phi x : derivable_pt_lim phi x (- x * phi x).
  Proof.
    apply (der_local _ (fun x => / sqrt (2 * PI) * exp (- (x * x / 2))) x (x - 1) (x + 1)); [lra|intros z _; apply phi_is|].
    eapply der_eq; [apply derivable_pt_lim_mult; [apply derivable_pt_lim_const|apply (derivable_pt_lim_comp (fun t => - (t * t / 2)) exp); [|apply derivable_pt_lim_exp]]|].
    - apply derivable_pt_lim_opp. unfold Rdiv. apply derivable_pt_lim_mult; [apply derivable_pt_lim_mult; apply derivable_pt_lim_id|apply derivable_pt_lim_const].
    - rewrite phi_is. unfold id, fct_cte. field. apply Rgt_not_eq, sqrt_lt_R0. pose proof PI_RGT_0. lra.
  Qed.
  (** Mills' bound *)
  Lemma tail_bound x : 0 < x -> x * (1 - Phi x) <= phi x.
  Proof using HE.
    intros Hx. assert (B : 1 <= phi x / x + Phi x).
    { destruct (Rle_dec 1 (phi x / x + Phi x)) as [L|N]; [exact L|]. exfalso. set (eps := 1 - (phi x / x + Phi x)). destruct (Phi_lim eps ltac:(unfold eps; lra)) as [M HM]. set (y := Rmax (x + 1) M).
      assert (Hxy : x < y) by (unfold y; pose proof (Rmax_l (x + 1) M); lra). specialize (HM y (Rmax_r _ _)).
      destruct (MVT_cor2 (fun z => phi z / z + Phi z) (fun z => - (phi z / (z * z))) x y Hxy) as (c & E & Hc).
      - intros c Hc. eapply der_eq; [apply derivable_pt_lim_plus; [apply derivable_pt_lim_div; [apply der_phi|apply derivable_pt_lim_id|unfold id; lra]|apply der_Phi]|]. unfold id, Rsqr. field. lra.
      - assert (0 < phi c / (c * c)). { apply Rdiv_lt_0_compat; [apply phi_pos|nra]. } assert (0 < phi y / y). { apply Rdiv_lt_0_compat; [apply phi_pos|lra]. } unfold eps in HM. nra. }
    apply (Rmult_le_compat_l x) in B; [|lra]. rewrite Rmult_plus_distr_l in B. replace (x * (phi x / x)) with (phi x) in B by (field; lra). lra.
  Qed.
  Lemma phi_decr t x : 0 <= t -> t <= x -> phi x <= phi t.
  Proof.
    intros Ht Hx. rewrite !phi_is. apply Rmult_le_compat_l; [left; apply Rinv_0_lt_compat, sqrt_lt_R0; pose proof PI_RGT_0; lra|]. apply exp_le. nra.
  Qed.

  Lemma inv_sqrt_2_is x : @nmul R num_R inv_sqrt_2 x = x / sqrt 2.
  Proof. unfold inv_sqrt_2. nR. field. pose proof sqrt2_pos. lra. Qed.
  Lemma cdf_is x : nmul (dec 5 10) (nadd (nZ 1) (erf (nmul inv_sqrt_2 x))) = Phi x.
  Proof. rewrite inv_sqrt_2_is. unfold gauss, dec. nR. field. Qed.
  Lemma gpu_gelu_mid (t x : R) : - t < x < t -> gpu_gelu erf t x = exact_gelu erf x.
  Proof. intros Hx. unfold gpu_gelu. rewrite (proj2 (ge_false x t)), (proj2 (le_false x (nopp t))) by (nR; lra). cbv zeta. now rewrite cdf_is. Qed.
  Lemma gpu_gelu_high (t x : R) : t <= x -> gpu_gelu erf t x = x.
  Proof. intros Hx. unfold gpu_gelu. now rewrite (proj2 (ge_spec x t)). Qed.
  Lemma gpu_gelu_low (t x : R) : 0 < t -> x <= - t -> gpu_gelu erf t x = 0.
  Proof. intros Ht Hx. unfold gpu_gelu. rewrite (proj2 (ge_false x t)), (proj2 (le_spec x (nopp t))) by (nR; lra). reflexivity. Qed.
  Lemma gpu_back_gelu_mid (t d x : R) : - t < x < t -> gpu_backprop_gelu erf t d x = d * (Phi x + x * phi x).
  Proof. intros Hx. unfold gpu_backprop_gelu. rewrite (proj2 (ge_false x t)), (proj2 (le_false x (nopp t))) by (nR; lra). cbv zeta. rewrite cdf_is. reflexivity. Qed.
  Lemma gpu_back_gelu_high (t d x : R) : t <= x -> gpu_backprop_gelu erf t d x = d.
  Proof. intros Hx. unfold gpu_backprop_gelu. now rewrite (proj2 (ge_spec x t)). Qed.
  Lemma gpu_back_gelu_low (t d x : R) : 0 < t -> x <= - t -> gpu_backprop_gelu erf t d x = 0.
  Proof. intros Ht Hx. unfold gpu_backprop_gelu. rewrite (proj2 (ge_false x t)), (proj2 (le_spec x (nopp t))) by (nR; lra). reflexivity. Qed.
  Lemma gpu_gelu_true (t x : R) : 0 < t -> x <> t -> x <> - t -> differentiable (gpu_gelu erf t) x /\ true_at (gpu_gelu erf t) (gpu_backprop_gelu erf t) x.
  Proof using HE.
    intros Ht N1 N2. destruct (Rlt_dec x t) as [H1|H1]; [destruct (Rlt_dec (- t) x) as [H2|H2]|].
    - apply (true_from _ _ x (Phi x + x * phi x)).
      + apply (der_local _ (exact_gelu erf) x (- t) t); [lra| |apply gelu_exact, der_Phi]. intros z Hz. now apply gpu_gelu_mid.
      + intros d. now rewrite gpu_back_gelu_mid by lra.
    - apply (true_from _ _ x 0).
      + apply (der_local _ (fun _ => 0) x (x - 1) (- t)); [lra| |apply derivable_pt_lim_const]. intros z Hz. apply gpu_gelu_low; lra.
      + intros d. rewrite gpu_back_gelu_low by lra. ring.
    - apply (true_from _ _ x 1).
      + apply (der_local _ (fun z => z) x t (x + 1)); [lra| |apply derivable_pt_lim_id]. intros z Hz. apply gpu_gelu_high; lra.
      + intros d. rewrite gpu_back_gelu_high by lra. ring.
  Qed.
  Lemma exact_gelu_opp x : exact_gelu erf (- x) = exact_gelu erf x - x.
  Proof using HE. unfold exact_gelu. rewrite Phi_opp. ring. Qed.
  Lemma gelu_tail t x : 0 < t -> t <= x -> 0 < x - exact_gelu erf x <= phi t.
  Proof using HE.
    intros Ht Hx. unfold exact_gelu. pose proof (Phi_lt_1 x). split; [nra|]. apply Rle_trans with (phi x); [|apply phi_decr; lra]. pose proof (tail_bound x ltac:(lra)). lra.
  Qed.
  Lemma phi_6 : phi 6 = / sqrt (2 * PI) * exp (-18).
  Proof. rewrite phi_is. do 2 f_equal. lra. Qed.
  Lemma gpu_gelu_close x : Rabs (gpu_gelu erf 6 x - exact_gelu erf x) <= / sqrt (2 * PI) * exp (-18).
  Proof using HE.
    rewrite <- phi_6. pose proof (phi_pos 6). destruct (Rlt_dec x 6) as [H1|H1]; [destruct (Rlt_dec (- 6) x) as [H2|H2]|].
    - rewrite gpu_gelu_mid by lra. rewrite Rminus_diag_eq by reflexivity. rewrite Rabs_R0. lra.
    - rewrite gpu_gelu_low by lra. pose proof (gelu_tail 6 (- x) ltac:(lra) ltac:(lra)) as T1. rewrite exact_gelu_opp in T1. rewrite Rabs_right; lra.
    - rewrite gpu_gelu_high by lra. pose proof (gelu_tail 6 x ltac:(lra) ltac:(lra)) as T1. rewrite Rabs_right; lra.
  Qed.
End Gelu.

(** The jump of a function that agrees with a continuous one on one side. *)
Lemma jump f g t a : a < t -> (forall z, a < z < t -> f z = g z) -> continuity_pt g t -> f t <> g t -> ~ continuity_pt f t.
Proof.
  intros Ha E Cg N C. assert (Ch : continuity_pt (fun z => f z - g z) t) by now apply continuity_pt_minus. assert (P : 0 < Rabs (f t - g t)) by (apply Rabs_pos_lt; lra).
  destruct (Ch _ P) as (del & Hd & Hc). set (r := Rmin (t - a) del / 2). assert (Hr : 0 < r) by (unfold r; pose proof (Rmin_pos (t - a) del); lra).
  assert (R1 : r < t - a) by (unfold r; pose proof (Rmin_l (t - a) del); pose proof (Rmin_pos (t - a) del); lra). assert (R2 : r < del) by (unfold r; pose proof (Rmin_r (t - a) del); pose proof (Rmin_pos (t - a) del); lra).
  specialize (Hc (t - r)). cbv beta in Hc. cbn in Hc. unfold R_dist in Hc. rewrite E in Hc by lra. assert (Hc' : Rabs (g (t - r) - g (t - r) - (f t - g t)) < Rabs (f t - g t)).
  { apply Hc. split; [split; [exact I|lra]|]. replace (t - r - t) with (- r) by ring. rewrite Rabs_Ropp, Rabs_right by lra. exact R2. }
  replace (g (t - r) - g (t - r) - (f t - g t)) with (- (f t - g t)) in Hc' by ring. rewrite Rabs_Ropp in Hc'. lra.
Qed.
Lemma gpu_gelu_jump erf t : is_erf erf -> 0 < t -> ~ continuity_pt (gpu_gelu erf t) t.
Proof.
  intros HE Ht. apply (jump _ (exact_gelu erf) t (- t)); [lra|intros z Hz; now apply gpu_gelu_mid| |].
  - apply derivable_continuous_pt. exists (gauss erf t + t * gaussian_pdf t). apply gelu_exact. now apply der_Phi.
  - rewrite gpu_gelu_high by lra. pose proof (gelu_tail erf HE t t Ht (Rle_refl t)). lra.
Qed.

(** ** clip_gradient and adam *)
Lemma cupy_clip_is g (th : R) : / 1000000000000 <= th \/ / 1000000000000 <= norm g -> cupy_clip_gradient g th = clip_gradient g th.
Proof.
  intros Hc. unfold cupy_clip_gradient, clip_gradient. cbv zeta. rewrite cmax_R, cmin_R. replace (dec 1 1000000000000) with (/ 1000000000000) by (unfold dec; nR; lra).
  set (e := / 1000000000000) in *. assert (He : 0 < e) by (unfold e; lra). clearbody e. set (n := norm g) in *.
  assert (Same : forall s, s = 1 -> map (fun x => nmul x s) g = g). { intros s ->. rewrite <- (map_id g) at 2. apply map_ext. intros x. nR. ring. }
  destruct (Rle_dec e n) as [L|L].
  - rewrite (Rmax_left n e) by lra. destruct (nltb n th) eqn:Hl; cbn [negb]; [apply nltb_R in Hl|apply nltb_R_f in Hl].
    + apply Same. rewrite Rmin_right by lra. nR. field. lra.
    + rewrite Rmin_left by lra. reflexivity.
  - rewrite (Rmax_right n e) by lra. destruct (nltb n th) eqn:Hl; cbn [negb]; [apply nltb_R in Hl|apply nltb_R_f in Hl].
    + apply Same. rewrite Rmin_right by lra. nR. field. lra.
    + exfalso. lra.
Qed.
Lemma cupy_adam_is (w g m1 m2 : list R) b1 b2 eps lr mod_rate : length g = length w -> length m1 = length w -> length m2 = length w ->
  cupy_adam w g m1 m2 b1 b2 eps lr mod_rate = Ok (let '(w', _, m1', m2') := ops_adam w g m1 m2 b1 b2 eps lr (nZ 1) in (w', map (fun _ => nZ 0) g, m1', m2')).
Proof.
  intros Hg H1 H2. unfold cupy_adam. rewrite Hg, H1, H2, Nat.eqb_refl. cbn [negb]. unfold ops_adam.
  assert (E : adam_elements lr (nsub (nZ 1) b1) (nsub (nZ 1) b2) eps w g m1 m2 =
    (let m1' := vmap2 (fun m g => nadd m (nmul g (nsub (nZ 1) b1))) (map (fun m => nmul m b1) m1) g in
     let m2' := vmap2 (fun m g => nadd m (nmul (nmul g g) (nsub (nZ 1) b2))) (map (fun m => nmul m b2) m2) g in
     (vmap2 (fun w p => nsub w (nmul lr p)) w (vmap2 (fun a b => ndiv a (nadd (nmul (nZ 1) (nsqrt b)) eps)) m1' m2'), m1', m2'))).
  { revert g m1 m2 Hg H1 H2. induction w as [|p w IH]; intros [|x g] [|a m1] [|b m2] Hg H1 H2; try discriminate; [reflexivity|].
    cbn [adam_elements]. cbn [length] in *. rewrite IH by lia. cbn [map]. unfold adam_element, vmap2. cbn [combine map]. cbv zeta.
    replace (nadd a (nmul (nsub (nZ 1) b1) (nsub x a))) with (nadd (nmul a b1) (nmul x (nsub (nZ 1) b1))) by (nR; ring).
    replace (nadd b (nmul (nsub (nZ 1) b2) (nsub (nmul x x) b))) with (nadd (nmul b b2) (nmul (nmul x x) (nsub (nZ 1) b2))) by (nR; ring).
    cbn [fst snd]. do 3 f_equal. nR. rewrite Rmult_1_l. unfold Rdiv. ring. }
  rewrite E. reflexivity.
Qed.
Lemma cupy_adam_shapes (w g m1 m2 : list R) b1 b2 eps lr mod_rate : length w <> length g \/ length w <> length m1 \/ length w <> length m2 ->
  cupy_adam w g m1 m2 b1 b2 eps lr mod_rate = Err ValueError.
Proof.
  intros HN. unfold cupy_adam. destruct (Nat.eqb_spec (length w) (length g)); [|reflexivity]. destruct (Nat.eqb_spec (length w) (length m1)); [|reflexivity]. destruct (Nat.eqb_spec (length w) (length m2)); [|reflexivity]. tauto.
Qed.

(** ** whole arrays *)
Section Arrays.
  Variables (c : config) (junk : nat -> R) (inplace : bool).
  Hypothesis HT : has_threads c.
  Lemma arrays_forward fast slope offset lo hi t X :
    cupy_clipped_linear fast c junk inplace slope offset lo hi X = Ok (map (clipped_linear slope offset lo hi) X) /\
    cupy_dish fast c junk inplace X = Ok (map dish X) /\ cupy_mish fast c junk inplace t X = Ok (map (mish t) X).
  Proof using HT.
    unfold cupy_clipped_linear, cupy_dish, cupy_mish. destruct fast; [|repeat split]. rewrite !map_cu by exact HT. split; [|split]; apply f_equal; apply map_ext; intros x; [apply gpu_clipped_is|apply gpu_dish_is|apply gpu_mish_is].
  Qed.
  Lemma arrays_backward slope offset lo hi t (dY X : list R) : length X = length dY ->
    (slope <> 0 -> cupy_backprop_clipped_linear c junk inplace slope offset lo hi dY X = Ok (vmap2 (backprop_clipped_linear slope offset lo hi) dY X)) /\
    cupy_backprop_hard_swish c junk inplace dY X = Ok (vmap2 backprop_hard_swish dY X) /\
    cupy_backprop_hard_swish_mobilenet c junk inplace dY X = Ok (vmap2 backprop_hard_swish_mobilenet dY X) /\
    cupy_backprop_dish c junk inplace dY X = Ok (vmap2 backprop_dish dY X) /\
    cupy_backprop_mish c junk inplace t dY X = Ok (vmap2 (backprop_mish t) dY X).
  Proof using HT.
    intros HL. unfold cupy_backprop_clipped_linear, cupy_backprop_hard_swish, cupy_backprop_hard_swish_mobilenet, cupy_backprop_dish, cupy_backprop_mish. rewrite !map2_cu by assumption.
    split; [intros Hs|split; [|split; [|split]]]; apply f_equal; apply map_ext; intros [d x]; cbn [fst snd].
    - now apply gpu_back_clipped_is.
    - apply gpu_back_hard_swish_is.
    - apply gpu_back_mobilenet_is.
    - apply gpu_back_dish_is.
    - apply gpu_back_mish_is.
  Qed.
  Lemma arrays_slope_zero offset lo hi (dY X : list R) : length X = length dY -> cupy_backprop_clipped_linear c junk inplace 0 offset lo hi dY X = Ok (map (fun _ => 0) dY).
  Proof using HT.
    intros HL. unfold cupy_backprop_clipped_linear. rewrite map2_cu by assumption. f_equal. revert X HL. induction dY as [|d dY IH]; intros [|x X] HL; try discriminate; [reflexivity|].
    cbn [combine map fst snd]. rewrite gpu_back_clipped_zero, IH by (cbn in HL; lia). reflexivity.
  Qed.
  Lemma arrays_thresholds erf (dY X Y : list R) : length X = length dY -> length Y = length dY ->
    cupy_swish true c junk inplace X = Ok (map (gpu_swish 17) X) /\ cupy_gelu erf true c junk inplace X = Ok (map (gpu_gelu erf 6) X) /\
    cupy_backprop_swish c junk inplace dY X Y = Ok (map (fun p => gpu_backprop_swish 17 (fst p) (fst (snd p)) (snd (snd p))) (combine dY (combine X Y))) /\
    cupy_backprop_gelu erf c junk inplace dY X = Ok (vmap2 (gpu_backprop_gelu erf 6) dY X).
  Proof using HT.
    intros H1 H2. unfold cupy_swish, cupy_gelu, cupy_backprop_swish, cupy_backprop_gelu. rewrite !map_cu, map2_cu, map3_cu by assumption. repeat split.
  Qed.
End Arrays.
Lemma cupy_relu_is (X : mat R) (dY Y : list R) : map cupy_relu (m_rows X) = m_rows (op_relu X) /\ (length dY = length Y -> cupy_backprop_relu dY Y = Ok (vmap2 (fun d y => if nltb 0 y then d else 0) dY Y)).
Proof.
  split.
  - unfold op_relu, cupy_relu, mmap. cbn [m_rows]. apply map_ext. intros r. apply map_ext. intros x. reflexivity.
  - intros HL. unfold cupy_backprop_relu. rewrite HL, Nat.eqb_refl. f_equal. apply map_ext. intros [d y]. cbn [fst snd]. change (nZ 0) with 0. destruct (nltb 0 y); nR; ring.
Qed.
Lemma mod_rate_lost : exists (w g m1 m2 : list R) b1 b2 eps lr mod_rate w1 g1 a1 v1 w2 g2 a2 v2,
  cupy_adam w g m1 m2 b1 b2 eps lr mod_rate = Ok (w1, g1, a1, v1) /\ ops_adam w g m1 m2 b1 b2 eps lr mod_rate = (w2, g2, a2, v2) /\ w1 <> w2.
Proof.
  exists [0], [1], [1], [1], (/ 2), (/ 2), 1, 1, 0. do 8 eexists. split; [|split].
  - rewrite cupy_adam_is by reflexivity. reflexivity.
  - reflexivity.
  - unfold vmap2. cbn [combine map fst snd]. nR. intros E. injection E as E. replace (1 * / 2 + 1 * 1 * (1 - / 2)) with 1 in E by lra. rewrite sqrt_1 in E. lra.
Qed.
