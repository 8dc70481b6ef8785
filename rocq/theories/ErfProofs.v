(** The error function exists: integrals of continuous functions and the Gaussian integral. *)
From Coq Require Import Reals Lra Lia.
From Verif Require Import ActProofs CudaActSpec.
Set Default Goal Selector "!".
Local Open Scope R_scope.

Lemma mvt f f' a b : (forall c, derivable_pt_lim f c (f' c)) -> exists c, f b - f a = f' c * (b - a) /\ Rabs (c - a) <= Rabs (b - a).
Proof.
  intros D. destruct (Rtotal_order a b) as [L|[->|L]].
  - destruct (MVT_cor2 f f' a b L (fun c _ => D c)) as (c & E & H1). exists c. split; [exact E|]. rewrite !Rabs_right by lra. lra.
  - exists b. split; [ring|lra].
  - destruct (MVT_cor2 f f' b a L (fun c _ => D c)) as (c & E & H1). exists c. split; [lra|]. rewrite !Rabs_left by lra. lra.
Qed.
Lemma constant f a b : (forall x, derivable_pt_lim f x 0) -> f a = f b.
Proof. intros D. destruct (mvt f (fun _ => 0) a b D) as (c & E & _). lra. Qed.

Definition cint f (C : continuity f) a b : Riemann_integrable f a b :=
  match Rle_dec a b with
  | left L => continuity_implies_RiemannInt L (fun x _ => C x)
  | right N => RiemannInt_P1 (continuity_implies_RiemannInt (Rlt_le b a (Rnot_le_lt a b N)) (fun x _ => C x))
  end.
Definition int f C a b := RiemannInt (cint f C a b).
Lemma int_split f C a b c : int f C a c = int f C a b + int f C b c.
Proof. symmetry. apply RiemannInt_P26. Qed.
Lemma int_same f C a : int f C a a = 0.
Proof. pose proof (int_split f C a a a). lra. Qed.
Lemma int_mono f g C C' a b : a <= b -> (forall x, a < x < b -> f x <= g x) -> int f C a b <= int g C' a b.
Proof. intros L HL. now apply RiemannInt_P19. Qed.
Lemma int_const c C a b : int (fct_cte c) C a b = c * (b - a).
Proof. apply RiemannInt_P15. Qed.
Lemma int_lin f g l C C' C'' a b : int (fun x => f x + l * g x) C'' a b = int f C a b + l * int g C' a b.
Proof. apply RiemannInt_P13. Qed.
Lemma cte_cont c : continuity (fct_cte c).
Proof. apply continuity_const. intros x y. reflexivity. Qed.
Lemma der_int f C a x : derivable_pt_lim (fun y => int f C a y) x (f x).
Proof.
  intros eps He. destruct (C x (eps / 2) ltac:(lra)) as (d & Hd & Hc). exists (mkposreal d Hd). intros h Hh Hl. cbn in Hl.
  rewrite (int_split f C a x (x + h)). replace (int f C a x + int f C x (x + h) - int f C a x) with (int f C x (x + h)) by ring.
  assert (Near : forall z, Rabs (z - x) < d -> f x - eps / 2 <= f z <= f x + eps / 2).
  { intros z Hz. destruct (Req_dec z x) as [->|N]; [lra|]. assert (B : Rabs (f z - f x) < eps / 2). { apply Hc. split; [split; [exact I|congruence]|]. exact Hz. } apply Rabs_def2 in B. lra. }
  assert (B : Rabs (int f C x (x + h) - f x * h) <= eps / 2 * Rabs h).
  { destruct (Rle_dec 0 h) as [P|P].
    - assert (U := int_mono f (fct_cte (f x + eps / 2)) C (cte_cont _) x (x + h) ltac:(lra)). rewrite int_const in U.
      assert (L := int_mono (fct_cte (f x - eps / 2)) f (cte_cont _) C x (x + h) ltac:(lra)). rewrite int_const in L.
      assert (Hz : forall z, x < z < x + h -> f x - eps / 2 <= f z <= f x + eps / 2). { intros z Hz. apply Near. rewrite Rabs_right in * by lra. lra. }
      specialize (U (fun z Z => proj2 (Hz z Z))). specialize (L (fun z Z => proj1 (Hz z Z))). rewrite (Rabs_right h) by lra. apply Rabs_le. lra.
    - assert (E : int f C x (x + h) = - int f C (x + h) x). { pose proof (int_split f C x (x + h) x) as E. rewrite int_same in E. lra. }
      assert (U := int_mono f (fct_cte (f x + eps / 2)) C (cte_cont _) (x + h) x ltac:(lra)). rewrite int_const in U.
      assert (L := int_mono (fct_cte (f x - eps / 2)) f (cte_cont _) C (x + h) x ltac:(lra)). rewrite int_const in L.
      assert (Hz : forall z, x + h < z < x -> f x - eps / 2 <= f z <= f x + eps / 2). { intros z Hz. apply Near. rewrite (Rabs_left h) in Hl by lra. rewrite Rabs_left by lra. lra. }
      specialize (U (fun z Z => proj2 (Hz z Z))). specialize (L (fun z Z => proj1 (Hz z Z))). rewrite E, (Rabs_left h) by lra. apply Rabs_le. lra. }
  replace (int f C x (x + h) / h - f x) with ((int f C x (x + h) - f x * h) / h) by (field; exact Hh). unfold Rdiv. rewrite Rabs_mult, Rabs_inv.
  pose proof (Rabs_pos_lt h Hh). apply (Rmult_lt_reg_r (Rabs h)); [assumption|]. rewrite Rmult_assoc, Rinv_l by lra. nra.
Qed.
Lemma newton f C F a b : (forall x, derivable_pt_lim F x (f x)) -> int f C a b = F b - F a.
Proof.
  intros D. assert (E : int f C a a - F a = int f C a b - F b).
  { apply (constant (fun x => int f C a x - F x)). intros x. eapply der_eq; [apply derivable_pt_lim_minus; [apply der_int|apply D]|]. ring. }
  rewrite int_same in E. lra.
Qed.
Lemma der_cont f f' : (forall x, derivable_pt_lim f x (f' x)) -> continuity f.
Proof. intros D x. apply derivable_continuous_pt. exists (f' x). apply D. Qed.

Definition bell t := exp (- (t * t)).
Lemma der_bell x : derivable_pt_lim bell x (- (2 * x) * bell x).
Proof.
  unfold bell. eapply der_eq; [apply (derivable_pt_lim_comp (fun t => - (t * t)) exp); [apply derivable_pt_lim_opp, derivable_pt_lim_mult; apply derivable_pt_lim_id|apply derivable_pt_lim_exp]|]. unfold id. ring.
Qed.
Lemma bell_cont : continuity bell.
Proof. exact (der_cont _ _ der_bell). Qed.
Definition area x := int bell bell_cont 0 x.
Lemma der_area x : derivable_pt_lim area x (bell x).
Proof. apply der_int. Qed.

(** [exp (- x^2 s)] as a function of x *)
Definition scaled s x := exp (- (x * x * s)).
Definition scaled1 s x := - (2 * x * s) * scaled s x.
Definition scaled2 s x := (4 * (x * x * s) - 2) * s * scaled s x.
Lemma der_scaled0 s x : derivable_pt_lim (scaled s) x (scaled1 s x).
Proof.
  unfold scaled, scaled1. eapply der_eq; [apply (derivable_pt_lim_comp (fun t => - (t * t * s)) exp)|].
  - apply derivable_pt_lim_opp, derivable_pt_lim_mult; [apply derivable_pt_lim_mult; apply derivable_pt_lim_id|apply derivable_pt_lim_const].
  - apply derivable_pt_lim_exp.
  - unfold id, scaled. ring.
Qed.
Lemma der_scaled1 s x : derivable_pt_lim (scaled1 s) x (scaled2 s x).
Proof.
  unfold scaled1, scaled2. eapply der_eq; [apply derivable_pt_lim_mult; [|apply der_scaled0]|].
  - apply derivable_pt_lim_opp, derivable_pt_lim_mult; [apply derivable_pt_lim_mult; [apply derivable_pt_lim_const|apply derivable_pt_lim_id]|apply derivable_pt_lim_const].
  - unfold scaled1. unfold id. ring.
Qed.
Lemma z_exp z : 0 <= z -> 0 <= z * exp (- z) <= 1 /\ 0 <= exp (- z) <= 1.
Proof.
  intros Hz. pose proof (exp_pos (- z)). pose proof (exp_ineq1_le z). assert (E : exp z * exp (- z) = 1) by (rewrite <- exp_plus; replace (z + - z) with 0 by ring; apply exp_0).
  split; split; nra.
Qed.
Lemma scaled2_bound s x : 1 <= s <= 2 -> Rabs (scaled2 s x) <= 12.
Proof.
  intros Hs. unfold scaled2, scaled. set (z := x * x * s). assert (Hz : 0 <= z) by (unfold z; pose proof (Rle_0_sqr x) as Q; unfold Rsqr in Q; nra).
  destruct (z_exp z Hz) as [H1 H2]. set (e := exp (- z)) in *. replace ((4 * z - 2) * s * e) with (s * (4 * (z * e) - 2 * e)) by ring. apply Rabs_le. split; nra.
Qed.
Lemma scaled_taylor s x h : 1 <= s <= 2 -> Rabs (scaled s (x + h) - scaled s x - h * scaled1 s x) <= 12 * (h * h).
Proof.
  intros Hs. destruct (mvt (scaled s) (scaled1 s) x (x + h) (der_scaled0 s)) as (c & E & Hc). destruct (mvt (scaled1 s) (scaled2 s) x c (der_scaled1 s)) as (c' & E' & _).
  replace (x + h - x) with h in * by ring. rewrite E. replace (scaled1 s c * h - h * scaled1 s x) with (h * (scaled1 s c - scaled1 s x)) by ring. rewrite E', !Rabs_mult.
  pose proof (scaled2_bound s c' Hs). pose proof (Rabs_pos h). pose proof (Rabs_pos (c - x)). pose proof (Rabs_pos (scaled2 s c')).
  assert (Q : Rabs h * Rabs h = h * h) by (rewrite <- Rabs_mult; apply Rabs_right; nra). rewrite <- Q. apply Rle_trans with (Rabs h * (12 * Rabs h)); [|lra]. apply Rmult_le_compat_l; [lra|]. apply Rmult_le_compat; lra.
Qed.

(** [G x] is the integral of [exp (- x^2 (1 + t^2)) / (1 + t^2)] over t from 0 to 1. *)
Lemma s_cont : continuity (fun t => 1 + t * t).
Proof. apply (der_cont _ (fun t => 2 * t)). intros x. eapply der_eq; [apply derivable_pt_lim_plus; [apply derivable_pt_lim_const|apply derivable_pt_lim_mult; apply derivable_pt_lim_id]|]. unfold id. ring. Qed.
Lemma s_pos t : 0 < 1 + t * t.
Proof. pose proof (Rle_0_sqr t) as Q. unfold Rsqr in Q. lra. Qed.
Lemma e_cont x : continuity (fun t => scaled (1 + t * t) x).
Proof. unfold scaled. intros t. apply (continuity_pt_comp (fun t => - (x * x * (1 + t * t))) exp); [|apply derivable_continuous_pt, derivable_pt_exp]. apply continuity_pt_opp, continuity_pt_mult; [apply continuity_pt_const; intros a b; reflexivity|apply s_cont]. Qed.
Definition inner x t := scaled (1 + t * t) x / (1 + t * t).
Lemma inner_cont x : continuity (inner x).
Proof. intros t. unfold inner. apply continuity_pt_div; [apply e_cont|apply s_cont|]. pose proof (s_pos t). lra. Qed.
Definition slope x t := - (2 * x) * scaled (1 + t * t) x.
Lemma slope_cont x : continuity (slope x).
Proof. intros t. unfold slope. apply continuity_pt_mult; [apply continuity_pt_const; intros a b; reflexivity|apply e_cont]. Qed.
Definition G x := int (inner x) (inner_cont x) 0 1.
Lemma der_G x : derivable_pt_lim G x (int (slope x) (slope_cont x) 0 1).
Proof.
  intros eps He. assert (Hd : 0 < eps / 13) by lra. exists (mkposreal _ Hd). intros h Hh Hl. cbn in Hl.
  assert (B : forall t, 0 < t < 1 -> Rabs (inner (x + h) t - inner x t - h * slope x t) <= 12 * (h * h)).
  { intros t Ht. pose proof (s_pos t). assert (Hs : 1 <= 1 + t * t <= 2) by nra.
    replace (inner (x + h) t - inner x t - h * slope x t) with ((scaled (1 + t * t) (x + h) - scaled (1 + t * t) x - h * scaled1 (1 + t * t) x) / (1 + t * t)) by (unfold inner, slope, scaled1; field; lra).
    unfold Rdiv. rewrite Rabs_mult. pose proof (scaled_taylor (1 + t * t) x h Hs) as Ty. rewrite (Rabs_right (/ (1 + t * t))) by (apply Rle_ge; left; apply Rinv_0_lt_compat; lra).
    pose proof (Rabs_pos (scaled (1 + t * t) (x + h) - scaled (1 + t * t) x - h * scaled1 (1 + t * t) x)). assert (0 < / (1 + t * t) <= 1). { split; [apply Rinv_0_lt_compat; lra|]. rewrite <- Rinv_1. apply Rinv_le_contravar; lra. } nra. }
  assert (C1 : continuity (fun t => inner (x + h) t + (-1) * inner x t)) by (intros t; apply continuity_pt_plus; [apply inner_cont|apply continuity_pt_mult; [apply continuity_pt_const; intros a b; reflexivity|apply inner_cont]]).
  assert (C2 : continuity (fun t => (inner (x + h) t + (-1) * inner x t) + (- h) * slope x t)) by (intros t; apply continuity_pt_plus; [apply C1|apply continuity_pt_mult; [apply continuity_pt_const; intros a b; reflexivity|apply slope_cont]]).
  assert (E : int _ C2 0 1 = G (x + h) - G x - h * int (slope x) (slope_cont x) 0 1).
  { rewrite (int_lin _ _ _ C1 (slope_cont x)), (int_lin _ _ _ (inner_cont (x + h)) (inner_cont x)). unfold G. ring. }
  assert (U := int_mono _ (fct_cte (12 * (h * h))) C2 (cte_cont _) 0 1 ltac:(lra)). rewrite int_const, E in U.
  assert (L := int_mono (fct_cte (- (12 * (h * h)))) _ (cte_cont _) C2 0 1 ltac:(lra)). rewrite int_const, E in L.
  assert (U' : G (x + h) - G x - h * int (slope x) (slope_cont x) 0 1 <= 12 * (h * h) * (1 - 0)). { apply U. intros t Ht. specialize (B t Ht). unfold fct_cte. pose proof (Rle_abs (inner (x + h) t - inner x t - h * slope x t)). lra. }
  assert (L' : - (12 * (h * h)) * (1 - 0) <= G (x + h) - G x - h * int (slope x) (slope_cont x) 0 1). { apply L. intros t Ht. specialize (B t Ht). unfold fct_cte. pose proof (Rle_abs (- (inner (x + h) t - inner x t - h * slope x t))) as Q. rewrite Rabs_Ropp in Q. lra. }
  set (d := int (slope x) (slope_cont x) 0 1) in *. replace ((G (x + h) - G x) / h - d) with ((G (x + h) - G x - h * d) / h) by (field; exact Hh). unfold Rdiv. rewrite Rabs_mult, Rabs_inv.
  pose proof (Rabs_pos_lt h Hh) as Hp. assert (B2 : Rabs (G (x + h) - G x - h * d) <= 12 * (h * h)) by (apply Rabs_le; lra).
  assert (Q : Rabs h * Rabs h = h * h) by (rewrite <- Rabs_mult; apply Rabs_right; nra). apply (Rmult_lt_reg_r (Rabs h)); [assumption|]. rewrite Rmult_assoc, Rinv_l by lra. nra.
Qed.
Lemma slope_area x : int (slope x) (slope_cont x) 0 1 = - (2 * bell x) * area x.
Proof.
  rewrite (newton _ _ (fun t => - (2 * bell x) * area (x * t))).
  - rewrite Rmult_1_r, Rmult_0_r. unfold area at 2. rewrite int_same. ring.
  - intros t. eapply der_eq; [apply derivable_pt_lim_mult; [apply derivable_pt_lim_const|apply (derivable_pt_lim_comp (fun t => x * t) area); [apply derivable_pt_lim_mult; [apply derivable_pt_lim_const|apply derivable_pt_lim_id]|apply der_area]]|].
    unfold id, slope, scaled, bell. replace (- (x * x * (1 + t * t))) with (- (x * x) + - (x * t * (x * t))) by ring. rewrite exp_plus. ring.
Qed.
Lemma G_0 : G 0 = PI / 4.
Proof.
  unfold G. rewrite (newton _ _ atan), atan_0, <- atan_1; [ring|]. intros t. eapply der_eq; [apply derivable_pt_lim_atan|].
  unfold inner, scaled. replace (- (0 * 0 * (1 + t * t))) with 0 by ring. rewrite exp_0. pose proof (s_pos t). unfold Rsqr. field. lra.
Qed.
Lemma gauss_squared x : area x * area x + G x = PI / 4.
Proof.
  rewrite <- G_0. assert (E := constant (fun y => area y * area y + G y) x 0). cbv beta in E. rewrite E.
  - unfold area. rewrite int_same. ring.
  - intros y. eapply der_eq; [apply derivable_pt_lim_plus; [apply derivable_pt_lim_mult; apply der_area|apply der_G]|]. rewrite slope_area. ring.
Qed.
Lemma G_small x : 0 <= G x <= bell x.
Proof.
  assert (U := int_mono (inner x) (fct_cte (bell x)) (inner_cont x) (cte_cont _) 0 1 ltac:(lra)). assert (L := int_mono (fct_cte 0) (inner x) (cte_cont _) (inner_cont x) 0 1 ltac:(lra)).
  rewrite int_const in U, L. fold (G x) in U, L.
  assert (B : forall t, 0 < t < 1 -> 0 <= inner x t <= bell x).
  { intros t Ht. unfold inner. pose proof (s_pos t). pose proof (exp_pos (- (x * x * (1 + t * t)))) as P. assert (M : scaled (1 + t * t) x <= bell x).
    { unfold scaled, bell. assert (Hq : 0 <= x * x * (t * t)) by (pose proof (Rle_0_sqr x) as Q1; pose proof (Rle_0_sqr t) as Q2; unfold Rsqr in *; nra). destruct (Rle_lt_or_eq_dec _ _ Hq) as [Q|Q]; [left; apply exp_increasing; lra|right; f_equal; lra]. }
    assert (0 < / (1 + t * t) <= 1). { split; [apply Rinv_0_lt_compat; lra|]. rewrite <- Rinv_1. apply Rinv_le_contravar; nra. } unfold scaled in *. unfold Rdiv. nra. }
  split; [assert (0 * (1 - 0) <= G x) by (apply L; intros t Ht; exact (proj1 (B t Ht)))|assert (G x <= bell x * (1 - 0)) by (apply U; intros t Ht; exact (proj2 (B t Ht)))]; lra.
Qed.
Lemma area_pos x : 0 <= x -> 0 <= area x.
Proof.
  intros Hx. unfold area. assert (L := int_mono (fct_cte 0) bell (cte_cont _) bell_cont 0 x Hx). rewrite int_const in L. apply Rle_trans with (0 * (x - 0)); [lra|]. apply L. intros t _. left. apply exp_pos.
Qed.
Lemma sqrt_PI_pos : 0 < sqrt PI.
Proof. apply sqrt_lt_R0, PI_RGT_0. Qed.
Definition true_erf x := 2 / sqrt PI * area x.
Lemma erf_squared x : 1 - true_erf x * true_erf x = 4 / PI * G x.
Proof.
  unfold true_erf. pose proof (gauss_squared x) as E. pose proof sqrt_PI_pos. pose proof PI_RGT_0. replace (2 / sqrt PI * area x * (2 / sqrt PI * area x)) with (4 / (sqrt PI * sqrt PI) * (area x * area x)) by (field; lra).
  rewrite sqrt_sqrt by lra. replace (area x * area x) with (PI / 4 - G x) by lra. field. lra.
Qed.
Lemma erf_exists : is_erf true_erf.
Proof.
  pose proof sqrt_PI_pos. pose proof PI_RGT_0. split; [|split].
  - unfold true_erf, area. rewrite int_same. ring.
  - intros x. unfold true_erf. eapply der_eq; [apply derivable_pt_lim_mult; [apply derivable_pt_lim_const|apply der_area]|]. unfold bell. ring.
  - intros eps He. exists (Rmax 1 (4 / PI / eps + 1)). intros x Hx. pose proof (Rmax_l 1 (4 / PI / eps + 1)). pose proof (Rmax_r 1 (4 / PI / eps + 1)).
    assert (Hpos : 0 <= true_erf x). { unfold true_erf. apply Rmult_le_pos; [left; apply Rdiv_lt_0_compat; lra|apply area_pos; lra]. }
    pose proof (erf_squared x) as E. pose proof (G_small x) as [G0 G1]. assert (K : 0 < 4 / PI) by (apply Rdiv_lt_0_compat; lra).
    assert (B : bell x <= / x). { unfold bell. rewrite exp_Ropp. apply Rinv_le_contravar; [lra|]. pose proof (exp_ineq1_le (x * x)). nra. }
    assert (B1 : 4 / PI * G x <= 4 / PI * / x) by (apply Rmult_le_compat_l; lra). assert (B2 : 4 / PI * / x < eps).
    { assert (Hx' : 4 / PI / eps < x) by lra. apply (Rmult_lt_reg_r x); [lra|]. rewrite Rmult_assoc, Rinv_l, Rmult_1_r by lra. apply (Rmult_lt_compat_r eps) in Hx'; [|lra]. unfold Rdiv at 1 in Hx'. rewrite Rmult_assoc, Rinv_l in Hx' by lra. lra. }
    assert (Hle : true_erf x <= 1). { assert (0 <= 4 / PI * G x) by (apply Rmult_le_pos; lra). nra. }
    rewrite Rabs_left1 by lra. assert (1 - true_erf x <= 1 - true_erf x * true_erf x) by nra. lra.
Qed.
