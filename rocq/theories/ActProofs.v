(** Derivatives of the activation functions. *)
From Coq Require Import Reals Lra Lia.
From Verif Require Import CombModel CombSpec DenseModel ActModel ActSpec ActLayerProofs.
Set Default Goal Selector "!".
Local Open Scope R_scope.

(** ** One-sided derivatives *)
Lemma right_derivative f g x b l l1 : x < b -> (forall z, x <= z < b -> f z = g z) -> derivable_pt_lim g x l1 -> derivable_pt_lim f x l -> l = l1.
Proof.
  intros Hb He Hg Hf. destruct (Req_dec l l1) as [|N]; [assumption|exfalso].
  assert (P : 0 < Rabs (l - l1) / 2) by (apply Rdiv_lt_0_compat; [apply Rabs_pos_lt; lra|lra]).
  destruct (Hg _ P) as [d1 H1]. destruct (Hf _ P) as [d2 H2]. pose proof (cond_pos d1). pose proof (cond_pos d2).
  set (h := Rmin (Rmin d1 d2) (b - x) / 2).
  assert (Hh : 0 < h) by (apply Rdiv_lt_0_compat; [repeat apply Rmin_glb_lt; lra|lra]).
  assert (h < d1 /\ h < d2 /\ h < b - x) as (A1 & A2 & A3).
  { pose proof (Rmin_l (Rmin d1 d2) (b - x)). pose proof (Rmin_r (Rmin d1 d2) (b - x)). pose proof (Rmin_l d1 d2). pose proof (Rmin_r d1 d2). unfold h in *. lra. }
  specialize (H1 h ltac:(lra) ltac:(rewrite Rabs_right; lra)). specialize (H2 h ltac:(lra) ltac:(rewrite Rabs_right; lra)).
  rewrite (He (x + h)), (He x) in H2 by lra. set (q := (g (x + h) - g x) / h) in *.
  assert (T : Rabs (l - l1) <= Rabs (q - l1) + Rabs (q - l)).
  { replace (l - l1) with ((q - l1) + - (q - l)) by ring. eapply Rle_trans; [apply Rabs_triang|]. rewrite Rabs_Ropp. lra. }
  lra.
Qed.
Lemma left_derivative f g x a l l1 : a < x -> (forall z, a < z <= x -> f z = g z) -> derivable_pt_lim g x l1 -> derivable_pt_lim f x l -> l = l1.
Proof.
  intros Hb He Hg Hf. destruct (Req_dec l l1) as [|N]; [assumption|exfalso].
  assert (P : 0 < Rabs (l - l1) / 2) by (apply Rdiv_lt_0_compat; [apply Rabs_pos_lt; lra|lra]).
  destruct (Hg _ P) as [d1 H1]. destruct (Hf _ P) as [d2 H2]. pose proof (cond_pos d1). pose proof (cond_pos d2).
  set (h := Rmin (Rmin d1 d2) (x - a) / 2).
  assert (Hh : 0 < h) by (apply Rdiv_lt_0_compat; [repeat apply Rmin_glb_lt; lra|lra]).
  assert (h < d1 /\ h < d2 /\ h < x - a) as (A1 & A2 & A3).
  { pose proof (Rmin_l (Rmin d1 d2) (x - a)). pose proof (Rmin_r (Rmin d1 d2) (x - a)). pose proof (Rmin_l d1 d2). pose proof (Rmin_r d1 d2). unfold h in *. lra. }
  specialize (H1 (- h) ltac:(lra) ltac:(rewrite Rabs_Ropp, Rabs_right; lra)). specialize (H2 (- h) ltac:(lra) ltac:(rewrite Rabs_Ropp, Rabs_right; lra)).
  rewrite (He (x + - h)), (He x) in H2 by lra. set (q := (g (x + - h) - g x) / - h) in *.
  assert (T : Rabs (l - l1) <= Rabs (q - l1) + Rabs (q - l)).
  { replace (l - l1) with ((q - l1) + - (q - l)) by ring. eapply Rle_trans; [apply Rabs_triang|]. rewrite Rabs_Ropp. lra. }
  lra.
Qed.
Lemma no_derivative f g h x a b l1 l2 : a < x < b -> (forall z, a < z <= x -> f z = g z) -> (forall z, x <= z < b -> f z = h z) ->
  derivable_pt_lim g x l1 -> derivable_pt_lim h x l2 -> l1 <> l2 -> ~ differentiable f x.
Proof.
  intros Hx H1 H2 D1 D2 N (l & D). apply N. rewrite <- (left_derivative f g x a l l1); [|lra|assumption..]. apply (right_derivative f h x b l l2); [lra|assumption..].
Qed.
Lemma true_from f back x l : derivable_pt_lim f x l -> (forall d, back d x = d * l) -> differentiable f x /\ true_at f back x.
Proof. intros D H. split; [now exists l|]. intros l' D' d. rewrite (uniqueness_limite _ _ _ _ D' D). apply H. Qed.
Lemma true_no f back x : ~ differentiable f x -> true_at f back x.
Proof. intros N l D. exfalso. apply N. now exists l. Qed.
Lemma der_eq f x l l' : derivable_pt_lim f x l -> l = l' -> derivable_pt_lim f x l'.
Proof. now intros D <-. Qed.
Lemma der_local f g x a b l : a < x < b -> (forall z, a < z < b -> f z = g z) -> derivable_pt_lim g x l -> derivable_pt_lim f x l.
Proof. intros Hx E D. apply (derivable_pt_lim_locally_ext g f x a b l Hx); [|exact D]. intros z Hz. symmetry. now apply E. Qed.
Lemma der_affine x a b : derivable_pt_lim (fun z => z * a + b) x a.
Proof.
  apply (der_eq _ _ ((1 * a + x * 0) + 0)); [|ring]. apply (derivable_pt_lim_plus (fun z => z * a) (fun _ => b)); [|apply derivable_pt_lim_const].
  apply (derivable_pt_lim_mult (fun z => z) (fun _ => a)); [apply derivable_pt_lim_id|apply derivable_pt_lim_const].
Qed.
(** a quadratic *)
Lemma der_quad x a b : derivable_pt_lim (fun z => z * (z * a + b)) x (x * (2 * a) + b).
Proof.
  apply (der_eq _ _ (1 * (x * a + b) + x * a)); [|ring].
  apply (derivable_pt_lim_mult (fun z => z) (fun z => z * a + b)); [apply derivable_pt_lim_id|apply der_affine].
Qed.

(** ** relu *)
Lemma pos_true x : (x <> 0 -> differentiable (fun z => Rmax 0 z) x) /\
  true_at (fun z => Rmax 0 z) (fun d z => if nltb (nZ 0) (Rmax 0 z) then d else nZ 0) x.
Proof.
  destruct (Rtotal_order x 0) as [H|[->|H]].
  - destruct (true_from (fun z => Rmax 0 z) (fun d z => if nltb (nZ 0) (Rmax 0 z) then d else nZ 0) x 0) as [A B].
    + apply (der_local _ (fun _ => 0) x (x - 1) 0); [lra| |apply derivable_pt_lim_const]. intros z Hz. apply Rmax_left. lra.
    + intros d. rewrite Rmax_left by lra. rewrite (proj2 (nltb_R_f (nZ 0) 0)) by (cbn; lra). cbn. ring.
    + now split.
  - split; [lra|]. apply true_no. apply (no_derivative _ (fun _ => 0) (fun z => z) 0 (-1) 1 0 1); [lra| | |apply derivable_pt_lim_const|apply derivable_pt_lim_id|lra].
    + intros z Hz. apply Rmax_left. lra.
    + intros z Hz. apply Rmax_right. lra.
  - destruct (true_from (fun z => Rmax 0 z) (fun d z => if nltb (nZ 0) (Rmax 0 z) then d else nZ 0) x 1) as [A B].
    + apply (der_local _ (fun z => z) x 0 (x + 1)); [lra| |apply derivable_pt_lim_id]. intros z Hz. apply Rmax_right. lra.
    + intros d. rewrite Rmax_right by lra. rewrite (proj2 (nltb_R (nZ 0) x)) by (cbn; lra). ring.
    + now split.
Qed.

(** ** clipped_linear *)
Lemma clip_is lo hi x : clip lo hi x = clamp lo hi x.
Proof.
  unfold clip, clamp. destruct (nltb_case x lo) as [[-> H]|[-> H]].
  - destruct (nltb_case hi lo) as [[-> H']|[-> H']]; unfold Rmin, Rmax; destruct (Rle_dec lo x); destruct (Rle_dec hi _); lra.
  - destruct (nltb_case hi x) as [[-> H']|[-> H']]; unfold Rmin, Rmax; destruct (Rle_dec lo x); destruct (Rle_dec hi _); lra.
Qed.
Lemma clamp_low lo hi x : lo <= hi -> x <= lo -> clamp lo hi x = lo.
Proof. intros. unfold clamp. rewrite Rmax_left by lra. apply Rmin_right. lra. Qed.
Lemma clamp_high lo hi x : lo <= hi -> hi <= x -> clamp lo hi x = hi.
Proof. intros. unfold clamp. rewrite Rmax_right by lra. apply Rmin_left. lra. Qed.
Lemma clamp_mid lo hi x : lo <= x <= hi -> clamp lo hi x = x.
Proof. intros. unfold clamp. rewrite Rmax_right by lra. apply Rmin_right. lra. Qed.
Lemma clamp_const lo hi x : hi <= lo -> clamp lo hi x = hi.
Proof. intros. unfold clamp. apply Rmin_left. pose proof (Rmax_l lo x). lra. Qed.
Lemma step_right a s o y z : 0 < s -> a * s + o = y -> a <= z -> y <= z * s + o.
Proof. intros Hs <- Hz. apply Rplus_le_compat_r, Rmult_le_compat_r; lra. Qed.
Lemma step_left a s o y z : 0 < s -> a * s + o = y -> z <= a -> z * s + o <= y.
Proof. intros Hs <- Hz. apply Rplus_le_compat_r, Rmult_le_compat_r; lra. Qed.
Lemma clipped_true s o lo hi x : 0 < s ->
  (x * s + o <> lo -> x * s + o <> hi -> differentiable (fun z => clamp lo hi (z * s + o)) x) /\
  true_at (fun z => clamp lo hi (z * s + o)) (backprop_clipped_linear s o lo hi) x.
Proof.
  intros Hs.
  assert (Ext : forall z, clamp lo hi (z * s + o) = clipped_linear s o lo hi z) by (intros z; now rewrite <- clip_is).
  assert (Sc : forall d, backprop_clipped_linear s o lo hi d x = d * backprop_clipped_linear s o lo hi 1 x) by (intros; apply clip_scale).
  assert (D0 : x * s + o <> lo -> x * s + o <> hi -> derivable_pt_lim (fun z => clamp lo hi (z * s + o)) x (backprop_clipped_linear s o lo hi 1 x)).
  { intros N1 N2. apply (der_local _ (clipped_linear s o lo hi) x (x - 1) (x + 1)); [lra|intros; apply Ext|now apply clip_der]. }
  split; [intros N1 N2; eexists; now apply D0|].
  (* the points that map onto the bounds *)
  assert (Pt : forall b, ((b - o) / s) * s + o = b) by (intros; field; lra).
  assert (Mono : forall a b, a < b -> a * s + o < b * s + o) by (intros; apply Rplus_lt_compat_r, Rmult_lt_compat_r; lra).
  assert (Mono' : forall a b, a * s + o < b * s + o -> a < b) by (intros a b H; apply (Rmult_lt_reg_r s); lra).
  destruct (Rle_lt_dec hi lo) as [E|E].
  - (* constant *)
    apply (true_from _ _ x 0).
    + apply (der_local _ (fun _ => hi) x (x - 1) (x + 1)); [lra| |apply derivable_pt_lim_const]. intros z _. now apply clamp_const.
    + intros d. rewrite Sc. f_equal. unfold backprop_clipped_linear.
      destruct (nltb_case (ndiv (nsub lo o) s) x) as [[-> A]|[-> A]]; [|cbn; ring]. destruct (nltb_case x (ndiv (nsub hi o) s)) as [[-> B]|[-> B]]; [|cbn; ring].
      cbn in A, B. exfalso. apply Mono in A, B. rewrite Pt in A, B. lra.
  - destruct (Req_dec (x * s + o) lo) as [Q|N1]; [|destruct (Req_dec (x * s + o) hi) as [Q|N2]].
    + apply true_no. set (h := (hi - o) / s). assert (Hh : x < h) by (apply Mono'; unfold h; rewrite Pt; lra).
      apply (no_derivative _ (fun _ => lo) (fun z => z * s + o) x (x - 1) h 0 s); [lra| | |apply derivable_pt_lim_const|apply der_affine|lra].
      * intros z Hz. apply clamp_low; [lra|]. apply (step_left x); lra.
      * intros z Hz. apply clamp_mid. split; [apply (step_right x); lra|]. apply (step_left h); [lra| |lra]. unfold h. apply Pt.
    + apply true_no. set (h := (lo - o) / s). assert (Hh : h < x) by (apply Mono'; unfold h; rewrite Pt; lra).
      apply (no_derivative _ (fun z => z * s + o) (fun _ => hi) x h (x + 1) s 0); [lra| | |apply der_affine|apply derivable_pt_lim_const|lra].
      * intros z Hz. apply clamp_mid. split; [|apply (step_left x); lra]. apply (step_right h); [lra| |lra]. unfold h. apply Pt.
      * intros z Hz. apply clamp_high; [lra|]. apply (step_right x); lra.
    + apply (true_from _ _ x (backprop_clipped_linear s o lo hi 1 x)); [now apply D0|exact Sc].
Qed.
(** a negative slope *)
Lemma clipped_negative s o lo hi x : s < 0 -> lo < hi -> lo < x * s + o < hi ->
  derivable_pt_lim (fun z => clamp lo hi (z * s + o)) x s /\ forall d, backprop_clipped_linear s o lo hi d x = 0.
Proof.
  intros Hs Hl Hx. assert (Pt : forall b, ((b - o) / s) * s + o = b) by (intros; field; lra).
  assert (Mono' : forall a b, a * s + o < b * s + o -> b < a).
  { intros a b H. destruct (Rle_lt_dec a b) as [C|C]; [|exact C]. exfalso. assert (b * s <= a * s) by (apply Rmult_le_compat_neg_l with (r := s) in C; lra). lra. }
  split.
  - apply (der_local _ (fun z => z * s + o) x ((hi - o) / s) ((lo - o) / s)).
    + split; apply Mono'; rewrite Pt; lra.
    + intros z [Z1 Z2]. apply clamp_mid. split; [replace lo with (((lo - o) / s) * s + o) by apply Pt | replace hi with (((hi - o) / s) * s + o) by apply Pt];
        apply Rplus_le_compat_r; rewrite !(Rmult_comm _ s); apply Rmult_le_compat_neg_l; lra.
    + apply der_affine.
  - intros d. unfold backprop_clipped_linear. destruct (nltb_case (ndiv (nsub lo o) s) x) as [[-> A]|[-> A]]; [|cbn; ring]. exfalso.
    assert ((lo - o) / s < x) by exact A. assert (x < (lo - o) / s) by (apply Mono'; rewrite Pt; lra). lra.
Qed.

(** ** sigmoid *)
Lemma exp_pos' x : 0 < 1 + exp (- x).
Proof. pose proof (exp_pos (- x)). lra. Qed.
Lemma logistic_bounds x : 0 < logistic x < 1.
Proof.
  unfold logistic. pose proof (exp_pos (- x)). split; [apply Rdiv_lt_0_compat; lra|].
  apply (Rmult_lt_reg_r (1 + exp (- x))); [lra|]. unfold Rdiv. rewrite Rmult_assoc, Rinv_l by lra. lra.
Qed.
Lemma der_logistic x : derivable_pt_lim logistic x (logistic x * (1 - logistic x)).
Proof.
  pose proof (exp_pos' x) as P.
  apply (der_eq _ _ ((0 * (1 + exp (- x)) - (0 + exp (- x) * -1) * 1) / Rsqr (1 + exp (- x)))).
  - apply (derivable_pt_lim_div (fun _ => 1) (fun z => 1 + exp (- z))); [apply derivable_pt_lim_const| |lra].
    apply (derivable_pt_lim_plus (fun _ => 1) (fun z => exp (- z))); [apply derivable_pt_lim_const|].
    apply (derivable_pt_lim_comp (fun z => - z) exp); [|apply derivable_pt_lim_exp].
    apply (der_eq _ _ (- (1))); [|lra]. apply (derivable_pt_lim_opp (fun z => z)). apply derivable_pt_lim_id.
  - unfold logistic, Rsqr. field. lra.
Qed.
Lemma sigmoid_is x : sigmoid x = logistic (clamp (-20) 20 x).
Proof. unfold sigmoid. rewrite clip_is. reflexivity. Qed.
Lemma sigmoid_mid x : -20 <= x <= 20 -> sigmoid x = logistic x.
Proof. intros H. rewrite sigmoid_is, clamp_mid; [reflexivity|exact H]. Qed.
Lemma sigmoid_high x : 20 <= x -> sigmoid x = logistic 20.
Proof. intros H. rewrite sigmoid_is, clamp_high; [reflexivity|lra|exact H]. Qed.
Lemma sigmoid_low x : x <= -20 -> sigmoid x = logistic (-20).
Proof. intros H. rewrite sigmoid_is, clamp_low; [reflexivity|lra|exact H]. Qed.
Lemma sigmoid_bounds x : 0 < sigmoid x < 1.
Proof. rewrite sigmoid_is. apply logistic_bounds. Qed.
Definition sigmoid_back (d x : R) : R := backprop_sigmoid d (sigmoid x).
Lemma sigmoid_der x : -20 < x < 20 -> derivable_pt_lim sigmoid x (logistic x * (1 - logistic x)).
Proof. intros H. apply (der_local _ logistic x (-20) 20 _ H); [|apply der_logistic]. intros z Hz. apply sigmoid_mid. lra. Qed.
Lemma sigmoid_back_mid x d : -20 <= x <= 20 -> sigmoid_back d x = d * (logistic x * (1 - logistic x)).
Proof. intros H. unfold sigmoid_back, backprop_sigmoid, dsigmoid. rewrite sigmoid_mid by exact H. reflexivity. Qed.
Lemma logistic_var x : 0 < logistic x * (1 - logistic x).
Proof. pose proof (logistic_bounds x). apply Rmult_lt_0_compat; lra. Qed.
Lemma sigmoid_true x : -20 <= x <= 20 -> (-20 < x < 20 -> differentiable sigmoid x) /\ true_at sigmoid sigmoid_back x.
Proof.
  intros H. split; [intros H'; eexists; now apply sigmoid_der|].
  destruct (Req_dec x 20) as [->|N1]; [|destruct (Req_dec x (-20)) as [->|N2]].
  - apply true_no. pose proof (logistic_var 20).
    apply (no_derivative _ logistic (fun _ => logistic 20) 20 (-20) 21 (logistic 20 * (1 - logistic 20)) 0); [lra| | |apply der_logistic|apply derivable_pt_lim_const|lra].
    + intros z Hz. apply sigmoid_mid. lra.
    + intros z Hz. apply sigmoid_high. lra.
  - apply true_no. pose proof (logistic_var (-20)).
    apply (no_derivative _ (fun _ => logistic (-20)) logistic (-20) (-21) 20 0 (logistic (-20) * (1 - logistic (-20)))); [lra| | |apply derivable_pt_lim_const|apply der_logistic|lra].
    + intros z Hz. apply sigmoid_low. lra.
    + intros z Hz. apply sigmoid_mid. lra.
  - apply (true_from _ _ x _ (sigmoid_der x ltac:(lra))). intros d. apply sigmoid_back_mid. lra.
Qed.
(** beyond the bounds *)
Lemma sigmoid_flat x : x < -20 \/ 20 < x -> derivable_pt_lim sigmoid x 0 /\ 0 < sigmoid_back 1 x.
Proof.
  intros H. split.
  - destruct H as [H|H].
    + apply (der_local _ (fun _ => logistic (-20)) x (x - 1) (-20)); [lra| |apply derivable_pt_lim_const]. intros z Hz. apply sigmoid_low. lra.
    + apply (der_local _ (fun _ => logistic 20) x 20 (x + 1)); [lra| |apply derivable_pt_lim_const]. intros z Hz. apply sigmoid_high. lra.
  - unfold sigmoid_back, backprop_sigmoid, dsigmoid. pose proof (sigmoid_bounds x). cbn [nmul nsub nZ num_R]. rewrite Rmult_1_l. apply Rmult_lt_0_compat; lra.
Qed.
Lemma logistic_small a : 20 <= a -> logistic a * (1 - logistic a) <= exp (- a).
Proof.
  intros H. pose proof (logistic_bounds a). replace (1 - logistic a) with (exp (- a) * logistic a).
  - pose proof (exp_pos (- a)). rewrite <- Rmult_assoc, (Rmult_comm (logistic a)), Rmult_assoc. rewrite <- (Rmult_1_r (exp (- a))) at 2.
    apply Rmult_le_compat_l; [lra|]. rewrite <- (Rmult_1_r 1). apply Rmult_le_compat; lra.
  - unfold logistic. field. pose proof (exp_pos' a). lra.
Qed.
Lemma logistic_opp a : logistic (- a) = 1 - logistic a.
Proof.
  unfold logistic. rewrite Ropp_involutive. rewrite exp_Ropp. pose proof (exp_pos a). field. split; lra.
Qed.
Lemma sigmoid_back_small x : x <= -20 \/ 20 <= x -> sigmoid_back 1 x <= exp (-20).
Proof.
  intros H. unfold sigmoid_back, backprop_sigmoid, dsigmoid. cbn [nmul nsub nZ num_R]. rewrite Rmult_1_l. destruct H as [H|H].
  - rewrite sigmoid_low by exact H. replace (-20) with (- (20)) by lra. rewrite logistic_opp. replace (1 - (1 - logistic 20)) with (logistic 20) by ring. rewrite Rmult_comm. apply logistic_small. lra.
  - rewrite sigmoid_high by exact H. apply logistic_small. lra.
Qed.

(** ** tanh *)
Lemma cosh_pos x : 0 < cosh x.
Proof. unfold cosh. pose proof (exp_pos x). pose proof (exp_pos (- x)). lra. Qed.
Lemma der_tanh x : derivable_pt_lim tanh x (1 - tanh x ^ 2).
Proof.
  pose proof (cosh_pos x) as P. apply (der_eq _ _ ((cosh x * cosh x - sinh x * sinh x) / Rsqr (cosh x))).
  - apply (derivable_pt_lim_div sinh cosh); [apply derivable_pt_lim_sinh|apply derivable_pt_lim_cosh|lra].
  - unfold tanh, Rsqr. field. lra.
Qed.
Lemma tanh_true x : differentiable tanh x /\ true_at tanh (fun d z => d * dtanh (tanh z)) x.
Proof. apply (true_from _ _ x _ (der_tanh x)). intros d. unfold dtanh. cbn. ring. Qed.
Lemma tanh_bounds x : -1 < tanh x < 1.
Proof.
  pose proof (cosh_pos x) as P. assert (E : tanh x * cosh x = sinh x) by (unfold tanh; field; lra).
  pose proof (exp_pos x). pose proof (exp_pos (- x)).
  split; apply (Rmult_lt_reg_r (cosh x) _ _ P); rewrite E; unfold sinh, cosh; lra.
Qed.

(** ** swish *)
Definition swish_back (d x : R) : R := backprop_swish d x (swish x).
Lemma swish_der x : -20 < x < 20 -> derivable_pt_lim swish x (1 * sigmoid x + x * (logistic x * (1 - logistic x))).
Proof. intros H. apply (derivable_pt_lim_mult (fun z => z) sigmoid); [apply derivable_pt_lim_id|now apply sigmoid_der]. Qed.
Lemma swish_true x : -20 < x < 20 -> differentiable swish x /\ true_at swish swish_back x.
Proof.
  intros H. apply (true_from _ _ x _ (swish_der x H)). intros d. unfold swish_back, backprop_swish, swish. rewrite sigmoid_mid by lra. cbn. ring.
Qed.
Lemma der_scaled x a : derivable_pt_lim (fun z => z * a) x a.
Proof. apply (der_local _ (fun z => z * a + 0) x (x - 1) (x + 1)); [lra|intros; ring|apply der_affine]. Qed.
Lemma swish_beyond x : x < -20 \/ 20 < x ->
  derivable_pt_lim swish x (sigmoid x) /\ swish_back 1 x - sigmoid x = x * (sigmoid x * (1 - sigmoid x)).
Proof.
  intros H. split; [|unfold swish_back, backprop_swish, swish; cbn; ring]. destruct H as [H|H].
  - rewrite sigmoid_low by lra. apply (der_local _ (fun z => z * logistic (-20)) x (x - 1) (-20)); [lra| |apply der_scaled].
    intros z Hz. unfold swish. rewrite sigmoid_low by lra. reflexivity.
  - rewrite sigmoid_high by lra. apply (der_local _ (fun z => z * logistic 20) x 20 (x + 1)); [lra| |apply der_scaled].
    intros z Hz. unfold swish. rewrite sigmoid_high by lra. reflexivity.
Qed.

(** ** hard_swish *)
Lemma hard_sigmoid_is x : hard_sigmoid x = clamp 0 1 (x * (2 / 10) + 5 / 10).
Proof. unfold hard_sigmoid, clipped_linear. rewrite clip_is. reflexivity. Qed.
Lemma hard_swish_mid z : -5/2 <= z <= 5/2 -> hard_swish z = z * (z * (2 / 10) + 5 / 10).
Proof. intros H. unfold hard_swish. rewrite hard_sigmoid_is, clamp_mid by lra. reflexivity. Qed.
Lemma hard_swish_low z : z <= -5/2 -> hard_swish z = 0.
Proof. intros H. unfold hard_swish. rewrite hard_sigmoid_is, clamp_low by lra. cbn. ring. Qed.
Lemma hard_swish_high z : 5/2 <= z -> hard_swish z = z.
Proof. intros H. unfold hard_swish. rewrite hard_sigmoid_is, clamp_high by lra. cbn. ring. Qed.
Ltac side := cbn [dec ndiv nZ nopp num_R]; unfold dec; cbn [ndiv nZ nopp num_R]; lra.
Lemma hard_swish_true x : (x <> 5/2 -> x <> -5/2 -> differentiable hard_swish x) /\ true_at hard_swish backprop_hard_swish x.
Proof.
  destruct (Req_dec x (5/2)) as [->|N1]; [|destruct (Req_dec x (-5/2)) as [->|N2]].
  - split; [lra|]. apply true_no.
    apply (no_derivative _ (fun z => z * (z * (2 / 10) + 5 / 10)) (fun z => z) (5/2) 0 3 (5/2 * (2 * (2/10)) + 5/10) 1); [lra| | |apply der_quad|apply derivable_pt_lim_id|lra].
    + intros z Hz. apply hard_swish_mid. lra.
    + intros z Hz. apply hard_swish_high. lra.
  - split; [lra|]. apply true_no.
    apply (no_derivative _ (fun _ => 0) (fun z => z * (z * (2 / 10) + 5 / 10)) (-5/2) (-3) 0 0 (-5/2 * (2 * (2/10)) + 5/10)); [lra| | |apply derivable_pt_lim_const|apply der_quad|lra].
    + intros z Hz. apply hard_swish_low. lra.
    + intros z Hz. apply hard_swish_mid. lra.
  - assert (H : x < -5/2 \/ -5/2 < x < 5/2 \/ 5/2 < x) by lra.
    cut (exists l, derivable_pt_lim hard_swish x l /\ forall d, backprop_hard_swish d x = d * l).
    { intros (l & D & B). destruct (true_from hard_swish backprop_hard_swish x l D B). now split. }
    destruct H as [H|[H|H]].
    + exists 0. split; [apply (der_local _ (fun _ => 0) x (x - 1) (-5/2)); [lra| |apply derivable_pt_lim_const]; intros z Hz; apply hard_swish_low; lra|].
      intros d. unfold backprop_hard_swish. cbv zeta. rewrite (proj2 (nltb_R x (nopp (dec 25 10)))) by side. reflexivity.
    + exists (x * (2 * (2/10)) + 5/10). split; [apply (der_local _ (fun z => z * (z * (2 / 10) + 5 / 10)) x (-5/2) (5/2) _ H); [|apply der_quad]; intros z Hz; apply hard_swish_mid; lra|].
      intros d. unfold backprop_hard_swish. cbv zeta. rewrite (proj2 (nltb_R_f x (nopp (dec 25 10)))) by side. rewrite (proj2 (nltb_R_f (dec 25 10) x)) by side.
      unfold dec. cbn. field.
    + exists 1. split; [apply (der_local _ (fun z => z) x (5/2) (x + 1)); [lra| |apply derivable_pt_lim_id]; intros z Hz; apply hard_swish_high; lra|].
      intros d. unfold backprop_hard_swish. cbv zeta. rewrite (proj2 (nltb_R_f x (nopp (dec 25 10)))) by side. rewrite (proj2 (nltb_R (dec 25 10) x)) by side. reflexivity.
Qed.

(** ** hard_swish_mobilenet *)
Lemma mobilenet_is z : hard_swish_mobilenet z = z * (clamp 0 6 (z + 3) / 6).
Proof.
  unfold hard_swish_mobilenet, relu_k, clipped_linear. rewrite clip_is. cbn [nmul nadd ndiv nZ num_R]. do 2 f_equal. unfold clamp. do 2 f_equal. cbn. ring.
Qed.
Lemma mobilenet_mid z : -3 <= z <= 3 -> hard_swish_mobilenet z = z * (z * (1 / 6) + 1 / 2).
Proof. intros H. rewrite mobilenet_is, clamp_mid by lra. field. Qed.
Lemma mobilenet_low z : z <= -3 -> hard_swish_mobilenet z = 0.
Proof. intros H. rewrite mobilenet_is, clamp_low by lra. field. Qed.
Lemma mobilenet_high z : 3 <= z -> hard_swish_mobilenet z = z.
Proof. intros H. rewrite mobilenet_is, clamp_high by lra. field. Qed.
Lemma mobilenet_true x : (x <> 3 -> x <> -3 -> differentiable hard_swish_mobilenet x) /\ true_at hard_swish_mobilenet backprop_hard_swish_mobilenet x.
Proof.
  destruct (Req_dec x 3) as [->|N1]; [|destruct (Req_dec x (-3)) as [->|N2]].
  - split; [lra|]. apply true_no.
    apply (no_derivative _ (fun z => z * (z * (1 / 6) + 1 / 2)) (fun z => z) 3 0 4 (3 * (2 * (1/6)) + 1/2) 1); [lra| | |apply der_quad|apply derivable_pt_lim_id|lra].
    + intros z Hz. apply mobilenet_mid. lra.
    + intros z Hz. apply mobilenet_high. lra.
  - split; [lra|]. apply true_no.
    apply (no_derivative _ (fun _ => 0) (fun z => z * (z * (1 / 6) + 1 / 2)) (-3) (-4) 0 0 (-3 * (2 * (1/6)) + 1/2)); [lra| | |apply derivable_pt_lim_const|apply der_quad|lra].
    + intros z Hz. apply mobilenet_low. lra.
    + intros z Hz. apply mobilenet_mid. lra.
  - assert (H : x < -3 \/ -3 < x < 3 \/ 3 < x) by lra.
    cut (exists l, derivable_pt_lim hard_swish_mobilenet x l /\ forall d, backprop_hard_swish_mobilenet d x = d * l).
    { intros (l & D & B). destruct (true_from hard_swish_mobilenet backprop_hard_swish_mobilenet x l D B). now split. }
    destruct H as [H|[H|H]].
    + exists 0. split; [apply (der_local _ (fun _ => 0) x (x - 1) (-3)); [lra| |apply derivable_pt_lim_const]; intros z Hz; apply mobilenet_low; lra|].
      intros d. unfold backprop_hard_swish_mobilenet. cbv zeta. rewrite (proj2 (nltb_R x (nZ (-3)))) by (cbn; lra). cbn. ring.
    + exists (x * (2 * (1/6)) + 1/2). split; [apply (der_local _ (fun z => z * (z * (1 / 6) + 1 / 2)) x (-3) 3 _ H); [|apply der_quad]; intros z Hz; apply mobilenet_mid; lra|].
      intros d. unfold backprop_hard_swish_mobilenet. cbv zeta. rewrite (proj2 (nltb_R_f x (nZ (-3)))) by (cbn; lra). rewrite (proj2 (nltb_R_f (nZ 3) x)) by (cbn; lra).
      cbn. field.
    + exists 1. split; [apply (der_local _ (fun z => z) x 3 (x + 1)); [lra| |apply derivable_pt_lim_id]; intros z Hz; apply mobilenet_high; lra|].
      intros d. unfold backprop_hard_swish_mobilenet. cbv zeta. rewrite (proj2 (nltb_R_f x (nZ (-3)))) by (cbn; lra). rewrite (proj2 (nltb_R (nZ 3) x)) by (cbn; lra). cbn. ring.
Qed.

(** ** dish *)
Lemma dish_is x : dish x = x * ((x / sqrt (x * x + 1) + 1) * (5 / 10)).
Proof. reflexivity. Qed.
Lemma sq1_pos x : 0 < x * x + 1.
Proof. pose proof (Rle_0_sqr x). unfold Rsqr in *. lra. Qed.
Lemma dish_true x : differentiable dish x /\ true_at dish backprop_dish x.
Proof.
  pose proof (sq1_pos x) as P. pose proof (sqrt_lt_R0 _ P) as Q. set (q := sqrt (x * x + 1)) in *.
  assert (Q2 : q * q = x * x + 1) by (apply sqrt_sqrt; lra).
  apply (true_from _ _ x (1 * ((x / q + 1) * (5 / 10)) + x * (((1 * q - (/ (2 * q) * (1 * x + x * 1 + 0)) * x) / Rsqr q + 0) * (5 / 10) + (x / q + 1) * 0))).
  - apply (derivable_pt_lim_mult (fun z => z) (fun z => (z / sqrt (z * z + 1) + 1) * (5/10))); [apply derivable_pt_lim_id|].
    apply (derivable_pt_lim_mult (fun z => z / sqrt (z * z + 1) + 1) (fun _ => 5/10)); [|apply derivable_pt_lim_const].
    apply (derivable_pt_lim_plus (fun z => z / sqrt (z * z + 1)) (fun _ => 1)); [|apply derivable_pt_lim_const].
    apply (derivable_pt_lim_div (fun z => z) (fun z => sqrt (z * z + 1))); [apply derivable_pt_lim_id| |fold q; lra].
    apply (derivable_pt_lim_comp (fun z => z * z + 1) sqrt); [|apply derivable_pt_lim_sqrt; exact P].
    apply (derivable_pt_lim_plus (fun z => z * z) (fun _ => 1)); [|apply derivable_pt_lim_const].
    apply (derivable_pt_lim_mult (fun z => z) (fun z => z)); apply derivable_pt_lim_id.
  - intros d. unfold backprop_dish, dec. cbn [nmul nadd nsub ndiv nZ num_R nsqrt]. fold q. rewrite <- Q2. unfold Rsqr. field. lra.
Qed.

(** ** mish *)
Lemma tanh_softplus x : tanh (softplus x) = (exp x * exp x + 2 * exp x) / (exp x * exp x + 2 * exp x + 2).
Proof.
  unfold tanh, sinh, cosh, softplus. pose proof (exp_pos x) as P. rewrite exp_Ropp, exp_ln by lra. field. repeat split; try lra. all: nra.
Qed.
Lemma exp_twice x : exp (2 * x) = exp x * exp x.
Proof. rewrite <- exp_plus. f_equal. ring. Qed.
Lemma exp_thrice x : exp (3 * x) = exp x * exp x * exp x.
Proof. rewrite <- !exp_plus. f_equal. ring. Qed.
Lemma der_softplus x : derivable_pt_lim softplus x (/ (1 + exp x) * (0 + exp x)).
Proof.
  apply (derivable_pt_lim_comp (fun z => 1 + exp z) ln); [|apply derivable_pt_lim_ln; pose proof (exp_pos x); lra].
  apply (derivable_pt_lim_plus (fun _ => 1) exp); [apply derivable_pt_lim_const|apply derivable_pt_lim_exp].
Qed.
Lemma der_mish_raw x : derivable_pt_lim (fun z => z * tanh (softplus z)) x
  (1 * tanh (softplus x) + x * ((1 - tanh (softplus x) ^ 2) * (/ (1 + exp x) * (0 + exp x)))).
Proof.
  apply (derivable_pt_lim_mult (fun z => z) (fun z => tanh (softplus z))); [apply derivable_pt_lim_id|].
  apply (derivable_pt_lim_comp softplus tanh); [apply der_softplus|apply der_tanh].
Qed.
Lemma mish_low t z : z < t -> mish t z = z * tanh (softplus z).
Proof. intros H. unfold mish. now rewrite (proj2 (nltb_R z t) H). Qed.
Lemma mish_high t z : t <= z -> mish t z = z.
Proof. intros H. unfold mish. rewrite (proj2 (nltb_R_f z t)); [reflexivity|lra]. Qed.
Lemma mish_formula x d : d * ((exp x * (4 * (x + 1) + 4 * exp (2 * x) + exp (3 * x) + exp x * (4 * x + 6))) / ((exp x + 1) * (exp x + 1) + 1) ^ 2) =
  d * (1 * tanh (softplus x) + x * ((1 - tanh (softplus x) ^ 2) * (/ (1 + exp x) * (0 + exp x)))).
Proof. rewrite tanh_softplus, exp_twice, exp_thrice. pose proof (exp_pos x) as P. set (e := exp x) in *. field. repeat split; nra. Qed.
Lemma mish_back_low t x d : x < t ->
  backprop_mish t d x = d * ((exp x * (4 * (x + 1) + 4 * exp (2 * x) + exp (3 * x) + exp x * (4 * x + 6))) / ((exp x + 1) * (exp x + 1) + 1) ^ 2).
Proof. intros H. unfold backprop_mish. rewrite (proj2 (nltb_R x t) H). reflexivity. Qed.
Lemma mish_true t x : x <> t -> differentiable (mish t) x /\ true_at (mish t) (backprop_mish t) x.
Proof.
  intros N. destruct (Rlt_dec x t) as [H|H].
  - apply (true_from _ _ x (1 * tanh (softplus x) + x * ((1 - tanh (softplus x) ^ 2) * (/ (1 + exp x) * (0 + exp x))))).
    + apply (der_local _ (fun z => z * tanh (softplus z)) x (x - 1) t); [lra| |apply der_mish_raw]. intros z Hz. apply mish_low. lra.
    + intros d. rewrite mish_back_low by exact H. apply mish_formula.
  - apply (true_from _ _ x 1).
    + apply (der_local _ (fun z => z) x t (x + 1)); [lra| |apply derivable_pt_lim_id]. intros z Hz. apply mish_high. lra.
    + intros d. unfold backprop_mish. rewrite (proj2 (nltb_R_f x t) H). ring.
Qed.
Lemma cpu_mish_is t (x : R) : cpu_mish t x = mish t x.
Proof. reflexivity. Qed.
Lemma cpu_mish_back_is t (d x : R) : cpu_backprop_mish t d x = backprop_mish t d x.
Proof.
  unfold cpu_backprop_mish, backprop_mish. destruct (nltb x t); [|reflexivity]. cbv zeta. cbn [nmul nadd nexp nZ ndiv trans_R num_R npow]. f_equal.
  f_equal. cbn [Pos.mul IZR]. replace (exp (IZR 2 * x)) with (exp x * exp x) by (symmetry; apply exp_twice). ring.
Qed.

(** ** instances of clipped_linear *)
Lemma instance_true (f : R -> R) back s o lo hi x : 0 < s -> (forall z, f z = clamp lo hi (z * s + o)) -> (forall d z, back d z = backprop_clipped_linear s o lo hi d z) ->
  (x * s + o <> lo -> x * s + o <> hi -> differentiable f x) /\ true_at f back x.
Proof.
  intros Hs E EB. destruct (clipped_true s o lo hi x Hs) as [A B]. split.
  - intros N1 N2. destruct (A N1 N2) as [l D]. exists l. apply (der_local _ (fun z => clamp lo hi (z * s + o)) x (x - 1) (x + 1)); [lra|intros; apply E|exact D].
  - intros l D d. rewrite EB. apply B. apply (der_local _ f x (x - 1) (x + 1)); [lra|intros; symmetry; apply E|exact D].
Qed.
Lemma relu_k_true n x : (x <> 0 -> x <> n -> differentiable (relu_k n) x) /\ true_at (relu_k n) (backprop_relu_k n) x.
Proof.
  destruct (instance_true (relu_k n) (backprop_relu_k n) 1 0 0 n x) as [A B]; [lra|intros z; apply clip_is|reflexivity|]. split; [|exact B].
  intros N1 N2. apply A; lra.
Qed.
Lemma hard_sigmoid_true x : (x <> -5/2 -> x <> 5/2 -> differentiable hard_sigmoid x) /\ true_at hard_sigmoid backprop_hard_sigmoid x.
Proof.
  destruct (instance_true hard_sigmoid backprop_hard_sigmoid (2/10) (5/10) 0 1 x) as [A B]; [lra|intros z; apply hard_sigmoid_is|reflexivity|]. split; [|exact B].
  intros N1 N2. apply A; lra.
Qed.
Lemma hard_tanh_true x : (x <> -1 -> x <> 1 -> differentiable hard_tanh x) /\ true_at hard_tanh backprop_hard_tanh x.
Proof.
  destruct (instance_true hard_tanh backprop_hard_tanh 1 0 (-1) 1 x) as [A B]; [lra|intros z; apply clip_is|reflexivity|]. split; [|exact B].
  intros N1 N2. apply A; lra.
Qed.
