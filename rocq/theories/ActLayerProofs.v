(** Activations applied to each element, alone and after an affine map. *)
From Verif Require Import CombModel CombSpec DenseModel MatProofs BaseFacts CombProofs CombDiffProofs CombBuiltProofs MkProofs LinearProofs.
From Coq Require Import Reals Lra Lia.
Set Default Goal Selector "!".
Local Open Scope R_scope.

(** ** Layers that are the same function *)
Definition same_layer (L L' : layer R) : Prop := forall tr theta X,
  match L tr theta X, L' tr theta X with
  | Ok (Y, b), Ok (Y', b') => Y = Y' /\ forall dY g, b dY g = b' dY g
  | Err _, Err _ => True
  | _, _ => False
  end.
Lemma same_differentiates L L' tr theta X Y : same_layer L L' -> differentiates L' tr theta X Y -> differentiates L tr theta X Y.
Proof.
  intros HS (b & E & W & D). pose proof (HS tr theta X) as H0. rewrite E in H0. destruct (L tr theta X) as [[Y1 b1]|] eqn:E1; [|contradiction].
  destruct H0 as [-> Hb]. exists b1. split; [exact E1|]. split; [exact W|]. intros dY g Hd Hg. destruct (D dY g Hd Hg) as (dX & g' & Eb & L1 & L2 & D').
  exists dX, g'. rewrite Hb. split; [exact Eb|]. split; [exact L1|]. split; [exact L2|]. intros P K HP HK SP SK.
  destruct (D' P K HP HK SP SK) as (K' & SK' & HA & HI). exists K'. split; [exact SK'|]. split; [|exact HI].
  intros s. destruct (HA s) as (b' & Eb'). pose proof (HS tr (map (at_time s) P) (vmap (at_time s) K)) as H1. rewrite Eb' in H1.
  destruct (L tr (map (at_time s) P) (vmap (at_time s) K)) as [[Y2 b2]|]; [|contradiction]. destruct H1 as [-> _]. now exists b2.
Qed.

(** ** An activation as a layer of its own *)
Definition act (f : R -> R) (back : mat R -> mat R -> result (mat R)) : layer R := fun _ _ X =>
  let* m := as_mat X in
  Ok (Arr2 (mmap f m), fun dY g => let* d := as_mat dY in let* d' := back d m in Ok (Arr2 d', g)).
Lemma act_mk_ok f back tr theta r c (x der : nat -> nat -> R) :
  (forall d, back (mk r c d) (mk r c x) = Ok (mk r c (fun i j => d i j * der i j))) ->
  (forall i j, (i < r)%nat -> (j < c)%nat -> derivable_pt_lim f (x i j) (der i j)) ->
  differentiates (act f back) tr theta (Arr2 (mk r c x)) (Arr2 (mk r c (fun i j => f (x i j)))).
Proof.
  intros Hb Hd. eexists. split; [unfold act; cbn [as_mat bind]; now rewrite mmap_mk|]. split; [apply mk_wf|].
  intros dY g LdY Lg. apply like_mk_inv in LdY as (d & ->). cbn [as_mat bind]. rewrite Hb. cbn [bind].
  eexists _, g. split; [reflexivity|]. split; [apply like_mk|]. split; [exact Lg|].
  intros P K HP HK SP SK. apply curve_mk in HK as (k & -> & Hk). rewrite smooth_mk in SK.
  exists (Arr2 (mk r c (fun i j => ((fun s => f (fst (k i j) s)), der i j * snd (k i j)) : jet))). split.
  { rewrite smooth_mk. intros i j Hi Hj. unfold smooth. cbn. apply (derivable_pt_lim_comp (fst (k i j)) f); [now apply SK|].
    change (fst (k i j) 0) with (at_time 0 (k i j)). rewrite Hk by assumption. now apply Hd. }
  split.
  { intros s. rewrite !vmap_mk. eexists. unfold act. cbn [as_mat bind]. rewrite mmap_mk. reflexivity. }
  rewrite !vmap_mk, !inner_mk. rewrite Rminus_diag_eq by reflexivity. rewrite Rplus_0_r.
  apply S_ext. intros i _. apply S_ext. intros j _. unfold velocity. cbn. ring.
Qed.
Lemma act_after_linear f back tr theta nO nI wo bo r (x der : nat -> nat -> R) :
  (wo + nO * nI <= length theta)%nat -> (bo + nO <= length theta)%nat ->
  (forall d, back (mk r nO d) (mk r nO (lin theta wo bo nI x)) = Ok (mk r nO (fun i j => d i j * der i j))) ->
  (forall i j, (i < r)%nat -> (j < nO)%nat -> derivable_pt_lim f (lin theta wo bo nI x i j) (der i j)) ->
  differentiates (chain [Linear nO nI wo bo; act f back]) tr theta (Arr2 (mk r nI x)) (Arr2 (mk r nO (fun i j => f (lin theta wo bo nI x i j)))).
Proof.
  intros Hw Hb H1 H2. apply chain_ok. eapply chained_more; [now apply linear_mk_ok|]. constructor. now apply (act_mk_ok f back tr theta r nO _ der).
Qed.

(** ** Relu *)
Definition pos (x : R) : R := if nltb (nZ 0) x then x else nZ 0.
Definition step (x : R) : R := if nltb (nZ 0) x then 1 else 0.
Lemma nltb_R x y : nltb x y = true <-> x < y.
Proof. cbn. destruct (Rlt_dec x y); split; intros; [assumption|reflexivity|discriminate|contradiction]. Qed.
Lemma nltb_R_f x y : nltb x y = false <-> ~ x < y.
Proof. cbn. destruct (Rlt_dec x y); split; intros; [discriminate|contradiction|assumption|reflexivity]. Qed.
Lemma nltb_case x y : {nltb x y = true /\ x < y} + {nltb x y = false /\ ~ x < y}.
Proof. cbn. destruct (Rlt_dec x y); [left|right]; now split. Qed.
Lemma pos_der x : x <> 0 -> derivable_pt_lim pos x (step x).
Proof.
  intros Hx. unfold step. destruct (nltb_case (nZ 0) x) as [[-> H1]|[-> H1]]; cbn in H1.
  - apply (derivable_pt_lim_locally_ext (fun y => y) pos x 0 (x + 1)); [lra| |apply derivable_pt_lim_id].
    intros z Hz. unfold pos. rewrite (proj2 (nltb_R (nZ 0) z)); [reflexivity|cbn; lra].
  - apply (derivable_pt_lim_locally_ext (fun y => 0) pos x (x - 1) 0); [lra| |apply derivable_pt_lim_const].
    intros z Hz. unfold pos. rewrite (proj2 (nltb_R_f (nZ 0) z)); [reflexivity|cbn; lra].
Qed.
Definition relu_back (numpy : bool) (d m : mat R) : result (mat R) :=
  if numpy then np_backprop_relu d (np_relu m) else op_backprop_relu d (op_relu m).
Lemma op_relu_np (m : mat R) : op_relu m = np_relu m.
Proof.
  unfold op_relu, np_relu, mmap. f_equal. apply map_ext. intros l. apply map_ext. intros x. destruct (nltb_case (nZ 0) x) as [[-> _]|[-> _]]; cbn; ring.
Qed.
Lemma relu_same numpy nO nI wo bo : same_layer (Relu numpy nO nI wo bo) (chain [Linear nO nI wo bo; act pos (relu_back numpy)]).
Proof.
  intros tr theta X. unfold Relu, chain, chain_loop, Linear, act, affine. destruct (get_param2 theta wo nO nI) as [W|]; cbn [bind]; [|exact I].
  destruct (get_param1 theta bo nO) as [b|]; cbn [bind]; [|exact I]. destruct (as_mat X) as [Xm|]; cbn [bind]; [|exact I].
  destruct (gemm Xm W false true) as [Y0|]; cbn [bind]; [|exact I]. destruct (miadd Y0 (as_row b)) as [Y|]; cbn [bind fst snd as_mat]; [|exact I].
  split.
  - destruct numpy; [reflexivity|]. now rewrite op_relu_np.
  - intros dY g. cbn [rev app chain_back]. destruct (as_mat dY) as [d|]; cbn [bind]; [|reflexivity]. unfold relu_back.
    destruct numpy.
    + destruct (np_backprop_relu d (np_relu Y)) as [d'|]; cbn [bind fst snd as_mat]; [|reflexivity].
      destruct (inc_grad g bo (sum0 d')) as [g1|]; cbn [bind]; [|reflexivity]. destruct (gemm d' Xm true false) as [dW|]; cbn [bind]; [|reflexivity].
      destruct (inc_grad g1 wo (concat (m_rows dW))) as [g2|]; cbn [bind]; [|reflexivity]. now destruct (gemm d' W false false).
    + destruct (op_backprop_relu d (op_relu Y)) as [d'|]; cbn [bind fst snd as_mat]; [|reflexivity].
      destruct (inc_grad g bo (sum0 d')) as [g1|]; cbn [bind]; [|reflexivity]. destruct (gemm d' Xm true false) as [dW|]; cbn [bind]; [|reflexivity].
      destruct (inc_grad g1 wo (concat (m_rows dW))) as [g2|]; cbn [bind]; [|reflexivity]. now destruct (gemm d' W false false).
Qed.
Lemma pos_gate x d : (if nltb (nZ 0) (pos x) then d else nZ 0) = d * step x.
Proof.
  unfold pos, step. destruct (nltb_case (nZ 0) x) as [[E H1]|[E H1]]; rewrite E.
  - rewrite E. ring.
  - rewrite (proj2 (nltb_R_f (nZ 0) (nZ 0))) by (cbn; lra). cbn. ring.
Qed.
Lemma pos_gate2 x d : (d * (if nltb (nZ 0) (pos x) then nZ 1 else nZ 0))%num = d * step x.
Proof.
  unfold pos, step. destruct (nltb_case (nZ 0) x) as [[E H1]|[E H1]]; rewrite E.
  - rewrite E. cbn. ring.
  - rewrite (proj2 (nltb_R_f (nZ 0) (nZ 0))) by (cbn; lra). cbn. ring.
Qed.
Lemma relu_back_mk numpy r c d x : relu_back numpy (mk r c d) (mk r c x) = Ok (mk r c (fun i j => d i j * step (x i j))).
Proof.
  unfold relu_back. rewrite op_relu_np. unfold np_relu. rewrite mmap_mk. destruct numpy.
  - unfold np_backprop_relu. rewrite mshape_mk, !Nat.eqb_refl. cbn [andb]. rewrite mbin_same. f_equal. apply mk_ext. intros i j _ _. apply pos_gate.
  - unfold op_backprop_relu. rewrite mbin_same. f_equal. apply mk_ext. intros i j _ _. apply pos_gate2.
Qed.
Lemma relu_mk_ok numpy nO nI wo bo tr theta r (x : nat -> nat -> R) : (wo + nO * nI <= length theta)%nat -> (bo + nO <= length theta)%nat ->
  (forall i j, (i < r)%nat -> (j < nO)%nat -> lin theta wo bo nI x i j <> 0) ->
  differentiates (Relu numpy nO nI wo bo) tr theta (Arr2 (mk r nI x)) (Arr2 (mk r nO (fun i j => pos (lin theta wo bo nI x i j)))).
Proof.
  intros Hw Hb Hk. eapply same_differentiates; [apply relu_same|].
  apply (act_after_linear pos (relu_back numpy) tr theta nO nI wo bo r x (fun i j => step (lin theta wo bo nI x i j)) Hw Hb).
  - intros d. apply relu_back_mk.
  - intros i j Hi Hj. apply pos_der. now apply Hk.
Qed.

(** ** ClippedLinear *)
Lemma clip_der slope offset lo hi x : 0 < slope -> x * slope + offset <> lo -> x * slope + offset <> hi ->
  derivable_pt_lim (clipped_linear slope offset lo hi) x (backprop_clipped_linear slope offset lo hi 1 x).
Proof.
  intros Hs H1 H2. unfold backprop_clipped_linear.
  assert (EL : nltb (ndiv (nsub lo offset) slope) x = nltb lo (x * slope + offset)).
  { destruct (nltb_case lo (x * slope + offset)) as [[-> H]|[-> H]].
    - apply nltb_R. cbn. apply (Rmult_lt_reg_r slope); [exact Hs|]. unfold Rdiv. rewrite Rmult_assoc, Rinv_l by lra. lra.
    - apply nltb_R_f. cbn. intros C. apply H. apply (Rmult_lt_compat_r slope) in C; [|exact Hs]. unfold Rdiv in C. rewrite Rmult_assoc, Rinv_l in C by lra. lra. }
  assert (EH : nltb x (ndiv (nsub hi offset) slope) = nltb (x * slope + offset) hi).
  { destruct (nltb_case (x * slope + offset) hi) as [[-> H]|[-> H]].
    - apply nltb_R. cbn. apply (Rmult_lt_reg_r slope); [exact Hs|]. unfold Rdiv. rewrite Rmult_assoc, Rinv_l by lra. lra.
    - apply nltb_R_f. cbn. intros C. apply H. apply (Rmult_lt_compat_r slope) in C; [|exact Hs]. unfold Rdiv in C. rewrite Rmult_assoc, Rinv_l in C by lra. lra. }
  rewrite EL, EH.
  (* a point on the same side of both bounds *)
  assert (Hnear : forall b, x * slope + offset < b -> forall z, z < x + (b - (x * slope + offset)) / slope -> z * slope + offset < b).
  { intros b Hb z Hz. apply (Rmult_lt_compat_r slope) in Hz; [|exact Hs]. rewrite Rmult_plus_distr_r in Hz. unfold Rdiv in Hz. rewrite Rmult_assoc, Rinv_l in Hz by lra. lra. }
  assert (Hnear2 : forall b, b < x * slope + offset -> forall z, x - ((x * slope + offset) - b) / slope < z -> b < z * slope + offset).
  { intros b Hb z Hz. apply (Rmult_lt_compat_r slope) in Hz; [|exact Hs]. unfold Rdiv in Hz. rewrite Rmult_minus_distr_r, Rmult_assoc, Rinv_l in Hz by lra. lra. }
  assert (Hpos : forall a b, a < b -> 0 < (b - a) / slope) by (intros a b Hab; apply Rdiv_lt_0_compat; lra).
  set (y := x * slope + offset) in *. unfold clipped_linear, clip.
  destruct (nltb_case lo y) as [[-> A]|[-> A]]; [destruct (nltb_case y hi) as [[-> B]|[-> B]]|]; cbn [andb].
  - apply (derivable_pt_lim_locally_ext (fun z => z * slope + offset) _ x (x - (y - lo) / slope) (x + (hi - y) / slope)).
    + specialize (Hpos lo y A) as P1. specialize (Hpos y hi B). lra.
    + intros z [Z1 Z2]. specialize (Hnear hi B z Z2). specialize (Hnear2 lo A z Z1).
      rewrite (proj2 (nltb_R_f (nadd (nmul z slope) offset) lo)) by (cbn; lra). rewrite (proj2 (nltb_R_f hi _)) by (cbn; lra). reflexivity.
    + replace (nmul 1 slope) with ((1 * slope + x * 0) + 0) by (cbn; ring).
      apply (derivable_pt_lim_plus (fun z => z * slope) (fun _ => offset)); [|apply derivable_pt_lim_const].
      apply (derivable_pt_lim_mult (fun z => z) (fun _ => slope)); [apply derivable_pt_lim_id|apply derivable_pt_lim_const].
  - replace (nmul 1 (nZ 0)) with 0 by (cbn; ring). assert (B' : hi < y) by lra.
    apply (derivable_pt_lim_locally_ext (fun z => hi) _ x (x - (y - Rmax lo hi) / slope) (x + 1)).
    + split; [|lra]. assert (Rmax lo hi < y) by now apply Rmax_lub_lt. specialize (Hpos (Rmax lo hi) y H). lra.
    + intros z [Z1 Z2]. assert (M : Rmax lo hi < y) by now apply Rmax_lub_lt. specialize (Hnear2 _ M z Z1).
      pose proof (Rmax_l lo hi). pose proof (Rmax_r lo hi).
      rewrite (proj2 (nltb_R_f (nadd (nmul z slope) offset) lo)) by (cbn; lra). now rewrite (proj2 (nltb_R hi _)) by (cbn; lra).
    + apply derivable_pt_lim_const.
  - replace (nmul 1 (nZ 0)) with 0 by (cbn; ring). assert (A' : y < lo) by lra.
    apply (derivable_pt_lim_locally_ext (fun z => if nltb hi lo then hi else lo) _ x (x - 1) (x + (lo - y) / slope)).
    + specialize (Hpos y lo A'). lra.
    + intros z [Z1 Z2]. specialize (Hnear lo A' z Z2). now rewrite (proj2 (nltb_R (nadd (nmul z slope) offset) lo)) by (cbn; lra).
    + apply derivable_pt_lim_const.
Qed.
Lemma clip_scale slope offset lo hi d x : backprop_clipped_linear slope offset lo hi d x = d * backprop_clipped_linear slope offset lo hi 1 x.
Proof. unfold backprop_clipped_linear. cbn [nmul num_R]. ring. Qed.
Definition clipped_back (slope offset lo hi : R) (d m : mat R) : result (mat R) :=
  if neqb slope (nZ 0) then Err ZeroDivisionError else mbin (backprop_clipped_linear slope offset lo hi) d m.
Lemma clipped_same slope offset lo hi nO nI wo bo :
  same_layer (ClippedLinear slope offset lo hi nO nI wo bo) (chain [Linear nO nI wo bo; act (clipped_linear slope offset lo hi) (clipped_back slope offset lo hi)]).
Proof.
  intros tr theta X. unfold ClippedLinear, chain, chain_loop, Linear, act, affine. destruct (get_param2 theta wo nO nI) as [W|]; cbn [bind]; [|exact I].
  destruct (get_param1 theta bo nO) as [b|]; cbn [bind]; [|exact I]. destruct (as_mat X) as [Xm|]; cbn [bind]; [|exact I].
  destruct (gemm Xm W false true) as [Y0|]; cbn [bind]; [|exact I]. destruct (miadd Y0 (as_row b)) as [Y|]; cbn [bind fst snd as_mat]; [|exact I].
  split; [reflexivity|]. intros dY g. cbn [rev app chain_back]. destruct (as_mat dY) as [d|]; cbn [bind]; [|reflexivity]. unfold clipped_back.
  destruct (neqb slope (nZ 0)); [reflexivity|]. destruct (mbin (backprop_clipped_linear slope offset lo hi) d Y) as [d'|]; cbn [bind fst snd as_mat]; [|reflexivity].
  destruct (inc_grad g bo (sum0 d')) as [g1|]; cbn [bind]; [|reflexivity]. destruct (gemm d' Xm true false) as [dW|]; cbn [bind]; [|reflexivity].
  destruct (inc_grad g1 wo (concat (m_rows dW))) as [g2|]; cbn [bind]; [|reflexivity]. now destruct (gemm d' W false false).
Qed.
Lemma clipped_mk_ok slope offset lo hi nO nI wo bo tr theta r (x : nat -> nat -> R) : 0 < slope ->
  (wo + nO * nI <= length theta)%nat -> (bo + nO <= length theta)%nat ->
  (forall i j, (i < r)%nat -> (j < nO)%nat -> lin theta wo bo nI x i j * slope + offset <> lo /\ lin theta wo bo nI x i j * slope + offset <> hi) ->
  differentiates (ClippedLinear slope offset lo hi nO nI wo bo) tr theta (Arr2 (mk r nI x))
    (Arr2 (mk r nO (fun i j => clipped_linear slope offset lo hi (lin theta wo bo nI x i j)))).
Proof.
  intros Hs Hw Hb Hk. eapply same_differentiates; [apply clipped_same|].
  apply (act_after_linear _ _ tr theta nO nI wo bo r x (fun i j => backprop_clipped_linear slope offset lo hi 1 (lin theta wo bo nI x i j)) Hw Hb).
  - intros d. unfold clipped_back. cbn [neqb num_R nZ]. destruct (Req_EM_T slope 0); [lra|]. rewrite mbin_same. f_equal. apply mk_ext. intros i j _ _. apply clip_scale.
  - intros i j Hi Hj. destruct (Hk i j Hi Hj). now apply clip_der.
Qed.
