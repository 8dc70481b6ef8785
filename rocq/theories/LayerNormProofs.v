(** LayerNorm. *)
From Coq Require Import Reals Lra Lia.
From Verif Require Import CombModel CombSpec DenseModel MatProofs BaseFacts CombProofs CombDiffProofs CombBuiltProofs MkProofs LinearProofs ActLayerProofs.
Set Default Goal Selector "!".
Local Open Scope R_scope.

(** ** Jets *)
Lemma smooth_sub j k : smooth j -> smooth k -> smooth (nsub j k).
Proof. intros Hj Hk. exact (derivable_pt_lim_minus (fst j) (fst k) 0 _ _ Hj Hk). Qed.
Lemma smooth_div j k : smooth j -> smooth k -> at_time 0 k <> 0 -> smooth (ndiv j k).
Proof. intros Hj Hk H0. exact (derivable_pt_lim_div (fst j) (fst k) 0 _ _ Hj Hk H0). Qed.
Lemma smooth_sqrt j : smooth j -> 0 < at_time 0 j -> smooth (nsqrt j).
Proof. intros Hj H0. exact (derivable_pt_lim_comp (fst j) sqrt 0 _ _ Hj (derivable_pt_lim_sqrt _ H0)). Qed.

(** ** The two halves of the layer *)
Definition normalize : layer R := fun _ _ X =>
  let* X := as_mat X in
  let* mv := get_moments X in
  let mu := fst mv in
  let var := snd mv in
  let* centred := mbin nsub X mu in
  let* Xhat := mbin nmul centred (mmap inv_sqrt var) in
  Ok (Arr2 Xhat, fun dY g =>
    let* dY := as_mat dY in
    let* dm := get_d_moments dY X mu in
    let n := nnat (m_cols X) in
    let* t := mbin nsub (mmap (fun d => nmul n d) dY) (snd (fst dm)) in
    let* u := mbin nmul (fst (fst dm)) (mmap inv var) in
    let* u := mbin nmul u (snd dm) in
    let* d_xhat := mbin nsub t u in
    let* d_xhat := mbin nmul d_xhat (mmap inv_sqrt var) in
    Ok (Arr2 (mmap (fun d => ndiv d n) d_xhat), g)).
Definition rescale (nI go bo : nat) : layer R := fun _ theta X =>
  let* X := as_mat X in
  let* G := get_param1 theta go nI in
  let* b := get_param1 theta bo nI in
  let* Y := mbin nmul X (as_row G) in
  let* Y := miadd Y (as_row b) in
  Ok (Arr2 Y, fun dY g =>
    let* dY := as_mat dY in
    let* g := inc_grad g bo (sum0 dY) in
    let* dG := mbin nmul dY X in
    let* g := inc_grad g go (sum0 dG) in
    let* dY := mbin nmul dY (as_row G) in
    Ok (Arr2 dY, g)).
Lemma layernorm_same nI go bo : same_layer (LayerNorm nI go bo) (chain [normalize; rescale nI go bo]).
Proof.
  intros tr theta X. unfold LayerNorm, chain, chain_loop, normalize, rescale.
  destruct (as_mat X) as [Xm|]; cbn [bind]; [|exact I]. destruct (get_moments Xm) as [[mu var]|]; cbn [bind fst snd]; [|exact I].
  destruct (mbin nsub Xm mu) as [ce|]; cbn [bind]; [|exact I]. destruct (mbin nmul ce (mmap inv_sqrt var)) as [xh|]; cbn [bind fst snd as_mat]; [|exact I].
  destruct (get_param1 theta go nI) as [G|]; cbn [bind]; [|exact I]. destruct (get_param1 theta bo nI) as [b|]; cbn [bind]; [|exact I].
  destruct (mbin nmul xh (as_row G)) as [Y0|]; cbn [bind]; [|exact I]. destruct (miadd Y0 (as_row b)) as [Y|]; cbn [bind fst snd]; [|exact I].
  split; [reflexivity|]. intros dY g. cbn [rev app chain_back]. destruct (as_mat dY) as [d|]; cbn [bind]; [|reflexivity].
  destruct (inc_grad g bo (sum0 d)) as [g1|]; cbn [bind]; [|reflexivity]. destruct (mbin nmul d xh) as [dG|]; cbn [bind]; [|reflexivity].
  destruct (inc_grad g1 go (sum0 dG)) as [g2|]; cbn [bind]; [|reflexivity]. destruct (mbin nmul d (as_row G)) as [d'|]; cbn [bind fst snd as_mat]; [|reflexivity].
  destruct (get_d_moments d' Xm mu) as [dm|]; cbn [bind]; [|reflexivity]. destruct (mbin nsub (mmap _ d') (snd (fst dm))) as [t|]; cbn [bind]; [|reflexivity].
  destruct (mbin nmul (fst (fst dm)) (mmap inv var)) as [u|]; cbn [bind]; [|reflexivity]. destruct (mbin nmul u (snd dm)) as [u'|]; cbn [bind]; [|reflexivity].
  destruct (mbin nsub t u') as [dx|]; cbn [bind]; [|reflexivity]. now destruct (mbin nmul dx (mmap inv_sqrt var)).
Qed.

(** ** Rescaling *)
Definition resc {T} `{Num T} (theta : list T) (go bo : nat) (x : nat -> nat -> T) (i j : nat) : T :=
  nadd (nmul (x i j) (par theta (go + j))) (par theta (bo + j)).
Lemma rescale_fwd nI go bo tr theta r x : (go + nI <= length theta)%nat -> (bo + nI <= length theta)%nat ->
  exists b, rescale nI go bo tr theta (Arr2 (mk r nI x)) = Ok (Arr2 (mk r nI (resc theta go bo x)), b) /\
  forall d g, b (Arr2 (mk r nI d)) g =
    let* g := inc_grad g bo (vec nI (fun j => nsum (vec r (fun i => d i j)))) in
    let* g := inc_grad g go (vec nI (fun j => nsum (vec r (fun i => nmul (d i j) (x i j))))) in
    Ok (Arr2 (mk r nI (fun i j => nmul (d i j) (par theta (go + j)))), g).
Proof.
  intros Hg Hb. unfold rescale. cbn [as_mat bind]. rewrite (get_param1_ok theta go) by exact Hg. cbn [bind]. rewrite (get_param1_ok theta bo) by exact Hb. cbn [bind].
  rewrite as_row_vec, mbin_row. cbn [bind]. rewrite miadd_row. cbn [bind]. eexists. split; [reflexivity|]. intros d g. cbn [as_mat bind].
  rewrite sum0_mk, mbin_same, mbin_row. cbn [bind]. destruct (inc_grad g bo _); cbn [bind]; [|reflexivity]. now rewrite sum0_mk.
Qed.
Lemma rescale_mk_ok nI go bo tr theta r (x : nat -> nat -> R) : (go + nI <= length theta)%nat -> (bo + nI <= length theta)%nat ->
  differentiates (rescale nI go bo) tr theta (Arr2 (mk r nI x)) (Arr2 (mk r nI (resc theta go bo x))).
Proof.
  intros Hg Hb. destruct (rescale_fwd nI go bo tr theta r x Hg Hb) as (b & E & EB). exists b. split; [exact E|]. split; [apply mk_wf|].
  intros dY g LdY Lg. apply like_mk_inv in LdY as (d & ->). rewrite EB.
  destruct (inc_grad_ok g bo nI (fun j => nsum (vec r (fun i => d i j))) ltac:(lia)) as (g1 & E1 & L1 & D1). rewrite E1. cbn [bind].
  destruct (inc_grad_ok g1 go nI (fun j => nsum (vec r (fun i => nmul (d i j) (x i j)))) ltac:(lia)) as (g2 & E2 & L2 & D2). rewrite E2. cbn [bind].
  eexists _, g2. split; [reflexivity|]. split; [apply like_mk|]. split; [lia|].
  intros P K HP HK SP SK. apply curve_mk in HK as (k & -> & Hk). rewrite smooth_mk in SK.
  assert (LP : length P = length theta) by (rewrite <- HP; now rewrite map_length).
  exists (Arr2 (mk r nI (resc P go bo k))). split.
  { rewrite smooth_mk. intros i j Hi Hj. apply smooth_add; [|now apply smooth_par]. apply smooth_mul; [now apply SK|now apply smooth_par]. }
  split.
  { intros s. rewrite !vmap_mk. destruct (rescale_fwd nI go bo tr (map (at_time s) P) r (fun i j => at_time s (k i j))) as (b' & E' & _); [rewrite map_length; lia..|].
    exists b'. rewrite E'. apply ok_fst. f_equal. apply mk_ext. intros i j _ _. unfold resc. now rewrite !par_at. }
  rewrite !vmap_mk, !inner_mk.
  replace (dot g2 (map velocity P) - dot g (map velocity P)) with ((dot g1 (map velocity P) - dot g (map velocity P)) + (dot g2 (map velocity P) - dot g1 (map velocity P))) by ring.
  rewrite D1, D2 by (rewrite map_length; lia).
  rewrite (S_ext r) with (g := fun i => S_ nI (fun j => d i j * par theta (go + j) * velocity (k i j)) + (S_ nI (fun j => d i j * velocity (par P (bo + j))) + S_ nI (fun j => d i j * x i j * velocity (par P (go + j))))).
  2: { intros i Hi. rewrite <- !S_plus. apply S_ext. intros j Hj. unfold resc. rewrite velocity_add.
       change (velocity (nmul (k i j) (par P (go + j)))) with (velocity (k i j) * at_time 0 (par P (go + j)) + at_time 0 (k i j) * velocity (par P (go + j))).
       rewrite Hk by assumption. rewrite <- par_at, HP. ring. }
  rewrite !S_plus. f_equal. f_equal.
  - rewrite S_swap. apply S_ext. intros j _. rewrite nsum_S, <- S_scale_r, par_vel. reflexivity.
  - rewrite S_swap. apply S_ext. intros j _. rewrite nsum_S, <- S_scale_r, par_vel. reflexivity.
Qed.

(** ** Normalizing *)
Section Entries.
  Context {T : Type} `{N : Num T}.
  Definition mu_ (c : nat) (x : nat -> nat -> T) (i : nat) : T := ndiv (nsum (vec c (fun j => x i j))) (nnat c).
  Definition di (c : nat) (x : nat -> nat -> T) (i j : nat) : T := nsub (x i j) (mu_ c x i).
  Definition vr (c : nat) (x : nat -> nat -> T) (i : nat) : T :=
    nadd (ndiv (nsum (vec c (fun j => nmul (di c x i j) (di c x i j)))) (nnat c)) (ndiv (nZ 1) (nZ 100000000)).
  Definition xh (c : nat) (x : nat -> nat -> T) (i j : nat) : T := nmul (di c x i j) (inv_sqrt (vr c x i)).
  Lemma moments_mk r c (x : nat -> nat -> T) : get_moments (mk r c x) = Ok (mk r 1 (fun i _ => mu_ c x i), mk r 1 (fun i _ => vr c x i)).
  Proof.
    unfold get_moments, var1. rewrite mean1_mk, (mbin_col nsub r c x (fun i => ndiv (nsum (vec c (fun j => x i j))) (nnat c))). cbn [bind]. rewrite mbin_same. cbn [bind].
    rewrite mean1_mk, mmap_mk. reflexivity.
  Qed.
End Entries.
Definition dxh (c : nat) (x d : nat -> nat -> R) (i j : nat) : R :=
  ((INR c * d i j - S_ c (fun k => d i k)) - di c x i j * (1 / vr c x i) * S_ c (fun k => d i k * di c x i k)) * (1 / sqrt (vr c x i)) / INR c.
Lemma nnat_INR c : nnat c = INR c. Proof. unfold nnat. cbn. now rewrite <- INR_IZR_INZ. Qed.
Lemma normalize_fwd tr theta r c (x : nat -> nat -> R) :
  exists b, normalize tr theta (Arr2 (mk r c x)) = Ok (Arr2 (mk r c (xh c x)), b) /\
  forall d g, b (Arr2 (mk r c d)) g = Ok (Arr2 (mk r c (dxh c x d)), g).
Proof.
  unfold normalize. cbn [as_mat bind]. rewrite moments_mk. cbn [bind fst snd].
  rewrite (mbin_col nsub r c x (mu_ c x)). cbn [bind]. rewrite mmap_mk.
  rewrite (mbin_col nmul r c _ (fun i => inv_sqrt (vr c x i))). cbn [bind].
  eexists. split; [reflexivity|]. intros d g. cbn [as_mat bind].
  unfold get_d_moments. rewrite (mbin_col nsub r c x (mu_ c x)). cbn [bind]. rewrite mbin_same. cbn [bind fst snd].
  rewrite !sum1_mk, !mmap_mk, mk_cols.
  rewrite (mbin_col nsub r c _ (fun i => nsum (vec c (fun j => d i j)))). cbn [bind].
  rewrite (mbin_col nmul r c _ (fun i => inv (vr c x i))). cbn [bind].
  rewrite (mbin_col nmul r c _ (fun i => nsum (vec c (fun j => nmul (d i j) (nsub (x i j) (mu_ c x i)))))). cbn [bind].
  rewrite mbin_same. cbn [bind]. rewrite (mbin_col nmul r c _ (fun i => inv_sqrt (vr c x i))). cbn [bind]. rewrite mmap_mk.
  do 3 f_equal. apply mk_ext. intros i j _ _. unfold dxh. rewrite !nnat_INR, !nsum_S. reflexivity.
Qed.
Lemma mu_at s c (k : nat -> nat -> jet) i : at_time s (mu_ c k i) = mu_ c (fun i j => at_time s (k i j)) i.
Proof.
  unfold mu_. change (at_time s (nsum (vec c (fun j => k i j))) / at_time s (nnat c) = (nsum (vec c (fun j => at_time s (k i j))) / nnat c)%num).
  rewrite at_nsum, map_vec, nsum_msum. reflexivity.
Qed.
Lemma di_at s c (k : nat -> nat -> jet) i j : at_time s (di c k i j) = di c (fun i j => at_time s (k i j)) i j.
Proof. unfold di. change (at_time s (k i j) - at_time s (mu_ c k i) = (at_time s (k i j) - mu_ c (fun i j => at_time s (k i j)) i)%num). now rewrite mu_at. Qed.
Lemma vr_at s c (k : nat -> nat -> jet) i : at_time s (vr c k i) = vr c (fun i j => at_time s (k i j)) i.
Proof.
  unfold vr. change (at_time s (nsum (vec c (fun j => nmul (di c k i j) (di c k i j)))) / at_time s (nnat c) + 1 / 100000000 =
    nsum (vec c (fun j => nmul (di c (fun i j => at_time s (k i j)) i j) (di c (fun i j => at_time s (k i j)) i j))) / nnat c + 1 / 100000000).
  rewrite at_nsum, map_vec, nsum_msum. do 2 f_equal. f_equal. apply vec_ext. intros j _. rewrite <- di_at. reflexivity.
Qed.
Lemma xh_at s c (k : nat -> nat -> jet) i j : at_time s (xh c k i j) = xh c (fun i j => at_time s (k i j)) i j.
Proof.
  unfold xh. change (at_time s (di c k i j) * (1 / sqrt (at_time s (vr c k i))) = di c (fun i j => at_time s (k i j)) i j * (1 / sqrt (vr c (fun i j => at_time s (k i j)) i))).
  now rewrite di_at, vr_at.
Qed.
Lemma vr_pos c (x : nat -> nat -> R) i : (0 < c)%nat -> 0 < vr c x i.
Proof.
  intros Hc. unfold vr. rewrite nsum_S, nnat_INR. change (0 < S_ c (fun j => di c x i j * di c x i j) / INR c + 1 / 100000000).
  assert (0 < INR c) by now apply lt_0_INR.
  assert (0 <= S_ c (fun j => di c x i j * di c x i j)).
  { unfold S_, vec. generalize (seq 0 c). intros l. induction l as [|a l IH]; cbn [map]; [apply Rle_refl|]. rewrite msum_cons.
    pose proof (Rle_0_sqr (di c x i a)) as Hq. unfold Rsqr in Hq. lra. }
  assert (0 <= S_ c (fun j => di c x i j * di c x i j) / INR c) by (apply Rmult_le_pos; [assumption|]; left; now apply Rinv_0_lt_compat). lra.
Qed.
Lemma di_sum c (x : nat -> nat -> R) i : (0 < c)%nat -> S_ c (fun j => di c x i j) = 0.
Proof.
  intros Hc. unfold di, mu_. rewrite nsum_S, nnat_INR. cbn [nsub ndiv num_R]. rewrite S_minus, S_const.
  change (S_ c (fun j => x i j)) with (S_ c (x i)). field. apply not_0_INR. lia.
Qed.
Section Curve.
  Context (c : nat) (k : nat -> nat -> jet) (i : nat) (Hc : (0 < c)%nat) (Hk : forall j, (j < c)%nat -> smooth (k i j)).
  Lemma smooth_mu : smooth (mu_ c k i).
  Proof.
    unfold mu_. apply smooth_div; [|apply smooth_const|].
    - apply smooth_nsum, Forall_vec. exact Hk.
    - unfold nnat. cbn. rewrite <- INR_IZR_INZ. apply not_0_INR. lia.
  Qed.
  Lemma smooth_di j : (j < c)%nat -> smooth (di c k i j).
  Proof. intros Hj. apply smooth_sub; [now apply Hk|apply smooth_mu]. Qed.
  Lemma smooth_vr : smooth (vr c k i).
  Proof.
    unfold vr. apply smooth_add.
    - apply smooth_div; [|apply smooth_const|].
      + apply smooth_nsum, Forall_vec. intros j Hj. apply smooth_mul; now apply smooth_di.
      + unfold nnat. cbn. rewrite <- INR_IZR_INZ. apply not_0_INR. lia.
    - apply smooth_div; [apply smooth_const..|]. cbn. lra.
  Qed.
  Lemma smooth_xh j : (j < c)%nat -> smooth (xh c k i j).
  Proof.
    intros Hj. unfold xh, inv_sqrt. assert (0 < at_time 0 (vr c k i)) by (rewrite vr_at; now apply vr_pos). apply smooth_mul; [now apply smooth_di|].
    apply smooth_div; [apply smooth_const|apply smooth_sqrt; [apply smooth_vr|assumption]|].
    change (sqrt (at_time 0 (vr c k i)) <> 0). apply Rgt_not_eq. now apply sqrt_lt_R0.
  Qed.
  Let x := fun i j => at_time 0 (k i j).
  Let v := fun j => velocity (k i j).
  Lemma mu_vel : velocity (mu_ c k i) = S_ c v / INR c.
  Proof.
    unfold mu_. change (velocity (ndiv (nsum (vec c (fun j => k i j))) (nnat c))) with
      ((velocity (nsum (vec c (fun j => k i j))) * IZR (Z.of_nat c) - 0 * at_time 0 (nsum (vec c (fun j => k i j)))) / Rsqr (IZR (Z.of_nat c))).
    rewrite <- INR_IZR_INZ, velocity_nsum, map_vec. unfold Rsqr, S_, v. field. apply not_0_INR. lia.
  Qed.
  Lemma vr_vel : velocity (vr c k i) = 2 * S_ c (fun j => di c x i j * v j) / INR c.
  Proof.
    unfold vr. rewrite velocity_add.
    change (velocity (ndiv (nZ 1) (nZ 100000000))) with ((0 * 100000000 - 0 * 1) / Rsqr 100000000).
    set (q := vec c (fun j => nmul (di c k i j) (di c k i j))).
    change (velocity (ndiv (nsum q) (nnat c))) with ((velocity (nsum q) * IZR (Z.of_nat c) - 0 * at_time 0 (nsum q)) / Rsqr (IZR (Z.of_nat c))).
    rewrite <- INR_IZR_INZ, velocity_nsum. unfold q. rewrite map_vec.
    assert (Hn : INR c <> 0) by (apply not_0_INR; lia).
    assert (E : msum (vec c (fun j => velocity (nmul (di c k i j) (di c k i j)))) = 2 * S_ c (fun j => di c x i j * v j)).
    { transitivity (S_ c (fun j => 2 * (di c x i j * v j) - 2 * (S_ c v / INR c) * di c x i j)).
      - apply S_ext. intros j Hj.
        change (velocity (nmul (di c k i j) (di c k i j))) with (velocity (di c k i j) * at_time 0 (di c k i j) + at_time 0 (di c k i j) * velocity (di c k i j)).
        change (velocity (di c k i j)) with (velocity (k i j) - velocity (mu_ c k i)). rewrite mu_vel, di_at. fold x. unfold v. ring.
      - rewrite S_minus, !S_scale, di_sum by exact Hc. ring. }
    rewrite E. unfold Rsqr. field. exact Hn.
  Qed.
  Lemma xh_vel (d : nat -> nat -> R) : S_ c (fun j => d i j * velocity (xh c k i j)) = S_ c (fun j => dxh c x d i j * v j).
  Proof.
    assert (Hn : INR c <> 0) by (apply not_0_INR; lia).
    assert (Hv : 0 < vr c x i) by now apply vr_pos. assert (Hq : 0 < sqrt (vr c x i)) by now apply sqrt_lt_R0.
    assert (Eq : sqrt (vr c x i) * sqrt (vr c x i) = vr c x i) by (apply sqrt_sqrt; lra).
    set (q := sqrt (vr c x i)) in *.
    transitivity (S_ c (fun j => (1 / q) * (d i j * v j) - (S_ c v / INR c) * (1 / q) * d i j
                   - (S_ c (fun j => di c x i j * v j) / INR c / (q * q * q)) * (d i j * di c x i j))).
    - apply S_ext. intros j Hj. unfold xh, inv_sqrt.
      change (velocity (nmul (di c k i j) (ndiv (nZ 1) (nsqrt (vr c k i))))) with
        ((velocity (k i j) - velocity (mu_ c k i)) * (1 / sqrt (at_time 0 (vr c k i))) +
         at_time 0 (di c k i j) * ((0 * sqrt (at_time 0 (vr c k i)) - (/ (2 * sqrt (at_time 0 (vr c k i))) * velocity (vr c k i)) * 1) / Rsqr (sqrt (at_time 0 (vr c k i))))).
      rewrite mu_vel, vr_vel, vr_at, di_at. fold x. fold q. unfold Rsqr. fold (v j). field. repeat split; first [exact Hn|lra].
    - rewrite !S_minus, !S_scale. unfold dxh. fold q. rewrite <- Eq.
      set (A := S_ c (fun j => d i j * v j)). set (C := S_ c (fun j => di c x i j * v j)). set (D := S_ c (fun j => d i j * di c x i j)).
      set (Sd := S_ c (fun k0 => d i k0)). replace (S_ c (fun x0 => d i x0)) with Sd by reflexivity.
      transitivity (S_ c (fun j => (1 / q) * (d i j * v j) - Sd / (INR c * q) * v j - D / (INR c * (q * q * q)) * (di c x i j * v j))).
      + rewrite !S_minus, !S_scale. fold A C. field. repeat split; first [exact Hn|lra].
      + apply S_ext. intros j _. field. repeat split; first [exact Hn|lra].
  Qed.
End Curve.
Lemma normalize_mk_ok tr theta r c (x : nat -> nat -> R) :
  differentiates normalize tr theta (Arr2 (mk r c x)) (Arr2 (mk r c (xh c x))).
Proof.
  destruct (normalize_fwd tr theta r c x) as (b & E & EB). exists b. split; [exact E|]. split; [apply mk_wf|].
  intros dY g LdY Lg. apply like_mk_inv in LdY as (d & ->). rewrite EB. eexists _, g. split; [reflexivity|]. split; [apply like_mk|]. split; [exact Lg|].
  intros P K HP HK SP SK. apply curve_mk in HK as (k & -> & Hk). rewrite smooth_mk in SK.
  exists (Arr2 (mk r c (xh c k))). split.
  { rewrite smooth_mk. intros i j Hi Hj. apply smooth_xh; [lia| |exact Hj]. intros n Hn. now apply SK. }
  split.
  { intros s. rewrite !vmap_mk. destruct (normalize_fwd tr (map (at_time s) P) r c (fun i j => at_time s (k i j))) as (b' & E' & _).
    exists b'. rewrite E'. apply ok_fst. f_equal. apply mk_ext. intros i j _ _. symmetry. apply xh_at. }
  rewrite !vmap_mk, !inner_mk. rewrite Rminus_diag_eq by reflexivity. rewrite Rplus_0_r. apply S_ext. intros i Hi.
  destruct c as [|c']; [reflexivity|]. rewrite xh_vel by (try lia; intros j Hj; now apply SK). apply S_ext. intros j Hj. f_equal.
  (* the base points agree *)
  assert (Em : mu_ (S c') (fun i j => at_time 0 (k i j)) i = mu_ (S c') x i).
  { unfold mu_. do 2 f_equal. apply vec_ext. intros n Hn. now apply Hk. }
  assert (Ed : forall n, (n < S c')%nat -> di (S c') (fun i j => at_time 0 (k i j)) i n = di (S c') x i n).
  { intros n Hn. unfold di. now rewrite Em, Hk. }
  assert (Ev : vr (S c') (fun i j => at_time 0 (k i j)) i = vr (S c') x i).
  { unfold vr. do 3 f_equal. apply vec_ext. intros n Hn. now rewrite Ed. }
  unfold dxh. rewrite Ev, Ed by exact Hj. do 4 f_equal. apply S_ext. intros n Hn. now rewrite Ed.
Qed.
Lemma layernorm_mk_ok nI go bo tr theta r (x : nat -> nat -> R) : (go + nI <= length theta)%nat -> (bo + nI <= length theta)%nat ->
  differentiates (LayerNorm nI go bo) tr theta (Arr2 (mk r nI x)) (Arr2 (mk r nI (resc theta go bo (xh nI x)))).
Proof.
  intros Hg Hb. eapply same_differentiates; [apply layernorm_same|]. apply chain_ok. eapply chained_more; [apply normalize_mk_ok|].
  constructor. now apply rescale_mk_ok.
Qed.
