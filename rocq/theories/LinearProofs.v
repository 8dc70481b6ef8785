(** Linear. *)
From Verif Require Import CombModel CombSpec DenseModel MatProofs BaseFacts CombProofs CombBuiltProofs MkProofs.
From Coq Require Import Reals Lra Lia.
Set Default Goal Selector "!".
Local Open Scope R_scope.

Lemma ok_fst {A B} (a a' : A) (b : B) : a = a' -> Ok (a, b) = Ok (a', b). Proof. now intros ->. Qed.
Definition lin {T} `{Num T} (theta : list T) (wo bo nI : nat) (x : nat -> nat -> T) (i j : nat) : T :=
  nadd (nsum (vec nI (fun k => nmul (x i k) (par theta (wo + (j * nI + k)))))) (par theta (bo + j)).

Section Generic.
  Context {T : Type} `{N : Num T}.
  Lemma affine_mk r nO nI (x w : nat -> nat -> T) b :
    affine (mk r nI x) (mk nO nI w) (vec nO b) = Ok (mk r nO (fun i j => nadd (nsum (vec nI (fun k => nmul (x i k) (w j k)))) (b j))).
  Proof. unfold affine, gemm. rewrite transpose_mk, matmul_mk. cbn [bind]. now rewrite miadd_row. Qed.
  Definition lin_back (nO nI wo bo r : nat) (theta : list T) (x : nat -> nat -> T) : mat T -> list T -> result (value T * list T) :=
    fun d g =>
      let* g := inc_grad g bo (sum0 d) in
      let* dW := gemm d (mk r nI x) true false in
      let* g := inc_grad g wo (concat (m_rows dW)) in
      let* dX := gemm d (mk nO nI (fun i j => par theta (wo + (i * nI + j)))) false false in
      Ok (Arr2 dX, g).
  Lemma linear_fwd nO nI wo bo tr theta r (x : nat -> nat -> T) : (wo + nO * nI <= length theta)%nat -> (bo + nO <= length theta)%nat ->
    Linear nO nI wo bo tr theta (Arr2 (mk r nI x)) =
    Ok (Arr2 (mk r nO (lin theta wo bo nI x)), fun dY g => let* d := as_mat dY in lin_back nO nI wo bo r theta x d g).
  Proof.
    intros Hw Hb. unfold Linear. rewrite get_param2_ok by exact Hw. cbn [bind]. rewrite get_param1_ok by exact Hb. cbn [bind as_mat].
    unfold gemm at 1. rewrite transpose_mk, matmul_mk. cbn [bind]. rewrite miadd_row. cbn [bind]. reflexivity.
  Qed.
End Generic.

Lemma lin_at s (P : list jet) wo bo nI k i j :
  at_time s (lin P wo bo nI k i j) = lin (map (at_time s) P) wo bo nI (fun i j => at_time s (k i j)) i j.
Proof.
  assert (Hp : forall n, par (map (at_time s) P) n = at_time s (par P n)) by (intros n; unfold par; now rewrite <- (map_nth (at_time s))).
  unfold lin. rewrite at_add, Hp. apply (f_equal2 Rplus); [|reflexivity].
  rewrite at_nsum, nsum_msum. rewrite map_vec. f_equal. apply vec_ext. intros n _. now rewrite Hp.
Qed.
Lemma par_map {A B} `{Num A} `{Num B} (h : A -> B) : h (nZ 0) = nZ 0 -> forall P n, par (map h P) n = h (par P n).
Proof. intros Hz P n. unfold par. rewrite <- Hz. apply map_nth. Qed.
Lemma par_at s P n : par (map (at_time s) P) n = at_time s (par P n). Proof. exact (@par_map jet R num_jet num_R (at_time s) eq_refl P n). Qed.
Lemma par_vel P n : par (map velocity P) n = velocity (par P n). Proof. exact (@par_map jet R num_jet num_R velocity eq_refl P n). Qed.
Lemma smooth_par P n : Forall smooth P -> smooth (par P n).
Proof.
  intros HF. unfold par. destruct (Nat.lt_ge_cases n (length P)).
  - rewrite Forall_forall in HF. apply HF. now apply nth_In.
  - rewrite nth_overflow by lia. apply smooth_const.
Qed.
Lemma lin_smooth P wo bo nI k i j : Forall smooth P -> (forall n, (n < nI)%nat -> smooth (k i n)) -> smooth (lin P wo bo nI k i j).
Proof.
  intros HP Hk. unfold lin. apply smooth_add; [|now apply smooth_par]. apply smooth_nsum. apply Forall_vec. intros n Hn.
  apply smooth_mul; [now apply Hk|now apply smooth_par].
Qed.
Lemma lin_velocity P wo bo nI k i j : velocity (lin P wo bo nI k i j) =
  S_ nI (fun n => velocity (k i n) * at_time 0 (par P (wo + (j * nI + n))) + at_time 0 (k i n) * velocity (par P (wo + (j * nI + n)))) + velocity (par P (bo + j)).
Proof. unfold lin. rewrite velocity_add, velocity_nsum, map_vec. reflexivity. Qed.

(** The callback in terms of entries *)
Lemma lin_back_ok nO nI wo bo r theta (x : nat -> nat -> R) d g : (wo + nO * nI <= length theta)%nat -> (bo + nO <= length theta)%nat ->
  length g = length theta ->
  exists g', lin_back nO nI wo bo r theta x (mk r nO d) g
    = Ok (Arr2 (mk r nI (fun i k => S_ nO (fun j => d i j * par theta (wo + (j * nI + k))))), g') /\ length g' = length theta /\
    forall p, length p = length theta -> dot g' p - dot g p =
      S_ nO (fun j => S_ r (fun i => d i j) * par p (bo + j)) +
      S_ nO (fun j => S_ nI (fun k => S_ r (fun i => d i j * x i k) * par p (wo + (j * nI + k)))).
Proof.
  intros Hw Hb Lg. unfold lin_back. rewrite sum0_mk.
  destruct (inc_grad_ok g bo nO (fun j => nsum (vec r (fun i => d i j))) ltac:(lia)) as (g1 & E1 & L1 & D1). rewrite E1. cbn [bind].
  unfold gemm. rewrite transpose_mk, matmul_mk. cbn [bind]. rewrite m_rows_mk.
  assert (EV : concat (vec nO (fun i => vec nI (fun j => nsum (vec r (fun k => (d k i * x k j)%num)))))
               = vec (nO * nI) (fun n => nsum (vec r (fun k => (d k (n / nI)%nat * x k (n mod nI)%nat)%num)))).
  { rewrite vec_concat. f_equal. apply vec_ext. intros i Hi. apply vec_ext. intros j Hj.
    replace ((i * nI + j) / nI)%nat with i; [replace ((i * nI + j) mod nI)%nat with j; [reflexivity|]|].
    - rewrite Nat.add_comm, Nat.mod_add by lia. now rewrite Nat.mod_small.
    - rewrite Nat.div_add_l by lia. rewrite Nat.div_small by exact Hj. lia. }
  rewrite EV.
  destruct (inc_grad_ok g1 wo (nO * nI) (fun n => nsum (vec r (fun k => (d k (n / nI)%nat * x k (n mod nI)%nat)%num))) ltac:(lia)) as (g2 & E2 & L2 & D2).
  rewrite E2. cbn [bind]. rewrite matmul_mk. cbn [bind]. exists g2. split; [|split; [lia|]].
  - do 3 f_equal. apply mk_ext. intros i k _ _. apply nsum_S.
  - intros p Lp. replace (dot g2 p - dot g p) with ((dot g1 p - dot g p) + (dot g2 p - dot g1 p)) by ring.
    rewrite D1, D2 by lia. f_equal.
    + apply S_ext. intros j _. now rewrite nsum_S.
    + unfold S_ at 1. rewrite vec_concat. rewrite msum_concat, map_vec. apply S_ext. intros j Hj. apply S_ext. intros k Hk.
      replace ((j * nI + k) / nI)%nat with j; [replace ((j * nI + k) mod nI)%nat with k; [now rewrite nsum_S|]|].
      * rewrite Nat.add_comm, Nat.mod_add by lia. now rewrite Nat.mod_small.
      * rewrite Nat.div_add_l by lia. rewrite Nat.div_small by exact Hk. lia.
Qed.

Lemma linear_mk_ok nO nI wo bo tr theta r (x : nat -> nat -> R) : (wo + nO * nI <= length theta)%nat -> (bo + nO <= length theta)%nat ->
  differentiates (Linear nO nI wo bo) tr theta (Arr2 (mk r nI x)) (Arr2 (mk r nO (lin theta wo bo nI x))).
Proof.
  intros Hw Hb. eexists. split; [now apply linear_fwd|]. split; [apply mk_wf|].
  intros dY g LdY Lg. apply like_mk_inv in LdY as (d & ->). cbn [as_mat bind].
  destruct (lin_back_ok nO nI wo bo r theta x d g Hw Hb Lg) as (g' & E & L' & D).
  eexists _, g'. split; [exact E|]. split; [apply like_mk|]. split; [exact L'|].
  intros P K HP HK SP SK. apply curve_mk in HK as (k & -> & Hk). rewrite smooth_mk in SK.
  assert (LP : length P = length theta) by (rewrite <- HP; now rewrite map_length).
  exists (Arr2 (mk r nO (lin P wo bo nI k))). split.
  { rewrite smooth_mk. intros i j Hi Hj. apply lin_smooth; [exact SP|]. intros n Hn. now apply SK. }
  split.
  { intros s. rewrite !vmap_mk. eexists. rewrite linear_fwd by (rewrite map_length; lia). apply ok_fst. f_equal. apply mk_ext. intros i j _ _.
    symmetry. apply lin_at. }
  rewrite !vmap_mk, !inner_mk. rewrite D by (rewrite map_length; exact LP).
  rewrite (S_ext r) with (g := fun i => S_ nO (fun j => S_ nI (fun n => d i j * (velocity (k i n) * par theta (wo + (j * nI + n))))
      + (S_ nI (fun n => d i j * (x i n * velocity (par P (wo + (j * nI + n))))) + d i j * velocity (par P (bo + j))))).
  2: { intros i Hi. apply S_ext. intros j Hj. rewrite lin_velocity. rewrite S_plus, !Rmult_plus_distr_l, <- !S_scale. rewrite Rplus_assoc. f_equal; [|f_equal].
       - apply S_ext. intros n _. now rewrite <- par_at, HP.
       - apply S_ext. intros n Hn. now rewrite Hk. }
  rewrite (S_ext r _ _ (fun i _ => S_plus nO _ _)), S_plus.
  rewrite (S_ext r (fun i => S_ nO (fun j => _ + d i j * _)) _ (fun i _ => S_plus nO _ _)), S_plus.
  f_equal.
  - apply S_ext. intros i _. rewrite S_swap. apply S_ext. intros n _. rewrite <- S_scale_r. apply S_ext. intros j _. ring.
  - rewrite Rplus_comm. f_equal.
    + rewrite S_swap. apply S_ext. intros j _. rewrite <- S_scale_r. apply S_ext. intros i _.
      now rewrite par_vel.
    + rewrite S_swap. apply S_ext. intros j _. rewrite S_swap. apply S_ext. intros n _. rewrite <- S_scale_r. apply S_ext. intros i _.
      rewrite par_vel. ring.
Qed.
