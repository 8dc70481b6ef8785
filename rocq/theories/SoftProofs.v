(** softmax. *)
From Coq Require Import Reals Lra Lia.
From Verif Require Import CombModel CombSpec DenseModel DenseSpec ActModel ActSpec SoftModel SoftSpec.
From Verif Require Import MatProofs BaseFacts CombProofs CombDiffProofs CombBuiltProofs MkProofs LinearProofs ActLayerProofs DenseProofs ActProofs.
Set Default Goal Selector "!".
Local Open Scope R_scope.

(** ** Finite sums *)
Lemma vec_S {A} n (f : nat -> A) : vec (S n) f = f 0%nat :: vec n (fun i => f (S i)).
Proof. unfold vec. cbn [seq map]. f_equal. rewrite <- seq_shift, map_map. reflexivity. Qed.
Lemma S_S n f : S_ (S n) f = f 0%nat + S_ n (fun i => f (S i)).
Proof. unfold S_. now rewrite vec_S. Qed.
Lemma S_pos n f : n <> 0%nat -> (forall i, (i < n)%nat -> 0 < f i) -> 0 < S_ n f.
Proof.
  destruct n as [|n]; [congruence|]. intros _ H. revert f H. induction n as [|n IH]; intros f H.
  - rewrite S_S. change (S_ 0 _) with 0. specialize (H 0%nat ltac:(lia)). lra.
  - rewrite S_S. specialize (IH (fun i => f (S i)) (fun i Hi => H (S i) ltac:(lia))). specialize (H 0%nat ltac:(lia)). lra.
Qed.
Lemma der_S n (f : nat -> R -> R) (l : nat -> R) a : (forall i, (i < n)%nat -> derivable_pt_lim (f i) a (l i)) -> derivable_pt_lim (fun s => S_ n (fun i => f i s)) a (S_ n l).
Proof.
  revert f l. induction n as [|n IH]; intros f l H; [apply (derivable_pt_lim_const 0)|].
  rewrite S_S. apply (der_local _ (fun s => f 0%nat s + S_ n (fun i => f (S i) s)) a (a - 1) (a + 1)); [lra|intros; apply S_S|].
  apply (derivable_pt_lim_plus (f 0%nat) (fun s => S_ n (fun i => f (S i) s))); [apply H; lia|]. apply IH. intros i Hi. apply H. lia.
Qed.

(** ** The forward pass *)
Definition sm (t : R) (c : nat) (x : nat -> nat -> R) (i j : nat) : R := exp (x i j / t) / S_ c (fun k => exp (x i k / t)).
Lemma sum_exp_pos t c (x : nat -> R) : c <> 0%nat -> 0 < S_ c (fun k => exp (x k / t)).
Proof. intros Hc. apply S_pos; [exact Hc|]. intros i _. apply exp_pos. Qed.
Lemma softmax_row_ok (x : list R) : x <> [] -> softmax_row x = Ok (map (fun a => exp a / msum (map exp x)) x).
Proof.
  intros Hx. unfold softmax_row. assert (exists m, row_max x = Ok m) as (m & ->) by (destruct x as [|a x]; [congruence|eexists; reflexivity]). cbn [bind]. f_equal.
  rewrite map_map. apply map_ext. intros a. cbn [ndiv num_R nsub nexp trans_R]. rewrite nsum_msum.
  assert (E : forall b, exp (b - m) = exp (- m) * exp b) by (intros b; rewrite <- exp_plus; f_equal; ring).
  rewrite (map_ext (fun b => exp (b - m)) (fun b => exp (- m) * exp b) E), E.
  assert (M : msum (map (fun b => exp (- m) * exp b) x) = exp (- m) * msum (map exp x)).
  { apply msum_scale. }
  rewrite M. assert (P : 0 < msum (map exp x)).
  { destruct x as [|b x]; [congruence|]. cbn [map]. rewrite msum_cons. pose proof (exp_pos b). assert (0 <= msum (map exp x)); [|lra]. clear. induction x as [|b x IH]; [cbn; lra|]. cbn [map]. rewrite msum_cons. pose proof (exp_pos b). lra. }
  pose proof (exp_pos (- m)). field. split; lra.
Qed.
Lemma mapM_ok {A B} (f : A -> result B) (g : A -> B) l : (forall x, In x l -> f x = Ok (g x)) -> mapM f l = Ok (map g l).
Proof.
  induction l as [|a l IH]; intros H; [reflexivity|]. cbn. rewrite (H a) by now left. cbn [bind]. rewrite IH; [reflexivity|]. intros x Hx. apply H. now right.
Qed.
Lemma temper t r c (x : nat -> nat -> R) : t <> 0 -> (if neqb t (nZ 1) then mk r c x else mmap (fun a => ndiv a t) (mk r c x)) = mk r c (fun i j => x i j / t).
Proof.
  intros Ht. cbn [neqb num_R nZ]. destruct (Req_EM_T t 1) as [->|N].
  - apply mk_ext. intros i j _ _. field.
  - now rewrite mmap_mk.
Qed.
Lemma softmax_mk t r c (x : nat -> nat -> R) : t <> 0 -> c <> 0%nat -> softmax t (mk r c x) = Ok (mk r c (sm t c x)).
Proof.
  intros Ht Hc. unfold softmax. rewrite temper by exact Ht. rewrite m_rows_mk.
  rewrite (mapM_ok _ (fun l => map (fun a => exp a / msum (map exp l)) l)).
  - cbn [bind mk m_cols]. f_equal. apply mkM_eq. rewrite map_vec. apply vec_ext. intros i _. rewrite map_vec. apply vec_ext. intros j _. unfold sm. now rewrite map_vec.
  - intros l Hl. apply in_vec in Hl as (i & _ & ->). apply softmax_row_ok. destruct c; [congruence|]. rewrite vec_S. discriminate.
Qed.
Lemma sm_sum t c x i : c <> 0%nat -> S_ c (sm t c x i) = 1.
Proof.
  intros Hc. pose proof (sum_exp_pos t c (x i) Hc) as P. unfold sm. change (fun j => exp (x i j / t) / S_ c (fun k => exp (x i k / t))) with (fun j => exp (x i j / t) * / S_ c (fun k => exp (x i k / t))).
  rewrite S_scale_r. field. lra.
Qed.
Lemma sm_pos t c x i j : c <> 0%nat -> 0 < sm t c x i j.
Proof. intros Hc. apply Rdiv_lt_0_compat; [apply exp_pos|now apply sum_exp_pos]. Qed.

(** ** The derivative *)
Lemma der_sm t c (k : nat -> nat -> jet) (x : nat -> nat -> R) i j : t <> 0 -> c <> 0%nat -> (j < c)%nat -> (forall j, (j < c)%nat -> smooth (k i j)) -> (forall j, (j < c)%nat -> at_time 0 (k i j) = x i j) ->
  derivable_pt_lim (fun s => sm t c (fun i j => at_time s (k i j)) i j) 0
    (sm t c x i j * (velocity (k i j) - S_ c (fun l => sm t c x i l * velocity (k i l))) / t).
Proof.
  intros Ht Hc Hj SK HK. assert (DE : forall l, (l < c)%nat -> derivable_pt_lim (fun s => exp (at_time s (k i l) / t)) 0 (exp (x i l / t) * (velocity (k i l) * / t + at_time 0 (k i l) * 0))).
  { intros l Hl. apply (derivable_pt_lim_comp (fun s => at_time s (k i l) / t) exp).
    - apply (derivable_pt_lim_mult (fst (k i l)) (fun _ => / t)); [now apply SK|apply derivable_pt_lim_const].
    - rewrite HK by exact Hl. apply derivable_pt_lim_exp. }
  pose proof (sum_exp_pos t c (x i) Hc) as P.
  assert (E0 : S_ c (fun l => exp (at_time 0 (k i l) / t)) = S_ c (fun l => exp (x i l / t))) by (apply S_ext; intros l Hl; now rewrite HK).
  eapply der_eq.
  - apply (derivable_pt_lim_div (fun s => exp (at_time s (k i j) / t)) (fun s => S_ c (fun l => exp (at_time s (k i l) / t)))).
    + apply (DE j Hj).
    + apply (der_S c (fun l s => exp (at_time s (k i l) / t)) (fun l => exp (x i l / t) * (velocity (k i l) * / t + at_time 0 (k i l) * 0)) 0 DE).
    + rewrite E0. lra.
  - rewrite E0, HK by exact Hj. rewrite (S_ext c (fun l => exp (x i l / t) * (velocity (k i l) * / t + at_time 0 (k i l) * 0)) (fun l => exp (x i l / t) * velocity (k i l) * / t)) by (intros; ring).
    rewrite S_scale_r. unfold sm. rewrite (S_ext c (fun l => exp (x i l / t) / S_ c (fun k0 => exp (x i k0 / t)) * velocity (k i l)) (fun l => exp (x i l / t) * velocity (k i l) * / S_ c (fun k0 => exp (x i k0 / t)))) by (intros; unfold Rdiv; ring).
    rewrite S_scale_r. unfold Rsqr. set (Z := S_ c (fun k0 => exp (x i k0 / t))) in *. field. split; [lra|exact Ht].
Qed.
Definition dsm (t : R) (c : nat) (y d : nat -> nat -> R) (i j : nat) : R := y i j * (d i j / t) - y i j * S_ c (fun l => y i l * (d i l / t)).
Lemma back_mk t r c (y d : nat -> nat -> R) : t <> 0 -> backprop_softmax (mk r c y) (mk r c d) t = Ok (mk r c (dsm t c y d)).
Proof.
  intros Ht. unfold backprop_softmax. rewrite temper by exact Ht. rewrite mbin_same. cbn [bind]. rewrite sum1_mk.
  rewrite (mbin_col nmul r c y (fun i => nsum (vec c (fun j => nmul (y i j) (d i j / t))))). cbn [bind]. rewrite mbin_same. f_equal. apply mk_ext. intros i j _ _. unfold dsm. cbn [nsub nmul num_R]. now rewrite nsum_S.
Qed.
Lemma softmax_mk_ok t tr theta r c (x : nat -> nat -> R) : t <> 0 -> c <> 0%nat ->
  differentiates (softmax_op t) tr theta (Arr2 (mk r c x)) (Arr2 (mk r c (sm t c x))).
Proof.
  intros Ht Hc. eexists. split; [unfold softmax_op; cbn [as_mat bind]; rewrite softmax_mk by assumption; reflexivity|]. split; [apply mk_wf|].
  intros dY g LdY Lg. apply like_mk_inv in LdY as (d & ->). cbn [as_mat bind]. rewrite back_mk by exact Ht. cbn [bind].
  eexists _, g. split; [reflexivity|]. split; [apply like_mk|]. split; [exact Lg|].
  intros P K HP HK SP SK. apply curve_mk in HK as (k & -> & Hk). rewrite smooth_mk in SK.
  exists (Arr2 (mk r c (fun i j => ((fun s => sm t c (fun i j => at_time s (k i j)) i j), sm t c x i j * (velocity (k i j) - S_ c (fun l => sm t c x i l * velocity (k i l))) / t) : jet))).
  split; [|split].
  - rewrite smooth_mk. intros i j Hi Hj. unfold smooth. cbn [fst snd]. apply der_sm; [assumption..| |]; intros l Hl; [now apply SK|now apply Hk].
  - intros s. rewrite !vmap_mk. eexists. unfold softmax_op. cbn [as_mat bind]. rewrite softmax_mk by assumption. reflexivity.
  - rewrite !vmap_mk, !inner_mk. rewrite Rminus_diag_eq by reflexivity. rewrite Rplus_0_r. apply S_ext. intros i _. cbn [velocity snd].
    set (y := sm t c x i). set (v := fun l => velocity (k i l)).
    change (S_ c (fun j => d i j * (y j * (v j - S_ c (fun l => y l * v l)) / t)) = S_ c (fun j => dsm t c (sm t c x) d i j * v j)). unfold dsm. fold y.
    rewrite (S_ext c (fun j => d i j * (y j * (v j - S_ c (fun l => y l * v l)) / t)) (fun j => d i j * y j * v j * / t - S_ c (fun l => y l * v l) * (y j * (d i j / t)))) by (intros; unfold Rdiv; ring).
    rewrite (S_ext c (fun j => (y j * (d i j / t) - y j * S_ c (fun l => y l * (d i l / t))) * v j) (fun j => d i j * y j * v j * / t - S_ c (fun l => y l * (d i l / t)) * (y j * v j))) by (intros; unfold Rdiv; ring).
    rewrite !S_minus, !S_scale. ring.
Qed.

(** ** In the words of the specification *)
Lemma softmax_at_sm nI X t i j : input_of nI X -> (i < length (m_rows X))%nat -> (j < nI)%nat ->
  softmax_at t (nth i (m_rows X) []) j = sm t nI (ent X) i j.
Proof.
  intros HX Hi Hj. unfold softmax_at, sm. rewrite (row_vec nI X HX) by exact Hi. rewrite nth_vec by exact Hj. rewrite map_vec. reflexivity.
Qed.
Lemma softmax_by_row nI X t : input_of nI X -> by_row nI (softmax_at t) X = mk (length (m_rows X)) nI (sm t nI (ent X)).
Proof. intros HX. rewrite by_row_mk. apply mk_ext. intros i j Hi Hj. now apply softmax_at_sm. Qed.
Lemma softmax_ok nI X t : input_of nI X -> nI <> 0%nat -> t <> 0 -> softmax t X = Ok (by_row nI (softmax_at t) X).
Proof. intros HX Hn Ht. rewrite (softmax_by_row nI X t HX). rewrite (as_mk nI X HX) at 1. now apply softmax_mk. Qed.
Lemma softmax_diff nI X t tr theta : input_of nI X -> nI <> 0%nat -> t <> 0 -> differentiates (softmax_op t) tr theta (Arr2 X) (Arr2 (by_row nI (softmax_at t) X)).
Proof. intros HX Hn Ht. rewrite (softmax_by_row nI X t HX). rewrite (as_mk nI X HX) at 1. now apply softmax_mk_ok. Qed.
Lemma softmax_activation_diff nI X tr theta : input_of nI X -> nI <> 0%nat -> differentiates softmax_activation tr theta (Arr2 X) (Arr2 (by_row nI (softmax_at 1) X)).
Proof.
  intros HX Hn. eapply same_differentiates; [|apply (softmax_diff nI X 1); [exact HX|exact Hn|lra]].
  intros tr' theta' X'. unfold softmax_activation, softmax_op. destruct (as_mat X') as [m|]; cbn [bind]; [|exact I]. change (nZ 1) with 1. destruct (softmax 1 m); cbn [bind]; [|exact I]. now split.
Qed.
Lemma softmax_empty_row t (X : mat R) : In [] (m_rows X) -> softmax t X = Err ValueError.
Proof.
  intros H. unfold softmax. set (X' := if neqb t (nZ 1) then X else mmap (fun a => ndiv a t) X).
  assert (H' : In [] (m_rows X')). { unfold X'. destruct (neqb t (nZ 1)); [exact H|]. cbn. apply in_map_iff. now exists []. }
  assert (M : mapM softmax_row (m_rows X') = Err ValueError); [|now rewrite M]. clear H. clearbody X'. destruct X' as [c rows]. cbn [m_rows] in *.
  induction rows as [|r rows IH]; [destruct H'|]. cbn. destruct H' as [-> | H']; [reflexivity|]. destruct r as [|a r]; [reflexivity|]. rewrite IH by exact H'.
  unfold softmax_row. reflexivity.
Qed.

(** ** Properties of the rows *)
Lemma mapM_In {A B} (f : A -> result B) l l' : mapM f l = Ok l' -> forall y, In y l' -> exists x, In x l /\ f x = Ok y.
Proof.
  revert l'. induction l as [|a l IH]; intros l' E y Hy; cbn in E.
  - injection E as <-. destruct Hy.
  - destruct (f a) as [b|] eqn:Ea; cbn in E; [|discriminate]. destruct (mapM f l) as [bs|]; cbn in E; [|discriminate]. injection E as <-.
    destruct Hy as [<-|Hy]; [exists a; split; [now left|exact Ea]|]. destruct (IH bs eq_refl y Hy) as (x & Hx & Ex). exists x. split; [now right|exact Ex].
Qed.
Lemma msum_exp_pos x : x <> [] -> 0 < msum (map exp x).
Proof.
  destruct x as [|b x]; [congruence|]. intros _. cbn [map]. rewrite msum_cons. pose proof (exp_pos b). assert (0 <= msum (map exp x)); [|lra]. clear. induction x as [|b x IH]; [cbn; lra|]. cbn [map]. rewrite msum_cons. pose proof (exp_pos b). lra.
Qed.
Lemma softmax_row_dist x y : softmax_row x = Ok y -> distribution y.
Proof.
  intros E. destruct x as [|a x]; [discriminate|]. rewrite softmax_row_ok in E by discriminate. injection E as <-. set (l := a :: x).
  change (exp a + msum (map exp x)) with (msum (map exp l)). change (exp a / msum (map exp l) :: map (fun b => exp b / msum (map exp l)) x) with (map (fun b => exp b / msum (map exp l)) l).
  pose proof (msum_exp_pos l ltac:(discriminate)) as P. set (Z := msum (map exp l)) in *. split.
  - apply Forall_forall. intros p Hp. apply in_map_iff in Hp as (b & <- & _). apply Rdiv_lt_0_compat; [apply exp_pos|exact P].
  - assert (M : forall l', msum (map (fun b => exp b / Z) l') = msum (map exp l') / Z).
    { intros l'. rewrite (map_ext (fun b => exp b / Z) (fun b => / Z * exp b)) by (intros; unfold Rdiv; ring). rewrite msum_scale. unfold Rdiv. ring. }
    rewrite M. fold Z. field. lra.
Qed.
Lemma softmax_rows t (X Y : mat R) : softmax t X = Ok Y -> m_cols Y = m_cols X /\ length (m_rows Y) = length (m_rows X) /\ Forall distribution (m_rows Y).
Proof.
  intros E. unfold softmax in E. set (X' := if neqb t (nZ 1) then X else mmap (fun a => ndiv a t) X) in *.
  assert (HX : m_cols X' = m_cols X /\ length (m_rows X') = length (m_rows X)) by (unfold X'; destruct (neqb t (nZ 1)); [now split|cbn; now rewrite map_length]).
  destruct (mapM softmax_row (m_rows X')) as [rows|] eqn:M; cbn in E; [|discriminate]. injection E as <-. cbn [m_cols m_rows]. destruct HX as [H1 H2]. split; [exact H1|]. split.
  - rewrite <- H2. clear -M. revert rows M. induction (m_rows X') as [|a l IH]; intros rows M; cbn in M; [now injection M as <-|].
    destruct (softmax_row a); cbn in M; [|discriminate]. destruct (mapM softmax_row l); cbn in M; [|discriminate]. injection M as <-. cbn. f_equal. now apply IH.
  - apply Forall_forall. intros y Hy. destruct (mapM_In _ _ _ M y Hy) as (x & _ & Ex). now apply (softmax_row_dist x).
Qed.
Lemma softmax_shift t k x j : x <> [] -> (j < length x)%nat -> t <> 0 -> softmax_at t (map (fun a => a + k) x) j = softmax_at t x j.
Proof.
  intros Hx Hj Ht. unfold softmax_at. rewrite map_map. rewrite (nth_indep (map (fun a => a + k) x) 0 ((fun a => a + k) 0)) by (now rewrite map_length). rewrite (map_nth (fun a => a + k)).
  assert (E : forall a, exp ((a + k) / t) = exp (k / t) * exp (a / t)) by (intros a; rewrite <- exp_plus; f_equal; field; exact Ht).
  rewrite E. rewrite (map_ext (fun a => exp ((a + k) / t)) (fun a => exp (k / t) * exp (a / t)) E).
  assert (M : forall l, msum (map (fun a => exp (k / t) * exp (a / t)) l) = exp (k / t) * msum (map (fun a => exp (a / t)) l)).
  { intros l. apply msum_scale. }
  rewrite M. pose proof (msum_exp_pos (map (fun a => a / t) x)) as P. rewrite map_map in P. specialize (P ltac:(destruct x; [congruence|discriminate])).
  pose proof (exp_pos (k / t)). field. split; lra.
Qed.
Lemma softmax_order t x i j : 0 < t -> (i < length x)%nat -> (nth i x 0 < nth j x 0 <-> softmax_at t x i < softmax_at t x j).
Proof.
  intros Ht Hi. pose proof (msum_exp_pos (map (fun a => a / t) x)) as P. rewrite map_map in P. specialize (P ltac:(destruct x; [cbn in Hi; lia|discriminate])).
  unfold softmax_at. set (Z := msum _) in *. pose proof (Rinv_0_lt_compat Z P) as P'. pose proof (Rinv_0_lt_compat t Ht) as P''. split; intros H.
  - unfold Rdiv at 1 3. apply Rmult_lt_compat_r; [exact P'|]. apply exp_increasing. unfold Rdiv. now apply Rmult_lt_compat_r.
  - unfold Rdiv at 1 3 in H. apply Rmult_lt_reg_r in H; [|exact P']. apply exp_lt_inv in H. unfold Rdiv in H. now apply Rmult_lt_reg_r in H.
Qed.
(** The Jacobian, entry by entry *)
Lemma back_jacobian t c (X dY : mat R) : input_of c X -> input_of c dY -> length (m_rows dY) = length (m_rows X) -> t <> 0 -> c <> 0%nat ->
  exists Y dX, softmax t X = Ok Y /\ backprop_softmax Y dY t = Ok dX /\ wf_mat dX /\ m_cols dX = c /\ length (m_rows dX) = length (m_rows X) /\
  forall i j, (i < length (m_rows X))%nat -> (j < c)%nat ->
    nth j (nth i (m_rows dX) []) 0 =
    msum (map (fun k => nth k (nth i (m_rows dY) []) 0 * (softmax_at t (nth i (m_rows X) []) k * ((if Nat.eqb k j then 1 else 0) - softmax_at t (nth i (m_rows X) []) j) / t)) (seq 0 c)).
Proof.
  intros HX HD HL Ht Hc. exists (mk (length (m_rows X)) c (sm t c (ent X))). eexists. split; [rewrite (as_mk c X HX) at 1; now apply softmax_mk|].
  rewrite (as_mk c dY HD) at 1. rewrite HL. rewrite back_mk by exact Ht. split; [reflexivity|]. split; [apply mk_wf|]. split; [reflexivity|]. split; [apply mk_rows|].
  intros i j Hi Hj. change (ent (mk (length (m_rows X)) c (dsm t c (sm t c (ent X)) (ent dY))) i j = S_ c (fun k => nth k (nth i (m_rows dY) []) 0 * (softmax_at t (nth i (m_rows X) []) k * ((if Nat.eqb k j then 1 else 0) - softmax_at t (nth i (m_rows X) []) j) / t))).
  rewrite ent_mk by assumption. rewrite (softmax_at_sm c X t i j HX Hi Hj).
  rewrite (S_ext c _ (fun k => (if Nat.eqb k j then sm t c (ent X) i j * (ent dY i j / t) else 0) - sm t c (ent X) i j * (sm t c (ent X) i k * (ent dY i k / t)))).
  - rewrite S_minus, S_scale. unfold dsm. f_equal.
    assert (K : forall n m v, (m < n)%nat -> S_ n (fun k => if Nat.eqb k m then v else 0) = v).
    { induction n as [|n IH]; intros m v Hm; [lia|]. rewrite S_S. destruct m as [|m]; cbn [Nat.eqb].
      - rewrite S_zero. ring.
      - rewrite IH by lia. ring. }
    now rewrite K.
  - intros k Hk. rewrite (softmax_at_sm c X t i k HX Hi Hk). change (nth k (nth i (m_rows dY) []) 0) with (ent dY i k). destruct (Nat.eqb_spec k j) as [->|N]; unfold Rdiv; ring.
Qed.
