(** softmax over sequences. *)
From Coq Require Import Reals Lra Lia.
From Verif Require Import ReduceProofs ReduceFirstProofs.
From Verif Require Import CombModel CombSpec DenseModel DenseSpec ActModel ActSpec SoftModel SoftSpec.
From Verif Require Import MatProofs BaseFacts CombProofs CombDiffProofs CombBuiltProofs MkProofs LinearProofs ActLayerProofs DenseProofs ActProofs SoftProofs.
Set Default Goal Selector "!".
Local Open Scope R_scope.
Local Notation nonneg := ReduceSpec.nonneg.

Lemma S_app n m f : S_ (n + m) f = S_ n f + S_ m (fun k => f (n + k)%nat).
Proof. unfold S_. rewrite vec_app, msum_app. reflexivity. Qed.
(** The sequence a row belongs to *)
Fixpoint sid (lens : list nat) (i : nat) : nat :=
  match lens with [] => 0 | n :: l => if (i <? n)%nat then 0 else S (sid l (i - n)) end.
Definition same_seq (lengths : list Z) (i k : nat) : bool := Nat.eqb (sid (map Z.to_nat lengths) i) (sid (map Z.to_nat lengths) k).
Definition group (lengths : list Z) (r : nat) (f : nat -> R) (i : nat) : R := S_ r (fun k => if same_seq lengths i k then f k else 0).

Lemma same_head len l i k n : Z.to_nat len = n -> same_seq (len :: l) i k =
  (if (i <? n)%nat then (k <? n)%nat else if (k <? n)%nat then false else same_seq l (i - n) (k - n)).
Proof. intros <-. unfold same_seq. cbn [map sid]. destruct (i <? Z.to_nat len)%nat, (k <? Z.to_nat len)%nat; reflexivity. Qed.
Lemma group_head len l n r f i : Z.to_nat len = n -> (i < n)%nat -> group (len :: l) (n + r) f i = S_ n f.
Proof.
  intros E Hi. unfold group. rewrite S_app. rewrite (S_ext n _ f); [rewrite (S_ext r _ (fun _ => 0)); [rewrite S_zero; ring|]|].
  - intros k _. rewrite (same_head _ _ _ _ n E). rewrite (proj2 (Nat.ltb_lt _ _) Hi). now rewrite (proj2 (Nat.ltb_ge (n + k) n) ltac:(lia)).
  - intros k Hk. rewrite (same_head _ _ _ _ n E). rewrite (proj2 (Nat.ltb_lt _ _) Hi). now rewrite (proj2 (Nat.ltb_lt _ _) Hk).
Qed.
Lemma group_tail len l n r f i : Z.to_nat len = n -> group (len :: l) (n + r) f (n + i) = group l r (fun k => f (n + k)%nat) i.
Proof.
  intros E. unfold group. rewrite S_app. rewrite (S_ext n _ (fun _ => 0)); [rewrite S_zero, Rplus_0_l; apply S_ext|].
  - intros k _. rewrite (same_head _ _ _ _ n E). rewrite (proj2 (Nat.ltb_ge (n + i) n) ltac:(lia)), (proj2 (Nat.ltb_ge (n + k) n) ltac:(lia)).
    now replace (n + i - n)%nat with i by lia; replace (n + k - n)%nat with k by lia.
  - intros k Hk. rewrite (same_head _ _ _ _ n E). rewrite (proj2 (Nat.ltb_ge (n + i) n) ltac:(lia)). now rewrite (proj2 (Nat.ltb_lt _ _) Hk).
Qed.
Lemma firstn_vec {A} n m (f : nat -> A) : firstn n (vec (n + m) f) = vec n f.
Proof. rewrite vec_app. rewrite firstn_app, vec_length, Nat.sub_diag. cbn [firstn]. rewrite app_nil_r. apply firstn_all2. rewrite vec_length. lia. Qed.
Lemma skipn_vec {A} n m (f : nat -> A) : skipn n (vec (n + m) f) = vec m (fun k => f (n + k)%nat).
Proof. rewrite vec_app. rewrite skipn_app, vec_length, Nat.sub_diag. cbn [skipn]. rewrite skipn_all2; [reflexivity|]. rewrite vec_length. lia. Qed.
Lemma split_sum len l r : nonneg (len :: l) -> zsum (len :: l) = Z.of_nat r -> exists r', nonneg l /\ (r = Z.to_nat len + r')%nat /\ zsum l = Z.of_nat r'.
Proof.
  intros Hn E. inversion Hn as [|? ? H0 Hn']; subst. pose proof (zsum_nonneg l Hn'). cbn [zsum fold_right] in E. fold (zsum l) in E. exists (r - Z.to_nat len)%nat. repeat split; [exact Hn'|lia|lia].
Qed.
Lemma spread_rows lengths c : nonneg lengths -> forall r (f : nat -> nat -> R), zsum lengths = Z.of_nat r ->
  back_rows scale1 (map (colsum c) (seqs_of lengths (vec r (fun i => vec c (fun j => f i j))))) lengths
  = vec r (fun i => vec c (fun j => group lengths r (fun k => f k j) i)).
Proof.
  induction lengths as [|len l IH]; intros Hn r f E.
  - destruct r; [reflexivity|]. cbn in E. lia.
  - destruct (split_sum len l r Hn E) as (r' & Hn' & -> & E'). set (n := Z.to_nat len) in *. unfold seqs_of. cbn [map chop]. fold n. rewrite firstn_vec, skipn_vec.
    fold (seqs_of l (vec r' (fun k => vec c (fun j => f (n + k)%nat j)))). unfold back_rows. cbn [combine map concat fst snd].
    fold (back_rows scale1 (map (colsum c) (seqs_of l (vec r' (fun k => vec c (fun j => f (n + k)%nat j))))) l). fold n.
    rewrite (IH Hn' r' (fun k j => f (n + k)%nat j) E'). rewrite (vec_app n r'). f_equal.
    + rewrite repeat_vec. apply vec_ext. intros i Hi. rewrite colsum_vec, map_vec. apply vec_ext. intros j Hj. rewrite group_head by (try reflexivity; exact Hi).
      unfold scale1, col. rewrite map_vec. cbn [nZ num_R]. rewrite Rmult_1_l. apply S_ext. intros k _. now rewrite nth_vec.
    + apply vec_ext. intros i Hi. apply vec_ext. intros j Hj. now rewrite group_tail.
Qed.
Lemma spread_mk (numpy : bool) lengths r c (f : nat -> nat -> R) : nonneg lengths -> zsum lengths = Z.of_nat r -> (numpy = true -> r <> 0%nat) ->
  (let* s := reduce_sum numpy (mk r c f) lengths in backprop_reduce_sum numpy s lengths) = Ok (mk r c (fun i j => group lengths r (fun k => f k j) i)).
Proof.
  intros Hn E Hr. assert (L : m_len (mk r c f) = r) by apply mk_rows.
  destruct (sum_ok (mk r c f) lengths (mk_wf r c f) Hn) as [S1 S2]; [rewrite L; lia|].
  assert (RS : reduce_sum numpy (mk r c f) lengths = Ok (mkM c (map (colsum c) (seqs_of lengths (m_rows (mk r c f)))))).
  { destruct numpy; [|exact S1]. apply S2. rewrite m_rows_mk. destruct r; [now destruct Hr|]. rewrite vec_S. discriminate. }
  rewrite RS. cbn [bind]. rewrite m_rows_mk. set (s := mkM c _).
  assert (Ls : m_len s = length lengths). { unfold s, m_len. cbn [m_rows]. rewrite map_length. unfold seqs_of. clear. generalize (vec r (fun i => vec c (fun j => f i j))). induction lengths as [|a l IH]; intros v; [reflexivity|]. cbn. f_equal. apply IH. }
  assert (Ws : wf_mat s). { unfold s, wf_mat. cbn [m_rows m_cols]. apply Forall_forall. intros x Hx. apply in_map_iff in Hx as (y & <- & _). apply colsum_length. }
  assert (B : backprop_reduce_sum numpy s lengths = Ok (mkM (m_cols s) (back_rows scale1 (m_rows s) lengths))).
  { destruct numpy; [now apply np_back_ok|now apply op_back_sum]. }
  rewrite B. unfold s. cbn [m_cols m_rows]. f_equal. apply mkM_eq. now apply spread_rows.
Qed.

(** ** The forward pass *)
Definition ec (x : R) : R := exp (clamp (-20) 20 x).
Definition ss (lengths : list Z) (r : nat) (x : nat -> nat -> R) (i j : nat) : R := ec (x i j) / group lengths r (fun k => ec (x k j)) i.
Lemma sequences_mk numpy lengths r c (x : nat -> nat -> R) : nonneg lengths -> zsum lengths = Z.of_nat r -> (numpy = true -> r <> 0%nat) ->
  softmax_sequences numpy (mk r c x) lengths = Ok (mk r c (ss lengths r x)).
Proof.
  intros Hn E Hr. unfold softmax_sequences. rewrite mmap_mk. pose proof (spread_mk numpy lengths r c (fun i j => nexp (clip (nZ (-20)) (nZ 20) (x i j))) Hn E Hr) as SP.
  destruct (reduce_sum numpy _ lengths) as [s|]; cbn [bind] in *; [|discriminate]. rewrite SP. cbn [bind]. unfold miop. rewrite mbin_same. cbn [bind]. rewrite mshape_mk, !Nat.eqb_refl. cbn [andb].
  f_equal. apply mk_ext. intros i j _ _. unfold ss, ec. cbn [ndiv num_R]. unfold Rdiv. apply f_equal2; [now rewrite clip_is by lra|]. apply f_equal. unfold group. apply S_ext. intros k _. now rewrite clip_is by lra.
Qed.
Lemma group_pos lengths r f i : (i < r)%nat -> (forall k, 0 < f k) -> 0 < group lengths r f i.
Proof.
  intros Hi Hf. unfold group.
  assert (H : forall n g, (forall k, 0 <= g k) -> 0 <= S_ n g). { clear. induction n as [|n IH]; intros g Hg; [cbn; lra|]. rewrite S_S. specialize (Hg 0%nat) as H0. specialize (IH (fun k => g (S k)) (fun k => Hg (S k))). lra. }
  assert (P : forall n (g : nat -> R) i, (forall k, 0 <= g k) -> (i < n)%nat -> 0 < g i -> 0 < S_ n g).
  { clear -H. induction n as [|n IH]; intros g i Hg Hi Hp; [lia|]. rewrite S_S. destruct i as [|i].
    - specialize (H n (fun k => g (S k)) (fun k => Hg (S k))). lra.
    - specialize (IH (fun k => g (S k)) i (fun k => Hg (S k)) ltac:(lia) Hp). specialize (Hg 0%nat). lra. }
  apply (P r _ i); [|exact Hi|].
  - intros k. destruct (same_seq lengths i k); [left; apply Hf|lra].
  - unfold same_seq. rewrite Nat.eqb_refl. apply Hf.
Qed.
Lemma same_sym lengths i k : same_seq lengths i k = same_seq lengths k i.
Proof. apply Nat.eqb_sym. Qed.
Lemma group_same lengths r f i k : same_seq lengths i k = true -> group lengths r f i = group lengths r f k.
Proof. intros H. unfold group. apply S_ext. intros l _. unfold same_seq in *. apply Nat.eqb_eq in H. now rewrite H. Qed.
Lemma ec_pos x : 0 < ec x. Proof. apply exp_pos. Qed.
Lemma ec_der x : -20 < x < 20 -> derivable_pt_lim ec x (ec x).
Proof.
  intros H. apply (der_local _ exp x (-20) 20 _ H).
  - intros z Hz. unfold ec. rewrite clamp_mid; [reflexivity|lra].
  - unfold ec. rewrite clamp_mid by lra. apply derivable_pt_lim_exp.
Qed.

(** ** The derivative *)
Lemma der_ss lengths r (k : nat -> nat -> jet) (x : nat -> nat -> R) i j : (i < r)%nat ->
  (forall i, (i < r)%nat -> smooth (k i j)) -> (forall i, (i < r)%nat -> at_time 0 (k i j) = x i j) -> (forall i, (i < r)%nat -> -20 < x i j < 20) ->
  derivable_pt_lim (fun s => ss lengths r (fun i j => at_time s (k i j)) i j) 0
    (ss lengths r x i j * (velocity (k i j) - group lengths r (fun l => ss lengths r x l j * velocity (k l j)) i)).
Proof.
  intros Hi SK HK HX. assert (DE : forall l, (l < r)%nat -> derivable_pt_lim (fun s => ec (at_time s (k l j))) 0 (ec (x l j) * velocity (k l j))).
  { intros l Hl. apply (derivable_pt_lim_comp (fst (k l j)) ec); [now apply SK|]. change (fst (k l j) 0) with (at_time 0 (k l j)). rewrite HK by exact Hl. apply ec_der. now apply HX. }
  pose proof (group_pos lengths r (fun k => ec (x k j)) i Hi (fun k => ec_pos (x k j))) as P.
  assert (E0 : group lengths r (fun l => ec (at_time 0 (k l j))) i = group lengths r (fun l => ec (x l j)) i).
  { unfold group. apply S_ext. intros l Hl. now rewrite HK. }
  eapply der_eq.
  - apply (derivable_pt_lim_div (fun s => ec (at_time s (k i j))) (fun s => group lengths r (fun l => ec (at_time s (k l j))) i)).
    + apply (DE i Hi).
    + apply (der_S r (fun l s => if same_seq lengths i l then ec (at_time s (k l j)) else 0) (fun l => if same_seq lengths i l then ec (x l j) * velocity (k l j) else 0) 0).
      intros l Hl. destruct (same_seq lengths i l); [now apply DE|apply derivable_pt_lim_const].
    + rewrite E0. lra.
  - rewrite E0, HK by exact Hi. unfold ss. set (Z := group lengths r (fun l => ec (x l j)) i) in *.
    assert (Q : group lengths r (fun l => ec (x l j) / group lengths r (fun k0 => ec (x k0 j)) l * velocity (k l j)) i = S_ r (fun l => if same_seq lengths i l then ec (x l j) * velocity (k l j) else 0) * / Z).
    { unfold group at 1. rewrite <- S_scale_r. apply S_ext. intros l _. destruct (same_seq lengths i l) eqn:Es; [|ring]. rewrite <- (group_same lengths r (fun k0 => ec (x k0 j)) i l Es). fold Z. unfold Rdiv. ring. }
    rewrite Q. unfold Rsqr. field. lra.
Qed.
Definition dss (lengths : list Z) (r : nat) (y d : nat -> nat -> R) (i j : nat) : R := y i j * d i j - y i j * group lengths r (fun k => y k j * d k j) i.
Lemma seq_back_mk numpy lengths r c (y d : nat -> nat -> R) : nonneg lengths -> zsum lengths = Z.of_nat r -> (numpy = true -> r <> 0%nat) ->
  backprop_softmax_sequences numpy (mk r c d) (mk r c y) lengths = Ok (mk r c (dss lengths r y d)).
Proof.
  intros Hn E Hr. unfold backprop_softmax_sequences. rewrite mbin_same. cbn [bind]. pose proof (spread_mk numpy lengths r c (fun i j => nmul (y i j) (d i j)) Hn E Hr) as SP.
  destruct (reduce_sum numpy _ lengths) as [s|]; cbn [bind] in *; [|discriminate]. rewrite SP. cbn [bind]. rewrite mbin_same. cbn [bind]. unfold miop. rewrite mbin_same. cbn [bind].
  rewrite mshape_mk, !Nat.eqb_refl. reflexivity.
Qed.
Lemma sequences_mk_ok numpy lengths tr theta r c (x : nat -> nat -> R) : nonneg lengths -> zsum lengths = Z.of_nat r -> (numpy = true -> r <> 0%nat) ->
  (forall i j, (i < r)%nat -> (j < c)%nat -> -20 < x i j < 20) ->
  differentiates (sequences_op numpy lengths) tr theta (Arr2 (mk r c x)) (Arr2 (mk r c (ss lengths r x))).
Proof.
  intros Hn E Hr HX. eexists. split; [unfold sequences_op; cbn [as_mat bind]; rewrite sequences_mk by assumption; reflexivity|]. split; [apply mk_wf|].
  intros dY g LdY Lg. apply like_mk_inv in LdY as (d & ->). cbn [as_mat bind]. rewrite seq_back_mk by assumption. cbn [bind].
  eexists _, g. split; [reflexivity|]. split; [apply like_mk|]. split; [exact Lg|].
  intros P K HP HK SP SK. apply curve_mk in HK as (k & -> & Hk). rewrite smooth_mk in SK.
  exists (Arr2 (mk r c (fun i j => ((fun s => ss lengths r (fun i j => at_time s (k i j)) i j), ss lengths r x i j * (velocity (k i j) - group lengths r (fun l => ss lengths r x l j * velocity (k l j)) i)) : jet))).
  split; [|split].
  - rewrite smooth_mk. intros i j Hi Hj. unfold smooth. cbn [fst snd]. apply der_ss; [exact Hi| | |]; intros l Hl; [now apply SK|now apply Hk|now apply HX].
  - intros s. rewrite !vmap_mk. eexists. unfold sequences_op. cbn [as_mat bind]. rewrite sequences_mk by assumption. reflexivity.
  - rewrite !vmap_mk, !inner_mk. rewrite Rminus_diag_eq by reflexivity. rewrite Rplus_0_r. rewrite S_swap, (S_swap r c). apply S_ext. intros j _. cbn [velocity snd].
    set (y := fun i => ss lengths r x i j). set (v := fun l => velocity (k l j)). set (e := fun i => d i j).
    change (S_ r (fun i => e i * (y i * (v i - group lengths r (fun l => y l * v l) i))) = S_ r (fun i => (y i * e i - y i * group lengths r (fun l => y l * e l) i) * v i)).
    rewrite (S_ext r (fun i => e i * _) (fun i => e i * y i * v i - S_ r (fun l => if same_seq lengths i l then e i * y i * (y l * v l) else 0))).
    2: { intros i _. replace (S_ r (fun l => if same_seq lengths i l then e i * y i * (y l * v l) else 0)) with (e i * y i * group lengths r (fun l => y l * v l) i); [ring|].
         unfold group. rewrite <- S_scale. apply S_ext. intros l _. destruct (same_seq lengths i l); ring. }
    rewrite (S_ext r (fun i => (y i * e i - _) * v i) (fun i => e i * y i * v i - S_ r (fun l => if same_seq lengths i l then e l * y l * (y i * v i) else 0))).
    2: { intros i _. replace (S_ r (fun l => if same_seq lengths i l then e l * y l * (y i * v i) else 0)) with (y i * v i * group lengths r (fun l => y l * e l) i); [ring|].
         unfold group. rewrite <- S_scale. apply S_ext. intros l _. destruct (same_seq lengths i l); ring. }
    rewrite !S_minus. f_equal. rewrite S_swap. apply S_ext. intros l _. apply S_ext. intros i _. now rewrite same_sym.
Qed.

(** ** In the words of the specification *)
Lemma sequence_rows lengths c : nonneg lengths -> forall r (x : nat -> nat -> R), zsum lengths = Z.of_nat r ->
  concat (map (sequence_softmax c) (seqs_of lengths (vec r (fun i => vec c (fun j => x i j))))) = vec r (fun i => vec c (fun j => ss lengths r x i j)).
Proof.
  induction lengths as [|len l IH]; intros Hn r x E.
  - destruct r; [reflexivity|]. cbn in E. lia.
  - destruct (split_sum len l r Hn E) as (r' & Hn' & -> & E'). set (n := Z.to_nat len) in *. unfold seqs_of. cbn [map chop]. fold n. rewrite firstn_vec, skipn_vec.
    fold (seqs_of l (vec r' (fun k => vec c (fun j => x (n + k)%nat j)))). cbn [concat]. rewrite (IH Hn' r' (fun k j => x (n + k)%nat j) E'). rewrite (vec_app n r'). f_equal.
    + unfold sequence_softmax. rewrite map_vec. apply vec_ext. intros i Hi. apply vec_ext. intros j Hj. unfold ss. rewrite group_head by (try reflexivity; exact Hi).
      rewrite nth_vec by exact Hj. rewrite map_vec. unfold ec. f_equal. apply S_ext. intros k _. now rewrite nth_vec.
    + apply vec_ext. intros i Hi. apply vec_ext. intros j Hj. unfold ss. now rewrite group_tail.
Qed.
Lemma sequences_spec c lengths X : input_of c X -> nonneg lengths -> zsum lengths = Z.of_nat (length (m_rows X)) ->
  mkM c (concat (map (sequence_softmax c) (seqs_of lengths (m_rows X)))) = mk (length (m_rows X)) c (ss lengths (length (m_rows X)) (ent X)).
Proof.
  intros HX Hn E. apply mkM_eq. rewrite (as_mk c X HX) at 1. rewrite m_rows_mk. now apply sequence_rows.
Qed.
Lemma sequences_ok numpy c lengths X : input_of c X -> nonneg lengths -> zsum lengths = Z.of_nat (length (m_rows X)) -> (numpy = true -> m_rows X <> []) ->
  softmax_sequences numpy X lengths = Ok (mkM c (concat (map (sequence_softmax c) (seqs_of lengths (m_rows X))))).
Proof.
  intros HX Hn E Hr. rewrite (sequences_spec c lengths X HX Hn E). rewrite (as_mk c X HX) at 1. apply sequences_mk; [exact Hn|exact E|].
  intros N. specialize (Hr N). destruct (m_rows X); [congruence|discriminate].
Qed.
Lemma sequences_diff numpy c lengths tr theta X : input_of c X -> nonneg lengths -> zsum lengths = Z.of_nat (length (m_rows X)) -> (numpy = true -> m_rows X <> []) ->
  Forall (Forall (fun a => -20 < a < 20)) (m_rows X) ->
  differentiates (sequences_op numpy lengths) tr theta (Arr2 X) (Arr2 (mkM c (concat (map (sequence_softmax c) (seqs_of lengths (m_rows X)))))).
Proof.
  intros HX Hn E Hr HB. rewrite (sequences_spec c lengths X HX Hn E). rewrite (as_mk c X HX) at 1. apply sequences_mk_ok; [exact Hn|exact E| |].
  - intros N. specialize (Hr N). destruct (m_rows X); [congruence|discriminate].
  - intros i j Hi Hj. rewrite Forall_forall in HB. specialize (HB _ (in_rows X i Hi)). rewrite Forall_forall in HB. apply HB. unfold ent. apply nth_In.
    destruct HX as [W C]. unfold wf_mat in W. rewrite Forall_forall in W. rewrite (W _ (in_rows X i Hi)), C. exact Hj.
Qed.
Lemma sequence_distribution c s : s <> [] -> forall j, (j < c)%nat -> distribution (col 0 j (sequence_softmax c s)).
Proof.
  intros Hs j Hj. unfold col, sequence_softmax. rewrite map_map. set (Z := msum (map (fun r => exp (clamp (-20) 20 (nth j r 0))) s)).
  assert (PZ : 0 < Z). { unfold Z. pose proof (msum_exp_pos (map (fun r => clamp (-20) 20 (nth j r 0)) s)) as P. rewrite map_map in P. apply P. destruct s; [congruence|discriminate]. }
  rewrite (map_ext _ (fun r => / Z * exp (clamp (-20) 20 (nth j r 0)))).
  2: { intros r. fold (vec c (fun j => exp (clamp (-20) 20 (nth j r 0)) / msum (map (fun r0 => exp (clamp (-20) 20 (nth j r0 0))) s))). rewrite nth_vec by exact Hj. fold Z. unfold Rdiv. ring. }
  split.
  - apply Forall_forall. intros p Hp. apply in_map_iff in Hp as (r & <- & _). apply Rmult_lt_0_compat; [now apply Rinv_0_lt_compat|apply exp_pos].
  - rewrite msum_scale. fold Z. field. lra.
Qed.

(** ** The Softmax layer *)
Lemma cross_mk r c (t y : nat -> nat -> R) : cross_entropy (mk r c t) (mk r c y) = - S_ r (fun i => S_ c (fun j => t i j * ln (y i j))).
Proof.
  unfold cross_entropy. rewrite !m_rows_mk, combine_vec, map_vec. f_equal. apply S_ext. intros i _. cbn [fst snd]. rewrite combine_vec, map_vec. reflexivity.
Qed.
Lemma softmax_layer_fwd n t nO nI wo bo tr theta r (x : nat -> nat -> R) : 0 < t -> nO <> 0%nat -> (n || tr)%bool = true ->
  (wo + nO * nI <= length theta)%nat -> (bo + nO <= length theta)%nat ->
  exists b bL, Softmax n t nO nI wo bo tr theta (Arr2 (mk r nI x)) = Ok (Arr2 (mk r nO (sm t nO (lin theta wo bo nI x))), b) /\
    Linear nO nI wo bo tr theta (Arr2 (mk r nI x)) = Ok (Arr2 (mk r nO (lin theta wo bo nI x)), bL) /\
    forall d g, b (Arr2 (mk r nO d)) g = bL (Arr2 (mk r nO (fun i j => d i j / t))) g.
Proof.
  intros Ht Hn Htr Hw Hb. pose proof (linear_fwd nO nI wo bo tr theta r x Hw Hb) as EL. unfold Linear in EL. unfold Softmax, Linear. rewrite Htr. rewrite (proj2 (nltb_R (nZ 0) t)) by (cbn; lra).
  destruct (get_param2 theta wo nO nI) as [W|]; cbn [bind] in *; [|discriminate]. destruct (get_param1 theta bo nO) as [b|]; cbn [bind as_mat] in *; [|discriminate]. unfold affine.
  destruct (gemm (mk r nI x) W false true) as [Y0|]; cbn [bind] in *; [|discriminate]. destruct (miadd Y0 (as_row b)) as [Y|]; cbn [bind] in *; [|discriminate].
  assert (EY : Y = mk r nO (lin theta wo bo nI x)) by (apply (f_equal (fun z => match z with Ok (Arr2 y, _) => y | _ => mkM 0 [] end)) in EL; exact EL). rewrite EY.
  rewrite softmax_mk by (try lra; exact Hn). cbn [bind]. eexists _, _. split; [reflexivity|]. split; [reflexivity|]. intros d g. cbn [as_mat bind].
  rewrite mshape_mk, !Nat.eqb_refl. cbn [andb]. rewrite temper by lra. reflexivity.
Qed.
Lemma wcross_mk r c w (t y : nat -> nat -> R) : weighted_cross_entropy (vec r w) (mk r c t) (mk r c y) = - S_ r (fun i => w i * S_ c (fun j => t i j * ln (y i j))).
Proof.
  unfold weighted_cross_entropy. rewrite !m_rows_mk, !combine_vec, map_vec. f_equal. apply S_ext. intros i _. cbn [fst snd]. f_equal. rewrite combine_vec, map_vec. reflexivity.
Qed.
Lemma vec_of_nth (w : list R) : w = vec (length w) (fun i => nth i w 0).
Proof. apply vec_of_len. reflexivity. Qed.
Lemma softmax_weighted n t nO nI wo bo tr theta X T w dY : 0 < t -> nO <> 0%nat -> (n || tr)%bool = true -> input_of nI X -> room wo (nO * nI) theta -> room bo nO theta ->
  input_of nO T -> length (m_rows T) = length (m_rows X) -> Forall (fun p => msum p = 1) (m_rows T) -> length w = length (m_rows X) ->
  let Y := by_row nO (fun x => softmax_at t (map (affine_at theta wo bo nI x) (seq 0 nO))) X in
  input_of nO dY -> length (m_rows dY) = length (m_rows X) ->
  (forall i j, (i < length (m_rows X))%nat -> (j < nO)%nat -> nth j (nth i (m_rows dY) []) 0 = nth i w 0 * (nth j (nth i (m_rows Y) []) 0 - nth j (nth i (m_rows T) []) 0)) ->
  exists b, Softmax n t nO nI wo bo tr theta (Arr2 X) = Ok (Arr2 Y, b) /\
  forall g, length g = length theta ->
  exists dX g', b (Arr2 dY) g = Ok (dX, g') /\ CombSpec.like dX (Arr2 X) /\ length g' = length theta /\
  forall (P : list jet) (K : value jet) (Ys : R -> mat R),
    map (at_time 0) P = theta -> vmap (at_time 0) K = Arr2 X -> Forall smooth P -> Forall smooth (leaves K) ->
    (forall s, exists b', Softmax n t nO nI wo bo tr (map (at_time s) P) (vmap (at_time s) K) = Ok (Arr2 (Ys s), b')) ->
    derivable_pt_lim (fun s => weighted_cross_entropy w T (Ys s)) 0
      (inner dX (vmap velocity K) + (dot g' (map velocity P) - dot g (map velocity P))).
Proof.
  intros Ht Hn Htr HX Hw Hb HT HL HD Lw Y HdY LdY EdY. set (r := length (m_rows X)). set (x := ent X). set (tt := ent T). set (ww := fun i => nth i w 0).
  assert (EX : X = mk r nI x) by (apply as_mk; exact HX). assert (ET : T = mk r nO tt) by (unfold r; rewrite <- HL; apply as_mk; exact HT).
  assert (EY : Y = mk r nO (sm t nO (lin theta wo bo nI x))).
  { unfold Y. rewrite by_row_mk. apply mk_ext. intros i j Hi Hj. unfold softmax_at, sm.
    assert (EV : map (affine_at theta wo bo nI (nth i (m_rows X) [])) (seq 0 nO) = vec nO (fun l => lin theta wo bo nI x i l)).
    { apply vec_ext. intros l Hl. now apply (affine_lin nI X HX theta wo bo nO). }
    rewrite EV, nth_vec by exact Hj. rewrite map_vec. reflexivity. }
  assert (TS : forall i, (i < r)%nat -> S_ nO (tt i) = 1).
  { intros i Hi. rewrite Forall_forall in HD. specialize (HD (nth i (m_rows T) []) ltac:(apply nth_In; unfold r in Hi; lia)). rewrite ET in HD. rewrite m_rows_mk, nth_vec in HD by exact Hi. exact HD. }
  destruct (softmax_layer_fwd n t nO nI wo bo tr theta r x Ht Hn Htr Hw Hb) as (b & bL & E1 & E2 & EB). 
  assert (ED : dY = mk r nO (fun i j => ww i * (sm t nO (lin theta wo bo nI x) i j - tt i j))).
  { rewrite (as_mk nO dY HdY). rewrite LdY. fold r. apply mk_ext. intros i j Hi Hj. unfold ent. cbn [nZ num_R]. rewrite EdY by assumption. rewrite EY. rewrite m_rows_mk, !nth_vec by assumption. reflexivity. }
  assert (EW : w = vec r ww) by (unfold r, ww; rewrite <- Lw; apply vec_of_nth).
  rewrite ED. clear EdY LdY HdY ED. clearbody ww. rewrite EX, EY, ET, EW in *. clear Lw.
  exists b. split; [exact E1|]. intros g Lg. rewrite EB.
  destruct (linear_mk_ok nO nI wo bo tr theta r x Hw Hb) as (bL' & E2' & _ & D). rewrite E2 in E2'. assert (bL' = bL) by congruence. subst bL'.
  destruct (D (Arr2 (mk r nO (fun i j => ww i * (sm t nO (lin theta wo bo nI x) i j - tt i j) / t))) g (like_mk _ _ _ _) Lg) as (dX & g' & Eb & L1 & L2 & D').
  exists dX, g'. split; [exact Eb|]. split; [exact L1|]. split; [exact L2|]. intros P K Ys HP HK SP SK HY.
  destruct (D' P K HP HK SP SK) as (K' & SK' & HA & HI). rewrite <- HI.
  assert (HK' : vmap (at_time 0) K' = Arr2 (mk r nO (lin theta wo bo nI x))).
  { destruct (HA 0) as (b' & E'). rewrite HP, HK, E2 in E'. congruence. }
  apply curve_mk in HK' as (k' & -> & Hk'). rewrite smooth_mk in SK'. apply curve_mk in HK as (k & -> & Hk).
  assert (LP : length P = length theta) by (rewrite <- HP; now rewrite map_length).
  assert (HYs : forall s, Ys s = mk r nO (sm t nO (fun i j => at_time s (k' i j)))).
  { intros s. destruct (HY s) as (b1 & E'). destruct (HA s) as (b2 & E''). rewrite !vmap_mk in *.
    destruct (softmax_layer_fwd n t nO nI wo bo tr (map (at_time s) P) r (fun i j => at_time s (k i j)) Ht Hn Htr) as (b3 & b4 & F1 & F2 & _); [unfold room in *; rewrite map_length, LP; assumption..|].
    rewrite F1 in E'. rewrite F2 in E''. assert (F3 : mk r nO (lin (map (at_time s) P) wo bo nI (fun i j => at_time s (k i j))) = mk r nO (fun i j => at_time s (k' i j))) by congruence.
    assert (F4 : Ys s = mk r nO (sm t nO (lin (map (at_time s) P) wo bo nI (fun i j => at_time s (k i j))))) by congruence. rewrite F4. apply mk_ext. intros i j Hi Hj.
    pose proof (mk_inj _ _ _ _ F3) as F5. unfold sm. rewrite (F5 i j Hi Hj). f_equal. apply S_ext. intros l Hl. now rewrite (F5 i l Hi Hl). }
  set (y := sm t nO (lin theta wo bo nI x)).
  apply (der_local _ (fun s => - S_ r (fun i => ww i * S_ nO (fun j => tt i j * ln (sm t nO (fun i j => at_time s (k' i j)) i j)))) 0 (-1) 1); [lra|intros s _; rewrite HYs; apply wcross_mk|].
  eapply der_eq.
  - apply (derivable_pt_lim_opp (fun s => S_ r (fun i => ww i * S_ nO (fun j => tt i j * ln (sm t nO (fun i j => at_time s (k' i j)) i j))))).
    apply (der_S r (fun i s => ww i * S_ nO (fun j => tt i j * ln (sm t nO (fun i j => at_time s (k' i j)) i j)))
      (fun i => ww i * S_ nO (fun j => 0 * ln (y i j) + tt i j * (/ y i j * (y i j * (velocity (k' i j) - S_ nO (fun l => y i l * velocity (k' i l))) / t))))).
    intros i Hi. apply (derivable_pt_lim_scal (fun s => S_ nO (fun j => tt i j * ln (sm t nO (fun i j => at_time s (k' i j)) i j))) (ww i)). apply (der_S nO (fun j s => tt i j * ln (sm t nO (fun i j => at_time s (k' i j)) i j)) (fun j => 0 * ln (y i j) + tt i j * (/ y i j * (y i j * (velocity (k' i j) - S_ nO (fun l => y i l * velocity (k' i l))) / t)))).
    intros j Hj. assert (Y0 : sm t nO (fun i j => at_time 0 (k' i j)) i j = y i j).
    { unfold y, sm. rewrite Hk' by assumption. f_equal. apply S_ext. intros l Hl. now rewrite Hk'. }
    rewrite <- Y0 at 1. apply (derivable_pt_lim_mult (fun _ => tt i j) (fun s => ln (sm t nO (fun i j => at_time s (k' i j)) i j))); [apply derivable_pt_lim_const|].
    apply (derivable_pt_lim_comp (fun s => sm t nO (fun i j => at_time s (k' i j)) i j) ln).
    + apply der_sm; [lra|exact Hn|exact Hj| |]; intros l Hl; [now apply SK'|now apply Hk'].
    + rewrite Y0. apply derivable_pt_lim_ln. now apply sm_pos.
  - rewrite !vmap_mk, !inner_mk.
    assert (EO : forall a b, a + b = 0 -> - a = b) by (intros; lra). apply EO. rewrite <- S_plus. rewrite (S_ext r _ (fun _ => 0)); [apply S_zero|]. intros i Hi.
    set (A := S_ nO (fun l => y i l * velocity (k' i l))).
    rewrite (S_ext nO (fun j => 0 * ln (y i j) + _) (fun j => tt i j * velocity (k' i j) * / t - tt i j * (A * / t))).
    2: { intros j Hj. assert (y i j <> 0) by (pose proof (sm_pos t nO (lin theta wo bo nI x) i j Hn); unfold y; lra). field. split; lra. }
    rewrite (S_ext nO (fun j => ww i * (y i j - tt i j) / t * velocity (k' i j)) (fun j => ww i * (y i j * velocity (k' i j) * / t - tt i j * velocity (k' i j) * / t))).
    2: { intros j _. cbn [nsub num_R]. unfold Rdiv. ring. }
    rewrite S_scale, !S_minus, !S_scale_r. fold A. change (S_ nO (fun i0 => tt i i0)) with (S_ nO (tt i)). rewrite TS by exact Hi. ring.
Qed.
Lemma nth_repeat_in (a d : R) n i : (i < n)%nat -> nth i (repeat a n) d = a.
Proof. revert i. induction n as [|n IH]; intros [|i] Hi; cbn; [lia|lia|reflexivity|]. apply IH. lia. Qed.
Lemma softmax_cross n t nO nI wo bo tr theta X T : 0 < t -> nO <> 0%nat -> (n || tr)%bool = true -> input_of nI X -> room wo (nO * nI) theta -> room bo nO theta ->
  input_of nO T -> length (m_rows T) = length (m_rows X) -> Forall (fun p => msum p = 1) (m_rows T) ->
  let Y := by_row nO (fun x => softmax_at t (map (affine_at theta wo bo nI x) (seq 0 nO))) X in
  exists b dY, Softmax n t nO nI wo bo tr theta (Arr2 X) = Ok (Arr2 Y, b) /\ mbin nsub Y T = Ok dY /\
  forall g, length g = length theta ->
  exists dX g', b (Arr2 dY) g = Ok (dX, g') /\ CombSpec.like dX (Arr2 X) /\ length g' = length theta /\
  forall (P : list jet) (K : value jet) (Ys : R -> mat R),
    map (at_time 0) P = theta -> vmap (at_time 0) K = Arr2 X -> Forall smooth P -> Forall smooth (leaves K) ->
    (forall s, exists b', Softmax n t nO nI wo bo tr (map (at_time s) P) (vmap (at_time s) K) = Ok (Arr2 (Ys s), b')) ->
    derivable_pt_lim (fun s => cross_entropy T (Ys s)) 0
      (inner dX (vmap velocity K) + (dot g' (map velocity P) - dot g (map velocity P))).
Proof.
  intros Ht Hn Htr HX Hw Hb HT HL HD Y. assert (HY : input_of nO Y).
  { unfold Y. rewrite by_row_mk. split; [apply mk_wf|reflexivity]. }
  assert (LY : length (m_rows Y) = length (m_rows X)) by (unfold Y; rewrite by_row_mk; apply mk_rows).
  assert (EM : mbin nsub Y T = Ok (mk (length (m_rows X)) nO (fun i j => ent Y i j - ent T i j))).
  { rewrite (as_mk nO Y HY), (as_mk nO T HT) at 1. rewrite LY, HL. apply mbin_same. }
  destruct (softmax_weighted n t nO nI wo bo tr theta X T (repeat 1 (length (m_rows X))) (mk (length (m_rows X)) nO (fun i j => ent Y i j - ent T i j))) as (b & E & D); try assumption.
  - apply repeat_length.
  - split; [apply mk_wf|reflexivity].
  - apply mk_rows.
  - intros i j Hi Hj. rewrite m_rows_mk, !nth_vec by assumption. rewrite nth_repeat_in by exact Hi. unfold ent. cbn [nZ num_R]. fold Y. ring.
  - exists b, (mk (length (m_rows X)) nO (fun i j => ent Y i j - ent T i j)). split; [exact E|]. split; [exact EM|]. intros g Lg. destruct (D g Lg) as (dX & g' & Eb & L1 & L2 & DD).
    exists dX, g'. split; [exact Eb|]. split; [exact L1|]. split; [exact L2|]. intros P K Ys HP HK SP SK HYs. specialize (DD P K Ys HP HK SP SK HYs).
    apply (der_local _ (fun s => weighted_cross_entropy (repeat 1 (length (m_rows X))) T (Ys s)) 0 (-1) 1); [lra| |exact DD]. intros s _. unfold cross_entropy, weighted_cross_entropy. f_equal.
    rewrite <- HL. clear. revert s. intros s. generalize (m_rows (Ys s)). induction (m_rows T) as [|a l IH]; intros v; [reflexivity|]. destruct v as [|b v]; [reflexivity|]. cbn [length repeat combine map fst snd]. rewrite !msum_cons. rewrite IH. ring.
Qed.
Lemma softmax_layer_errors n t nO nI wo bo tr (theta : list R) X : (t <= 0 -> Softmax n t nO nI wo bo tr theta X = Err ValueError) /\
  forall Y b, Softmax n t nO nI wo bo tr theta X = Ok (Y, b) -> (n || tr)%bool = false -> forall dY g, b dY g = Err ValueError.
Proof.
  unfold Softmax. split.
  - intros Ht. now rewrite (proj2 (nltb_R_f (nZ 0) t)) by (cbn; lra).
  - intros Y b E Hf dY g. rewrite Hf in E. destruct (nltb (nZ 0) t); [|discriminate].
    destruct (get_param2 theta wo nO nI); cbn [bind] in E; [|discriminate]. destruct (get_param1 theta bo nO); cbn [bind] in E; [|discriminate].
    destruct (as_mat X); cbn [bind] in E; [|discriminate]. destruct (affine _ _ _); cbn [bind] in E; [|discriminate]. injection E as _ <-. reflexivity.
Qed.

(** ** MultiSoftmax *)
Lemma columns_mk r c i n (f : nat -> nat -> R) : (i + n <= c)%nat -> columns i n (mk r c f) = mk r n (fun a b => f a (i + b)%nat).
Proof.
  intros H. unfold columns. cbn [m_cols mk]. rewrite Nat.min_l by lia. apply mkM_eq. rewrite m_rows_mk, map_vec. apply vec_ext. intros a _.
  replace c with (i + (n + (c - i - n)))%nat by lia. rewrite skipn_vec, firstn_vec. reflexivity.
Qed.
Lemma soften_ok nOs : forall i r c (f : nat -> nat -> R), Forall (fun n => n <> 0%nat) nOs -> (i + list_sum nOs <= c)%nat -> soften nOs i (mk r c f) = Ok tt.
Proof.
  induction nOs as [|n nOs IH]; intros i r c f Hn Hc; [reflexivity|]. inversion Hn; subst. cbn [soften list_sum fold_right] in *. fold (list_sum nOs) in Hc.
  rewrite columns_mk by lia. change (nZ 1) with 1. rewrite softmax_mk by (try lra; assumption). cbn [bind]. apply IH; [assumption|]. unfold list_sum in *. lia.
Qed.
Lemma multisoftmax_linear nOs nI wo bo tr theta X : input_of nI X -> room wo (list_sum nOs * nI) theta -> room bo (list_sum nOs) theta -> Forall (fun n => n <> 0%nat) nOs ->
  exists b, MultiSoftmax nOs nI wo bo tr theta (Arr2 X) = Ok (Arr2 (by_row (list_sum nOs) (affine_at theta wo bo nI) X), b).
Proof.
  intros HX Hw Hb Hn. set (nO := list_sum nOs) in *. pose proof (linear_fwd nO nI wo bo tr theta (length (m_rows X)) (ent X) Hw Hb) as EL.
  rewrite <- (as_mk nI X HX) in EL. unfold Linear in EL. unfold MultiSoftmax. fold nO.
  destruct (get_param2 theta wo nO nI) as [W|]; cbn [bind] in *; [|discriminate]. destruct (get_param1 theta bo nO) as [b|]; cbn [bind as_mat] in *; [|discriminate].
  destruct (gemm X W false true) as [Y0|]; cbn [bind] in *; [|discriminate]. destruct (miadd Y0 (as_row b)) as [Y|]; cbn [bind] in *; [|discriminate].
  assert (EY : Y = mk (length (m_rows X)) nO (lin theta wo bo nI (ent X))) by (apply (f_equal (fun z => match z with Ok (Arr2 y, _) => y | _ => mkM 0 [] end)) in EL; exact EL). rewrite EY.
  rewrite soften_ok; [cbn [bind]|exact Hn|fold nO; lia]. eexists. apply ok_fst. f_equal. rewrite by_row_mk. apply mk_ext. intros i j Hi Hj. symmetry. now apply (affine_lin nI X HX theta wo bo nO).
Qed.
(** The callback is that of Linear, up to the order in which the gradients are added. *)
Lemma dot_inj (a : list R) : forall b, length a = length b -> (forall p, length p = length a -> dot a p = dot b p) -> a = b.
Proof.
  induction a as [|x a IH]; intros [|y b] L H; try discriminate; [reflexivity|]. f_equal.
  - specialize (H (1 :: repeat 0 (length a)) ltac:(cbn; now rewrite repeat_length)). rewrite !dot_cons in H. assert (Z : forall (v : list R) n, dot v (repeat 0 n) = 0) by (intros; rewrite dot_comm; apply dot_zeros_l). rewrite !Z in H. lra.
  - apply IH; [now injection L|]. intros p Lp. specialize (H (0 :: p) ltac:(cbn; congruence)). rewrite !dot_cons in H. lra.
Qed.
Definition multi_back (nO nI wo bo r : nat) (theta : list R) (x : nat -> nat -> R) : mat R -> list R -> result (value R * list R) :=
  fun d g =>
    let* dW := gemm d (mk r nI x) true false in
    let* g := inc_grad g wo (concat (m_rows dW)) in
    let* g := inc_grad g bo (sum0 d) in
    let* dX := gemm d (mk nO nI (fun i j => par theta (wo + (i * nI + j)))) false false in
    Ok (Arr2 dX, g).
Lemma multi_fwd nOs nI wo bo tr theta r (x : nat -> nat -> R) : let nO := list_sum nOs in (wo + nO * nI <= length theta)%nat -> (bo + nO <= length theta)%nat -> Forall (fun n => n <> 0%nat) nOs ->
  MultiSoftmax nOs nI wo bo tr theta (Arr2 (mk r nI x)) =
  Ok (Arr2 (mk r nO (lin theta wo bo nI x)), fun dY g => let* d := as_mat dY in multi_back nO nI wo bo r theta x d g).
Proof.
  intros nO Hw Hb Hn. unfold MultiSoftmax. fold nO. rewrite get_param2_ok by exact Hw. cbn [bind]. rewrite get_param1_ok by exact Hb. cbn [bind as_mat].
  unfold gemm at 1. rewrite transpose_mk, matmul_mk. cbn [bind]. rewrite miadd_row. cbn [bind]. rewrite soften_ok; [|exact Hn|fold nO; lia]. cbn [bind]. reflexivity.
Qed.
Lemma multi_back_lin nO nI wo bo r theta (x d : nat -> nat -> R) g : (wo + nO * nI <= length g)%nat -> (bo + nO <= length g)%nat ->
  multi_back nO nI wo bo r theta x (mk r nO d) g = lin_back nO nI wo bo r theta x (mk r nO d) g.
Proof.
  intros Hw Hb. unfold multi_back, lin_back. rewrite sum0_mk. unfold gemm. rewrite transpose_mk, !matmul_mk. cbn [bind]. rewrite m_rows_mk.
  assert (EV : concat (vec nO (fun i => vec nI (fun j => nsum (vec r (fun k => (d k i * x k j)%num)))))
               = vec (nO * nI) (fun n => nsum (vec r (fun k => (d k (n / nI)%nat * x k (n mod nI)%nat)%num)))).
  { rewrite vec_concat. f_equal. apply vec_ext. intros i Hi. apply vec_ext. intros j Hj.
    replace ((i * nI + j) / nI)%nat with i; [replace ((i * nI + j) mod nI)%nat with j; [reflexivity|]|].
    - rewrite Nat.add_comm, Nat.mod_add by lia. now rewrite Nat.mod_small.
    - rewrite Nat.div_add_l by lia. rewrite Nat.div_small by exact Hj. lia. }
  rewrite EV.
  set (u := fun j : nat => nsum (vec r (fun i => d i j))). match goal with |- context [inc_grad g wo (vec ?n ?v)] => set (w := v) end.
  destruct (inc_grad_ok g wo (nO * nI) w ltac:(lia)) as (g1 & E1 & L1 & D1). destruct (inc_grad_ok g1 bo nO u ltac:(lia)) as (g2 & E2 & L2 & D2).
  destruct (inc_grad_ok g bo nO u ltac:(lia)) as (g3 & E3 & L3 & D3). destruct (inc_grad_ok g3 wo (nO * nI) w ltac:(lia)) as (g4 & E4 & L4 & D4).
  rewrite E1, E3. cbn [bind]. rewrite E2, E4. cbn [bind]. do 2 f_equal. apply dot_inj; [lia|]. intros p Lp. specialize (D1 p ltac:(lia)). specialize (D2 p ltac:(lia)). specialize (D3 p ltac:(lia)). specialize (D4 p ltac:(lia)). lra.
Qed.
Lemma diff_congr (L L2 : layer R) tr theta X Y : differentiates L tr theta X Y ->
  (forall th X', length th = length theta -> CombSpec.like X' X -> exists Y' b b2, L tr th X' = Ok (Y', b) /\ L2 tr th X' = Ok (Y', b2) /\ forall dY g, CombSpec.like dY Y' -> length g = length th -> b2 dY g = b dY g) ->
  differentiates L2 tr theta X Y.
Proof.
  intros (b & E & W & D) H. destruct (H theta X eq_refl eq_refl) as (Y' & b1 & b2 & E1 & E2 & Eb). rewrite E in E1. injection E1 as <- <-. exists b2. split; [exact E2|]. split; [exact W|].
  intros dY g LdY Lg. destruct (D dY g LdY Lg) as (dX & g' & EB & LX & Lg' & C). exists dX, g'. rewrite Eb by assumption. split; [exact EB|]. split; [exact LX|]. split; [exact Lg'|].
  intros P K HP HK SP SK. destruct (C P K HP HK SP SK) as (K' & SK' & HF & HI). exists K'. split; [exact SK'|]. split; [|exact HI]. intros s. destruct (HF s) as (bs & Es).
  destruct (H (map (at_time s) P) (vmap (at_time s) K)) as (Ys & c1 & c2 & F1 & F2 & _).
  - rewrite <- HP, !map_length. reflexivity.
  - rewrite <- HK. unfold CombSpec.like. now rewrite !vmap_vmap.
  - rewrite F1 in Es. injection Es as -> ->. eauto.
Qed.
Lemma multisoftmax_diff nOs nI wo bo tr theta X : input_of nI X -> room wo (list_sum nOs * nI) theta -> room bo (list_sum nOs) theta -> Forall (fun n => n <> 0%nat) nOs ->
  differentiates (MultiSoftmax nOs nI wo bo) tr theta (Arr2 X) (Arr2 (by_row (list_sum nOs) (affine_at theta wo bo nI) X)).
Proof.
  intros HX Hw Hb Hn. apply (diff_congr (Linear (list_sum nOs) nI wo bo)); [now apply linear_diff|]. intros th X' Lth LX. rewrite (as_mk nI X HX) in LX. apply like_mk_inv in LX as (x & ->). unfold room in *.
  rewrite linear_fwd, multi_fwd by (try exact Hn; lia). do 3 eexists. split; [reflexivity|]. split; [reflexivity|]. intros dY g LdY Lg. cbv beta. apply like_mk_inv in LdY as (d & ->). cbn [as_mat bind]. apply multi_back_lin; lia.
Qed.
(** ** Beyond the clip *)
Lemma sequences_clipped numpy theta tr : exists Y, softmax_sequences numpy (mkM 1 [[30]; [0]]) [2%Z] = Ok Y /\
  ~ differentiates (sequences_op numpy [2%Z]) tr theta (Arr2 (mkM 1 [[30]; [0]])) (Arr2 Y).
Proof.
  set (x := fun i j : nat => match i with 0%nat => 30 | _ => 0 end).
  assert (Hn : nonneg [2%Z]) by (repeat constructor; lia).
  change (mkM 1 [[30]; [0]]) with (mk 2 1 x). exists (mk 2 1 (ss [2%Z] 2 x)). assert (Hr : numpy = true -> 2%nat <> 0%nat) by discriminate.
  split; [apply sequences_mk; [exact Hn|reflexivity|exact Hr]|]. intros (b & E & _ & D). unfold sequences_op in E. cbn [as_mat bind] in E. rewrite sequences_mk in E by (try exact Hn; try exact Hr; reflexivity). cbn [bind] in E.
  injection E as <-. set (d := fun i j : nat => match i with 0%nat => 1 | _ => 0 end). destruct (D (Arr2 (mk 2 1 d)) theta (like_mk _ _ _ _) eq_refl) as (dX & g' & Eb & _ & _ & D').
  cbn [as_mat bind] in Eb. rewrite seq_back_mk in Eb by (try exact Hn; try exact Hr; reflexivity). cbn [bind] in Eb. injection Eb as <- <-.
  set (k := fun i j : nat => match i with 0%nat => ((fun s => 30 + s), 1) | _ => ((fun _ => 0), 0) end : jet).
  destruct (D' (map (fun a => ((fun _ => a), 0) : jet) theta) (Arr2 (mk 2 1 k))) as (K' & SK & HA & HI).
  - rewrite map_map. apply map_id.
  - rewrite vmap_mk. f_equal. apply mk_ext. intros [|i] j _ _; unfold k, x, at_time; cbn [fst]; ring.
  - apply Forall_map. apply Forall_forall. intros a _. apply derivable_pt_lim_const.
  - rewrite smooth_mk. intros [|i] j _ _; unfold smooth; cbn [fst snd k].
    + eapply der_eq; [apply (derivable_pt_lim_plus (fun _ => 30) id); [apply derivable_pt_lim_const|apply derivable_pt_lim_id]|ring].
    + apply derivable_pt_lim_const.
  - assert (HF : forall s, vmap (at_time s) K' = Arr2 (mk 2 1 (ss [2%Z] 2 (fun i j => at_time s (k i j))))).
    { intros s. destruct (HA s) as (b' & Eb). rewrite vmap_mk in Eb. unfold sequences_op in Eb. cbn [as_mat bind] in Eb. rewrite sequences_mk in Eb by (try exact Hn; try exact Hr; reflexivity). cbn [bind] in Eb. congruence. }
    pose proof (HF 0) as H0. apply curve_mk in H0 as (k' & -> & _). rewrite smooth_mk in SK. rewrite !vmap_mk, !inner_mk in HI.
    rewrite !S_S in HI. unfold S_ in HI. cbn [vec map seq] in HI. change (msum []) with 0 in HI.
    assert (V : velocity (k' 0%nat 0%nat) = 0).
    { specialize (SK 0%nat 0%nat ltac:(lia) ltac:(lia)). unfold smooth in SK. change (snd (k' 0%nat 0%nat)) with (velocity (k' 0%nat 0%nat)) in SK. refine (uniqueness_limite _ _ _ _ SK _).
      apply (der_local _ (fun _ => ss [2%Z] 2 x 0 0) 0 (-10) 10); [lra| |apply derivable_pt_lim_const]. intros s Hs. pose proof (HF s) as Hk. rewrite vmap_mk in Hk. assert (Hk' := f_equal (fun v => match v with Arr2 m => ent m 0 0 | _ => 0 end) Hk). cbv beta iota in Hk'. rewrite !ent_mk in Hk' by lia.
      change (fst (k' 0%nat 0%nat) s) with (at_time s (k' 0%nat 0%nat)). rewrite Hk'. unfold ss.
      assert (EE : forall i, ec (at_time s (k i 0%nat)) = ec (x i 0%nat)). { intros [|i]; unfold ec, at_time, k, x; cbn [fst]; [|reflexivity]. now rewrite !clamp_high by lra. }
      rewrite EE. unfold Rdiv. apply f_equal. apply f_equal. unfold group. apply S_ext. intros l _. now rewrite EE. }
    rewrite V in HI. set (y := ss [2%Z] 2 x) in *.
    assert (G : forall f, group [2%Z] 2 f 0 = f 0%nat + f 1%nat). { intros f. unfold group. rewrite !S_S. unfold S_. cbn [vec map seq]. change (msum []) with 0. change (same_seq [2%Z] 0 0) with true; change (same_seq [2%Z] 0 1) with true. cbv iota. ring. }
    assert (Y0 : 0 < y 0%nat 0%nat < 1).
    { unfold y, ss. rewrite G. pose proof (ec_pos (x 0%nat 0%nat)). pose proof (ec_pos (x 1%nat 0%nat)). split; [apply Rdiv_lt_0_compat; lra|]. apply (Rmult_lt_reg_r (ec (x 0%nat 0%nat) + ec (x 1%nat 0%nat))); [lra|]. unfold Rdiv. rewrite Rmult_assoc, Rinv_l by lra. lra. }
    unfold dss in HI. rewrite !G in HI. unfold velocity, k, d in HI. cbn [snd] in HI.
    assert (P : 0 < y 0%nat 0%nat * (1 - y 0%nat 0%nat)) by (apply Rmult_lt_0_compat; lra). ring_simplify in HI. ring_simplify in P. lra.
Qed.
(** Without a row for each element: numpy broadcasts, or raises *)
Lemma sequences_mismatch (numpy : bool) c lengths X : input_of c X -> nonneg lengths -> (zsum lengths < Z.of_nat (length (m_rows X)))%Z -> zsum lengths <> 1%Z ->
  softmax_sequences numpy X lengths = Err ValueError.
Proof.
  intros HX Hn Hl H1. set (r := length (m_rows X)) in *. rewrite (as_mk c X HX). fold r. unfold softmax_sequences. rewrite mmap_mk. set (e := fun i j => nexp _).
  pose proof (zsum_nonneg lengths Hn) as H0. destruct (sum_ok (mk r c e) lengths (mk_wf r c e) Hn) as [S1 S2]; [unfold m_len; rewrite mk_rows; lia|].
  assert (RS : reduce_sum numpy (mk r c e) lengths = Ok (mkM c (map (colsum c) (seqs_of lengths (m_rows (mk r c e)))))).
  { destruct numpy; [|exact S1]. apply S2. rewrite m_rows_mk. destruct r; [lia|]. rewrite vec_S. discriminate. }
  rewrite RS. cbn [bind]. rewrite m_rows_mk. set (s := mkM c _).
  assert (Ls : m_len s = length lengths). { unfold s, m_len. cbn [m_rows]. rewrite map_length. unfold seqs_of. clear. generalize (vec r (fun i => vec c (fun j => e i j))). induction lengths as [|a l IH]; intros v; [reflexivity|]. cbn. f_equal. apply IH. }
  assert (Ws : wf_mat s). { unfold s, wf_mat. cbn [m_rows m_cols]. apply Forall_forall. intros x Hx. apply in_map_iff in Hx as (y & <- & _). apply colsum_length. }
  assert (B : backprop_reduce_sum numpy s lengths = Ok (mkM (m_cols s) (back_rows scale1 (m_rows s) lengths))).
  { destruct numpy; [now apply np_back_ok|now apply op_back_sum]. }
  rewrite B. cbn [bind]. set (z := mkM (m_cols s) _).
  assert (Lz : Z.of_nat (length (m_rows z)) = zsum lengths).
  { unfold z. cbn [m_rows]. unfold m_len in Ls. revert Ls. generalize (m_rows s). clear -Hn. unfold back_rows. induction lengths as [|a l IH]; intros [|p q] Ls; try discriminate; [reflexivity|]. inversion Hn; subst. cbn [combine map concat fst snd]. rewrite app_length, repeat_length. cbn [zsum fold_right]. fold (zsum l). rewrite Nat2Z.inj_add, IH; [lia|assumption|]. cbn in Ls. lia. }
  unfold miop, mbin.
  assert (MS : forall u v : mat R, length (m_rows u) <> length (m_rows v) -> mshape_eq u v = false).
  { intros u v Huv. unfold mshape_eq. now rewrite (proj2 (Nat.eqb_neq _ _) Huv). }
  rewrite MS by (rewrite mk_rows; lia). rewrite mk_rows. unfold bdim at 1. rewrite (proj2 (Nat.eqb_neq r (length (m_rows z)))) by lia. rewrite (proj2 (Nat.eqb_neq (length (m_rows z)) 1)) by lia.
  destruct (Nat.eqb_spec r 1) as [Er|Er]; [|reflexivity]. destruct (bdim _ _); [|reflexivity]. cbn [bind]. rewrite MS; [reflexivity|]. cbn [m_rows]. rewrite mk_rows, map_length, seq_length. lia.
Qed.
