(** Attention, similarity and reductions in the words of the specification. *)
From Coq Require Import Reals Lra Lia.
From Verif Require Import ReduceProofs ReduceFirstProofs ReduceMaxProofs.
From Verif Require Import CombModel CombSpec DenseModel DenseSpec ActModel ActSpec SoftModel SoftSpec.
From Verif Require Import MatProofs BaseFacts CombProofs CombDiffProofs CombBuiltProofs MkProofs LinearProofs ActLayerProofs DenseProofs ActProofs SoftProofs SoftSeqProofs MaxoutLayerProofs.
From Verif Require Import AttnModel AttnSpec AttnProofs AttnReduceProofs AttnCauchyProofs.
Set Default Goal Selector "!".
Local Open Scope R_scope.
Local Notation nonneg := ReduceSpec.nonneg.
Local Notation positive := ReduceSpec.positive.

(** ** Attention *)
Lemma weights_vec lengths : nonneg lengths -> forall r (s : nat -> R), zsum lengths = Z.of_nat r ->
  attention_weights lengths (vec r s) = vec r (fun i => exp (s i) / group lengths r (fun k => exp (s k)) i).
Proof.
  induction lengths as [|len l IH]; intros Hn r s E.
  - destruct r; [reflexivity|]. cbn in E. lia.
  - destruct (split_sum len l r Hn E) as (r' & Hn' & -> & E'). set (n := Z.to_nat len) in *. unfold attention_weights. cbn [map chop concat]. fold n. rewrite firstn_vec, skipn_vec.
    fold (attention_weights l (vec r' (fun k => s (n + k)%nat))). rewrite (IH Hn' r' (fun k => s (n + k)%nat) E'). rewrite (vec_app n r'). f_equal.
    + rewrite !map_vec. apply vec_ext. intros i Hi. now rewrite group_head by (try reflexivity; exact Hi).
    + apply vec_ext. intros i Hi. now rewrite group_tail.
Qed.
Lemma ec_in x : -20 < x < 20 -> ec x = exp x.
Proof. intros Hx. unfold ec, clamp. rewrite Rmax_right by lra. now rewrite Rmin_right by lra. Qed.
Lemma rows_ne (X : mat R) : m_rows X <> [] -> length (m_rows X) <> 0%nat. Proof. destruct (m_rows X); [congruence|discriminate]. Qed.
Lemma scores_vec nO qo theta r k : (qo + nO <= length theta)%nat -> scores (firstn nO (skipn qo theta)) (mk r nO k) = vec r (fun i => sc nO (fun n => par theta (qo + n)) k i 0).
Proof. intros Hq. unfold scores. rewrite m_rows_mk, map_vec, seg_vec by exact Hq. apply vec_ext. intros i _. apply dot_S. Qed.
Lemma weighted_mk r c x a : weighted (vec r a) (mk r c x) = mk r c (fun i j => x i j * a i).
Proof. unfold weighted. rewrite mk_cols. apply mkM_eq. rewrite m_rows_mk, combine_vec, map_vec. apply vec_ext. intros i _. cbn [fst snd]. now rewrite map_vec. Qed.
Lemma att_exp lengths r nO q k : (forall i, (i < r)%nat -> -20 < sc nO q k i 0 < 20) -> forall i, (i < r)%nat ->
  att lengths r nO q k i = exp (sc nO q k i 0) / group lengths r (fun l => exp (sc nO q k l 0)) i.
Proof. intros HB i Hi. unfold att, ss. rewrite ec_in by now apply HB. f_equal. unfold group. apply S_ext. intros l Hl. destruct (same_seq lengths i l); [|reflexivity]. now rewrite ec_in by now apply HB. Qed.
Lemma attention_diff numpy key nO qo tr theta c X K lengths : input_of c X -> c <> 0%nat -> m_rows X <> [] -> nonneg lengths -> zsum lengths = Z.of_nat (length (m_rows X)) -> room qo nO theta ->
  differentiates key tr theta (Arr2 X) (Arr2 K) -> m_cols K = nO -> length (m_rows K) = length (m_rows X) ->
  let s := scores (firstn nO (skipn qo theta)) K in Forall (fun a => -20 < a < 20) s ->
  differentiates (ParametricAttention_v2 numpy key nO qo) tr theta (Rag X c lengths) (Rag (weighted (attention_weights lengths s) X) c lengths).
Proof.
  intros HX Hc Hr Hn E Hq HK C R s HB. pose proof (rows_ne X Hr) as Hr'. clear Hr. pose proof (as_mk c X HX) as EX. remember (length (m_rows X)) as r eqn:Er.
  assert (EK : K = mk r nO (ent K)). { destruct HK as (_ & _ & WK & _). apply wf_like_mk; [exact WK | exact C | exact R]. }
  clear Er R C HX. revert EX EK. generalize (ent X), (ent K). intros x k EX EK. subst X K.
  unfold s in *. clear s. unfold room in Hq. rewrite scores_vec in * by exact Hq. rewrite Forall_vec in HB. rewrite weights_vec by assumption. rewrite weighted_mk.
  replace (mk r c (fun i j => x i j * _)) with (mk r c (fun i j => x i j * att lengths r nO (fun n => par theta (qo + n)) k i)) by (apply mk_ext; intros i j Hi Hj; now rewrite (att_exp lengths r nO _ k HB i Hi)).
  apply att_mk_ok; assumption.
Qed.
Lemma attention_old {T} `{Num T} `{Trans T} numpy nO qo tr (theta : list T) X : ParametricAttention numpy nO qo tr theta X = ParametricAttention_v2 numpy noop nO qo tr theta X.
Proof. reflexivity. Qed.
Lemma attention_old_diff numpy nO qo tr theta X lengths : input_of nO X -> nO <> 0%nat -> m_rows X <> [] -> nonneg lengths -> zsum lengths = Z.of_nat (length (m_rows X)) -> room qo nO theta ->
  let s := scores (firstn nO (skipn qo theta)) X in Forall (fun a => -20 < a < 20) s ->
  differentiates (ParametricAttention numpy nO qo) tr theta (Rag X nO lengths) (Rag (weighted (attention_weights lengths s) X) nO lengths).
Proof.
  intros HX Hc Hr Hn E Hq s HB. change (differentiates (ParametricAttention_v2 numpy noop nO qo) tr theta (Rag X nO lengths) (Rag (weighted (attention_weights lengths s) X) nO lengths)).
  apply attention_diff; try assumption; [apply noop_ok; apply HX | apply HX | reflexivity].
Qed.
Lemma attention_distribution lengths s : nonneg lengths -> zsum lengths = Z.of_nat (length s) ->
  Forall (fun t => t <> [] -> distribution t) (chop (map Z.to_nat lengths) (attention_weights lengths s)).
Proof.
  intros Hn. revert s. induction lengths as [|len l IH]; intros s E; [constructor|]. cbn [map chop attention_weights concat]. unfold attention_weights. cbn [map chop concat]. inversion Hn as [|a b H1 H2]; subst.
  set (n := Z.to_nat len). pose proof (zsum_nonneg l H2). rewrite zsum_cons in E.
  assert (Ln : length (map (fun x => exp x / msum (map exp (firstn n s))) (firstn n s)) = n) by (rewrite map_length, firstn_length; unfold n; lia).
  rewrite firstn_app, skipn_app, Ln, Nat.sub_diag, app_nil_r. rewrite <- Ln at 1. rewrite firstn_all, skipn_all2 by lia. cbn [app]. constructor.
  - intros NE. assert (Hp : 0 < msum (map exp (firstn n s))) by (apply msum_exp_pos; intros E0; now rewrite E0 in NE). split.
    + apply Forall_map, Forall_forall. intros y _. apply Rdiv_lt_0_compat; [apply exp_pos | exact Hp].
    + rewrite (msum_ext_in _ (fun x => / msum (map exp (firstn n s)) * exp x)) by (intros; unfold Rdiv; ring). rewrite msum_scale. field. lra.
  - apply IH; [exact H2|]. rewrite skipn_length. unfold n. lia.
Qed.

(** Errors *)
Lemma attention_no_query numpy key nO qo tr theta X : ~ room qo nO theta -> ParametricAttention_v2 (T := R) numpy key nO qo tr theta X = Err KeyError.
Proof. intros Hq. unfold ParametricAttention_v2, get_param1. unfold room in Hq. destruct (Nat.leb_spec (qo + nO) (length theta)); [contradiction|reflexivity]. Qed.
Lemma attention_width numpy key nO qo tr theta c X K kb lengths : input_of c X -> c <> 0%nat -> m_rows X <> [] -> room qo nO theta ->
  key tr theta (Arr2 X) = Ok (Arr2 K, kb) -> m_cols K <> nO -> ParametricAttention_v2 numpy key nO qo tr theta (Rag X c lengths) = Err ValueError.
Proof.
  intros HX Hc Hr Hq HK C. unfold ParametricAttention_v2. rewrite get_param1_ok by exact Hq. cbn [bind as_rag fst snd]. pose proof (rows_ne X Hr).
  rewrite (as_mk c X HX), rag_data_mk by assumption. rewrite <- (as_mk c X HX). cbn [bind]. rewrite HK. cbn [bind fst snd as_mat]. rewrite column_vec. unfold gemm, matmul. rewrite mk_rows.
  destruct (Nat.eqb_spec (m_cols K) nO); [contradiction|reflexivity].
Qed.
Lemma attention_key_error numpy key nO qo tr theta c X lengths e : input_of c X -> c <> 0%nat -> m_rows X <> [] -> room qo nO theta ->
  key tr theta (Arr2 X) = Err e -> ParametricAttention_v2 numpy key nO qo tr theta (Rag X c lengths) = Err e.
Proof.
  intros HX Hc Hr Hq HK. unfold ParametricAttention_v2. rewrite get_param1_ok by exact Hq. cbn [bind as_rag fst snd]. pose proof (rows_ne X Hr).
  rewrite (as_mk c X HX), rag_data_mk by assumption. rewrite <- (as_mk c X HX). cbn [bind]. now rewrite HK.
Qed.
(** An empty batch *)
Lemma attention_empty tr q : ParametricAttention true 1 0 tr [q] (Rag (mkM 0 []) 1 [0%Z]) = Err IndexError /\
  exists b, ParametricAttention false 1 0 tr [q] (Rag (mkM 0 []) 1 [0%Z]) = Ok (Rag (mkM 0 []) 1 [0%Z], b).
Proof. split; [reflexivity|]. eexists. reflexivity. Qed.

(** Beyond the clip *)
Lemma clip_example numpy tr : exists b,
  ParametricAttention numpy 1 0 tr [1] (Rag (mkM 1 [[30]; [25]]) 1 [2%Z]) = Ok (Rag (mkM 1 [[15]; [25 / 2]]) 1 [2%Z], b) /\
  ~ differentiates (ParametricAttention numpy 1 0) tr [1] (Rag (mkM 1 [[30]; [25]]) 1 [2%Z]) (Rag (mkM 1 [[15]; [25 / 2]]) 1 [2%Z]).
Proof.
  set (x := fun i j : nat => match i with 0%nat => 30 | _ => 25 end). change (mkM 1 [[30]; [25]]) with (mk 2 1 x). change (ParametricAttention numpy 1 0) with (ParametricAttention_v2 numpy noop 1 0).
  assert (Hn : nonneg [2%Z]) by (repeat constructor; lia).
  assert (SC : forall q i, sc 1 (fun n => par [q] (0 + n)) x i 0 = x i 0%nat * q).
  { intros q i. unfold sc, S_, vec, par. cbn. ring. }
  assert (AT : forall q i, (i < 2)%nat -> 9 / 10 < q < 2 -> att [2%Z] 2 1 (fun n => par [q] (0 + n)) x i = 1 / 2).
  { intros q i Hi Hq. unfold att, ss. assert (EE : forall l, ec (sc 1 (fun n => par [q] (0 + n)) x l 0) = exp 20).
    { intros l. rewrite SC. unfold ec. rewrite clamp_high; [reflexivity|lra|]. unfold x. destruct l; lra. }
    rewrite EE. unfold group. rewrite (S_ext 2 _ (fun _ => exp 20)).
    - rewrite S_const. cbn [INR]. pose proof (exp_pos 20). field. lra.
    - intros l Hl. rewrite EE. unfold same_seq. destruct i as [|[|]], l as [|[|]]; try lia; reflexivity. }
  assert (FW : forall q, exists b, ParametricAttention_v2 numpy noop 1 0 tr [q] (Rag (mk 2 1 x) 1 [2%Z]) = Ok (Rag (mk 2 1 (fun i j => x i j * att [2%Z] 2 1 (fun n => par [q] (0 + n)) x i)) 1 [2%Z], b) /\
     forall d g, b (Rag (mk 2 1 d) 1 [2%Z]) g = (let da := d_att [2%Z] 2 1 1 (fun n => par [q] (0 + n)) x x d in
       let* g := inc_grad g 0 (vec 1 (fun n => S_ 2 (fun i => x i n * da i))) in
       let* dX := miadd (mk 2 1 (fun i j => d i j * att [2%Z] 2 1 (fun n => par [q] (0 + n)) x i)) (mk 2 1 (fun i n => da i * par [q] (0 + n))) in
       Ok (mk_rag dX [2%Z], g))).
  { intros q. destruct (att_fwd numpy noop 1 0 tr [q] 2 1 x x (fun dY g => Ok (dY, g)) [2%Z] _ ltac:(cbn; lia) Hn eq_refl ltac:(lia) ltac:(lia) eq_refl eq_refl) as (b & Eb & HB). exists b. split; [exact Eb|]. intros d g. rewrite HB. reflexivity. }
  assert (EY : forall q, 9 / 10 < q < 2 -> mk 2 1 (fun i j => x i j * att [2%Z] 2 1 (fun n => par [q] (0 + n)) x i) = mkM 1 [[15]; [25 / 2]]).
  { intros q Hq. rewrite (mk_ext 2 1 _ (fun i j => x i j * (1 / 2))) by (intros i j Hi Hj; now rewrite AT). unfold mk, vec, x. cbn [seq map]. now replace (30 * (1 / 2)) with 15 by lra; replace (25 * (1 / 2)) with (25 / 2) by lra. }
  destruct (FW 1) as (b & Eb & HB). exists b. rewrite EY in Eb by lra. split; [exact Eb|]. intros (b' & Eb' & _ & D). rewrite Eb' in Eb. injection Eb as ->.
  set (d := fun i j : nat => match i with 0%nat => 1 | _ => 0 end).
  destruct (D (Rag (mk 2 1 d) 1 [2%Z]) [0]) as (dX & g' & E1 & _ & _ & D'); [|reflexivity|].
  { change (mkM 1 [[15]; [25 / 2]]) with (mk 2 1 (fun i j : nat => match i with 0%nat => 15 | _ => 25 / 2 end)). apply like_rag. }
  rewrite HB in E1. cbv zeta in E1. set (da := d_att [2%Z] 2 1 1 (fun n => par [1] (0 + n)) x x d) in *.
  destruct (inc_grad_ok [0] 0 1 (fun n => S_ 2 (fun i => x i n * da i))) as (g'' & Eg & Lg & Dg); [cbn; lia|]. rewrite Eg in E1. cbn [bind] in E1. rewrite miadd_same in E1. cbn [bind] in E1. injection E1 as <- <-.
  set (P := [((fun s => 1 + s), 1) : jet]). destruct (D' P (Rag (mk 2 1 (fun i j => ((fun _ => x i j), 0) : jet)) 1 [2%Z])) as (K' & SK & HA & HI).
  - unfold P, at_time. cbn. f_equal. ring.
  - now rewrite vmap_rag.
  - repeat constructor. unfold smooth. cbn [fst snd]. eapply der_eq; [apply (derivable_pt_lim_plus (fun _ => 1) id); [apply derivable_pt_lim_const|apply derivable_pt_lim_id]|ring].
  - rewrite smooth_rag. intros i j _ _. apply derivable_pt_lim_const.
  - assert (HF : forall s, vmap (at_time s) K' = Rag (mk 2 1 (fun i j => x i j * att [2%Z] 2 1 (fun n => par [1 + s] (0 + n)) x i)) 1 [2%Z]).
    { intros s. destruct (HA s) as (bs & Es). rewrite vmap_rag in Es. unfold P in Es. cbn [map] in Es. change (at_time s ((fun s => 1 + s), 1)) with (1 + s) in Es. change (mk 2 1 (fun i j => at_time s ((fun _ => x i j), 0))) with (mk 2 1 x) in Es.
      destruct (FW (1 + s)) as (b2 & Eb2 & _). rewrite Eb2 in Es. now injection Es as <- _. }
    pose proof (HF 0) as H0. apply curve_rag in H0 as (k' & -> & _). rewrite smooth_rag in SK. rewrite !vmap_rag in HI. rewrite mk_rag_mk in HI by lia. rewrite !inner_rag in HI.
    assert (V : velocity (k' 0%nat 0%nat) = 0).
    { specialize (SK 0%nat 0%nat ltac:(lia) ltac:(lia)). refine (uniqueness_limite _ _ _ _ SK _).
      apply (der_local _ (fun _ => 15) 0 (-1/20) (1/20)); [lra| |apply derivable_pt_lim_const]. intros s Hs. pose proof (HF s) as Hk. rewrite vmap_rag in Hk. apply (f_equal (fun v => match v with Rag m _ _ => m | _ => mkM 0 [] end)) in Hk. cbv beta iota in Hk.
      assert (Hk' : at_time s (k' 0%nat 0%nat) = x 0%nat 0%nat * att [2%Z] 2 1 (fun n => par [1 + s] (0 + n)) x 0).
      { apply (mk_inj 2 1 (fun i j => at_time s (k' i j)) (fun i j => x i j * att [2%Z] 2 1 (fun n => par [1 + s] (0 + n)) x i)); [exact Hk|lia|lia]. }
      change (fst (k' 0%nat 0%nat) s) with (at_time s (k' 0%nat 0%nat)). rewrite Hk', AT by (try lia; lra). unfold x. lra. }
    specialize (Dg (map velocity P) eq_refl). rewrite Dg in HI.
    assert (A1 : forall i, (i < 2)%nat -> att [2%Z] 2 1 (fun n => par [1] (0 + n)) x i = 1 / 2) by (intros i Hi; apply AT; [exact Hi|lra]).
    assert (DA : da 0%nat = 15 / 2 /\ da 1%nat = - (15 / 2)).
    { assert (G : forall f i, (i < 2)%nat -> group [2%Z] 2 f i = f 0%nat + f 1%nat).
      { intros f i Hi. unfold group. rewrite !S_S. unfold S_. cbn [vec map seq]. change (msum []) with 0. replace (same_seq [2%Z] i 0) with true by (destruct i as [|[|]]; [reflexivity..|lia]). replace (same_seq [2%Z] i 1) with true by (destruct i as [|[|]]; [reflexivity..|lia]). ring. }
      assert (DE : forall i, (i < 2)%nat -> da i = 1 / 2 * (x i 0%nat * d i 0%nat) - 1 / 2 * (1 / 2 * (30 * 1) + 1 / 2 * (25 * 0))).
      { intros i Hi. unfold da, d_att, dss. rewrite G by exact Hi. fold (att [2%Z] 2 1 (fun n => par [1] (0 + n)) x i). fold (att [2%Z] 2 1 (fun n => par [1] (0 + n)) x 0). fold (att [2%Z] 2 1 (fun n => par [1] (0 + n)) x 1).
        rewrite !A1 by lia. rewrite !S_S. unfold S_. cbn [vec map seq]. change (msum []) with 0. unfold x, d. ring. }
      rewrite !DE by lia. unfold x, d. split; lra. }
    destruct DA as [DA0 DA1]. rewrite !S_S in HI. unfold S_, vec in HI. cbn [seq map msum fold_right d velocity snd] in HI. rewrite V, DA0, DA1 in HI. unfold P, par in HI. cbn in HI. unfold x in HI. lra.
Qed.

(** ** Similarity *)
Lemma distance_vec nI (w a b : nat -> R) : distance (vec nI w) (vec nI a) (vec nI b) = S_ nI (fun j => w j * ((a j - b j) * (a j - b j))).
Proof. unfold distance. rewrite !combine_vec, map_vec. unfold S_. f_equal. apply vec_ext. intros j _. cbn [fst snd]. ring. Qed.
Lemma cauchy_rows nI (w : nat -> R) r x y : map (fun p => cauchy (vec nI w) (fst p) (snd p)) (combine (m_rows (mk r nI x)) (m_rows (mk r nI y))) = vec r (fun i => 1 / (1 + tot nI w x y i)).
Proof. rewrite !m_rows_mk, combine_vec, map_vec. apply vec_ext. intros i _. unfold cauchy. cbn [fst snd]. now rewrite distance_vec. Qed.
Lemma cauchy_diff nI wo tr theta X1 X2 : input_of nI X1 -> input_of nI X2 -> length (m_rows X1) = length (m_rows X2) -> room wo nI theta ->
  let w := firstn nI (skipn wo theta) in Forall (fun p => 1 + distance w (fst p) (snd p) <> 0) (combine (m_rows X1) (m_rows X2)) ->
  differentiates (CauchySimilarity nI wo) tr theta (PyTup [Arr2 X1; Arr2 X2]) (Arr1 (map (fun p => cauchy w (fst p) (snd p)) (combine (m_rows X1) (m_rows X2)))).
Proof.
  intros H1 H2 E Hw w HB. pose proof (as_mk nI X1 H1) as E1. pose proof (as_mk nI X2 H2) as E2. rewrite <- E in E2. remember (length (m_rows X1)) as r eqn:Er. clear Er H1 H2 E. revert E1 E2. generalize (ent X1), (ent X2). intros x y -> ->.
  unfold w in *. unfold room in Hw. rewrite seg_vec in * by exact Hw. rewrite cauchy_rows. apply cauchy_mk_ok; [exact Hw|]. intros i Hi. rewrite !m_rows_mk, combine_vec, Forall_vec in HB. specialize (HB i Hi). cbn [fst snd] in HB. now rewrite distance_vec in HB.
Qed.
Lemma distance_nonneg w a b : Forall (fun x => 0 <= x) w -> 0 <= distance w a b.
Proof.
  unfold distance. intros Hw. revert a b. induction Hw as [|x w Hx _ IH]; intros a b; [cbn; lra|]. destruct a as [|p a]; [cbn; lra|]. destruct b as [|q b]; [cbn; lra|]. cbn [combine map]. rewrite msum_cons. cbn [fst snd].
  specialize (IH a b). pose proof (pow2_ge_0 (p - q)) as P. pose proof (Rmult_le_pos _ _ Hx P). lra.
Qed.
Lemma distance_sym w a b : length a = length b -> distance w a b = distance w b a.
Proof.
  unfold distance. revert a b. induction w as [|x w IH]; intros a b E; [reflexivity|]. destruct a as [|p a], b as [|q b]; try discriminate; [reflexivity|]. cbn [combine map]. rewrite !msum_cons. cbn [fst snd]. rewrite (IH a b) by now injection E. ring.
Qed.
Lemma distance_refl w a : distance w a a = 0.
Proof. unfold distance. revert a. induction w as [|x w IH]; intros [|p a]; try reflexivity. cbn [combine map]. rewrite msum_cons, IH. cbn [fst snd]. ring. Qed.
Lemma cauchy_range w a b : Forall (fun x => 0 <= x) w -> 0 < cauchy w a b <= 1.
Proof.
  intros Hw. pose proof (distance_nonneg w a b Hw) as D. unfold cauchy. split; [apply Rdiv_lt_0_compat; lra|]. apply (Rmult_le_reg_r (1 + distance w a b)); [lra|]. unfold Rdiv. rewrite Rmult_assoc, Rinv_l by lra. lra.
Qed.
Lemma cauchy_facts w a b : length a = length b -> cauchy w a b = cauchy w b a /\ cauchy w a a = 1 /\ (Forall (fun x => 0 <= x) w -> 0 < cauchy w a b <= 1).
Proof.
  intros E. split; [|split].
  - unfold cauchy. now rewrite distance_sym.
  - unfold cauchy. rewrite distance_refl. lra.
  - apply cauchy_range.
Qed.
Lemma cauchy_siamese l nI wo tr theta A1 A2 X1 X2 : differentiates l tr theta A1 (Arr2 X1) -> differentiates l tr theta A2 (Arr2 X2) ->
  m_cols X1 = nI -> m_cols X2 = nI -> length (m_rows X1) = length (m_rows X2) -> room wo nI theta ->
  let w := firstn nI (skipn wo theta) in Forall (fun p => 1 + distance w (fst p) (snd p) <> 0) (combine (m_rows X1) (m_rows X2)) ->
  differentiates (siamese l (CauchySimilarity nI wo)) tr theta (PyTup [A1; A2]) (Arr1 (map (fun p => cauchy w (fst p) (snd p)) (combine (m_rows X1) (m_rows X2)))).
Proof.
  intros D1 D2 C1 C2 E Hw w HB. eapply siamese_ok; [exact D1 | exact D2 |]. apply cauchy_diff; try assumption; split; try assumption.
  - destruct D1 as (_ & _ & W & _). exact W.
  - destruct D2 as (_ & _ & W & _). exact W.
Qed.
(** One row against two is broadcast, and the gradient of the first input has two rows *)
Lemma cauchy_broadcast tr : exists b g, CauchySimilarity (T := R) 1 0 tr [1] (PyTup [Arr2 (mkM 1 [[0]]); Arr2 (mkM 1 [[0]; [1]])]) = Ok (Arr1 [1; 1 / 2], b) /\
  b (Arr1 [0; 1]) [0] = Ok (PyTup [Arr2 (mkM 1 [[0]; [1 / 2]]); Arr2 (mkM 1 [[0]; [- (1 / 2)]])], g) /\ ~ like (Arr2 (mkM 1 [[0]; [1 / 2]])) (Arr2 (mkM 1 [[0]])).
Proof.
  eexists _, [_]. split; [|split].
  - unfold CauchySimilarity. cbn [bind fst snd as_mat]. cbn. apply ok_fst. unfold inverse. cbn.
    replace (1 / (1 + (0 + 1 * ((0 - 0) * (0 - 0))))) with 1 by field. replace (1 / (1 + (0 + 1 * ((0 - 1) * (0 - 1))))) with (1 / 2) by field. reflexivity.
  - cbn [as_arr1 bind]. cbn. match goal with |- Ok (_, [?v]) = _ => instantiate (1 := v) end. apply ok_fst. unfold inverse_back. cbn. unfold mmap. cbn [m_cols m_rows map]. match goal with |- PyTup [Arr2 (mkM _ [[?a]; [?b]]); Arr2 (mkM _ [[?c]; [?d]])] = _ => assert (EE : (a = 0 /\ b = 1 / 2) /\ c = 0 /\ d = - (1 / 2)) end.
    { split; split; field. }
    destruct EE as [[E1 E2] [E3 E4]]. rewrite E3, E4, E1, E2. reflexivity.
  - unfold like. cbn. discriminate.
Qed.
Lemma cauchy_errors nI wo tr theta X1 X2 : input_of nI X1 -> input_of nI X2 ->
  (~ room wo nI theta -> CauchySimilarity nI wo tr theta (PyTup [Arr2 X1; Arr2 X2]) = Err KeyError) /\
  (room wo nI theta -> length (m_rows X1) <> length (m_rows X2) -> length (m_rows X1) <> 1%nat -> length (m_rows X2) <> 1%nat ->
     CauchySimilarity nI wo tr theta (PyTup [Arr2 X1; Arr2 X2]) = Err ValueError).
Proof.
  intros H1 H2. split.
  - intros Hw. unfold CauchySimilarity. cbn [bind fst snd as_mat]. unfold get_param1. unfold room in Hw. destruct (Nat.leb_spec (wo + nI) (length theta)); [contradiction|reflexivity].
  - intros Hw N N1 N2. unfold CauchySimilarity. cbn [bind fst snd as_mat]. rewrite get_param1_ok by exact Hw. cbn [bind]. unfold mbin, mshape_eq, bdim.
    rewrite (proj2 (Nat.eqb_neq _ _) N), (proj2 (Nat.eqb_neq _ _) N1), (proj2 (Nat.eqb_neq _ _) N2). reflexivity.
Qed.

Lemma cauchy_arity : forall nI wo tr theta (Xs : list (value R)), length Xs <> 2%nat ->
    CauchySimilarity nI wo tr theta (PyTup Xs) = Err ValueError /\ CauchySimilarity nI wo tr theta (PyList Xs) = Err ValueError.
Proof. intros nI wo tr theta [|X [|Y [|Z Xs]]] N; [split; reflexivity..| |split; reflexivity]. now destruct N. Qed.

(** ** Reductions *)
Section Reduce.
  Context (tr : bool) (theta : list R) (c : nat) (X : mat R) (lengths : list Z).
  Hypotheses (HX : input_of c X) (Hc : c <> 0%nat) (Hr : m_rows X <> []) (E : zsum lengths = Z.of_nat (length (m_rows X))).
  Lemma sum_diff numpy : nonneg lengths -> differentiates (reduce_sum_layer numpy) tr theta (Rag X c lengths) (Arr2 (mkM c (map (colsum c) (seqs_of lengths (m_rows X))))).
  Proof. intros Hn. pose proof (rows_ne X Hr). rewrite (as_mk c X HX). now apply sum_mk_ok. Qed.
  Lemma mean_diff numpy : nonneg lengths -> differentiates (reduce_mean_layer numpy) tr theta (Rag X c lengths) (Arr2 (mkM c (map (colmean c) (seqs_of lengths (m_rows X))))).
  Proof. intros Hn. pose proof (rows_ne X Hr). rewrite (as_mk c X HX). now apply mean_mk_ok. Qed.
  Lemma first_diff : positive lengths -> differentiates reduce_first_layer tr theta (Rag X c lengths) (Arr2 (mkM c (map (fun s => nth 0 s []) (seqs_of lengths (m_rows X))))).
  Proof. intros Hn. pose proof (rows_ne X Hr). rewrite (as_mk c X HX). now apply first_mk_ok. Qed.
  Lemma last_diff : positive lengths -> differentiates reduce_last_layer tr theta (Rag X c lengths) (Arr2 (mkM c (map (fun s => last s []) (seqs_of lengths (m_rows X))))).
  Proof. intros Hn. pose proof (rows_ne X Hr). rewrite (as_mk c X HX). now apply last_mk_ok. Qed.
  Lemma max_spec_mk r x : positive lengths -> zsum lengths = Z.of_nat r -> r <> 0%nat ->
    mkM c (map (fun s => map (fun j => maximum (col 0 j s)) (seq 0 c)) (seqs_of lengths (m_rows (mk r c x)))) = mk (length lengths) c (max_F lengths r c x).
  Proof.
    intros Hp Er Hr'. destruct (max_fwd false lengths r c x Hp Er Hr' Hc) as (which & _ & _ & HM). apply mkM_eq. rewrite m_rows_mk, (seqs_vec lengths (positive_nonneg _ Hp) r _ Er), map_vec. apply vec_ext. intros i Hi.
    change (map ?f (seq 0 c)) with (vec c f). apply vec_ext. intros j Hj. rewrite (col_vec _ c j (fun p => x (off_at lengths i + p)%nat) Hj).
    specialize (HM i j Hi Hj). unfold max_at in HM. set (l := vec _ _) in *. assert (NE : l <> []) by (intros E0; destruct HM as (_ & HM & _); rewrite E0 in HM; now destruct (Z.to_nat _)).
    rewrite <- argmax_maximum by exact NE. exact (proj2 (first_max_unique _ _ _ _ _ (argmax_ok _ NE) HM)).
  Qed.
  Lemma max_diff numpy : positive lengths -> clear_maxima lengths X ->
    differentiates (reduce_max_layer numpy) tr theta (Rag X c lengths) (Arr2 (mkM c (map (fun s => map (fun j => maximum (col 0 j s)) (seq 0 c)) (seqs_of lengths (m_rows X))))).
  Proof.
    intros Hp HC. pose proof (rows_ne X Hr) as Hr'. pose proof E as E'. pose proof (as_mk c X HX) as EX. revert HC EX. generalize (ent X). remember (length (m_rows X)) as r eqn:Er. intros x HC EX. rewrite EX, max_spec_mk by assumption. apply max_mk_ok; try assumption. now rewrite <- EX.
  Qed.
End Reduce.
Lemma reduce_checks_shape red back tr theta (m : mat R) w lengths Y b dY g : reduce_layer red back tr theta (Rag m w lengths) = Ok (Arr2 Y, b) -> mshape_eq dY Y = false -> b (Arr2 dY) g = Err ValueError.
Proof. unfold reduce_layer. cbn [as_rag bind fst snd]. destruct (red m lengths) as [y|]; cbn [bind]; [|discriminate]. intros Eb. injection Eb as -> <-. intros Hs. cbn [as_mat bind]. unfold check_consistency. now rewrite Hs. Qed.
Lemma reduce_at_checks_shape red back tr theta (m : mat R) w lengths Y b dY g : reduce_at_layer red back tr theta (Rag m w lengths) = Ok (Arr2 Y, b) -> mshape_eq dY Y = false -> b (Arr2 dY) g = Err ValueError.
Proof. unfold reduce_at_layer. cbn [as_rag bind fst snd]. destruct (red m lengths) as [y|]; cbn [bind]; [|discriminate]. intros Eb. injection Eb as <- <-. intros Hs. cbn [as_mat bind]. unfold check_consistency. now rewrite Hs. Qed.
Lemma reduce_max_checks_shape numpy tr theta (m : mat R) w lengths Y b dY g : reduce_max_layer numpy tr theta (Rag m w lengths) = Ok (Arr2 Y, b) -> mshape_eq dY Y = false -> b (Arr2 dY) g = Err ValueError.
Proof. unfold reduce_max_layer. cbn [as_rag bind fst snd]. destruct (_ m lengths) as [y|]; cbn [bind]; [|discriminate]. intros Eb. injection Eb as <- <-. intros Hs. cbn [as_mat bind]. unfold check_consistency. now rewrite Hs. Qed.
Lemma layers_check_shape numpy tr theta (m : mat R) w lengths : Forall (fun L : layer R => forall Y b dY g, L tr theta (Rag m w lengths) = Ok (Arr2 Y, b) ->
  (length (m_rows dY), m_cols dY) <> (length (m_rows Y), m_cols Y) -> b (Arr2 dY) g = Err ValueError) [reduce_sum_layer numpy; reduce_mean_layer numpy; reduce_max_layer numpy; reduce_first_layer; reduce_last_layer].
Proof.
  assert (HS : forall dY Y : mat R, (length (m_rows dY), m_cols dY) <> (length (m_rows Y), m_cols Y) -> mshape_eq dY Y = false).
  { intros dY Y NE. unfold mshape_eq. destruct (Nat.eqb_spec (length (m_rows dY)) (length (m_rows Y))), (Nat.eqb_spec (m_cols dY) (m_cols Y)); try reflexivity. exfalso. apply NE. congruence. }
  repeat apply Forall_cons; [| | | | |apply Forall_nil]; intros Y b dY g Eb NE; apply HS in NE.
  - exact (reduce_checks_shape _ _ tr theta m w lengths _ _ _ _ Eb NE).
  - exact (reduce_checks_shape _ _ tr theta m w lengths _ _ _ _ Eb NE).
  - exact (reduce_max_checks_shape numpy tr theta m w lengths _ _ _ _ Eb NE).
  - exact (reduce_at_checks_shape _ _ tr theta m w lengths _ _ _ _ Eb NE).
  - exact (reduce_at_checks_shape _ _ tr theta m w lengths _ _ _ _ Eb NE).
Qed.
(** A sequence with two greatest elements: the maximum has no derivative there *)
Lemma max_tie numpy tr theta : exists b, reduce_max_layer numpy tr theta (Rag (mkM 1 [[0]; [0]]) 1 [2%Z]) = Ok (Arr2 (mkM 1 [[0]]), b) /\
  ~ differentiates (reduce_max_layer numpy) tr theta (Rag (mkM 1 [[0]; [0]]) 1 [2%Z]) (Arr2 (mkM 1 [[0]])).
Proof.
  set (x := fun _ _ : nat => 0). change (mkM 1 [[0]; [0]]) with (mk 2 1 x). assert (Hp : positive [2%Z]) by (repeat constructor; lia).
  assert (FW : forall th y, exists m b, reduce_max_layer numpy tr th (Rag (mk 2 1 y) 1 [2%Z]) = Ok (Arr2 (mkM 1 [[m]]), b) /\ (m = y 0%nat 0%nat \/ m = y 1%nat 0%nat) /\ y 0%nat 0%nat <= m /\ y 1%nat 0%nat <= m).
  { intros th y. destruct (max_fwd numpy [2%Z] 2 1 y Hp eq_refl ltac:(lia) ltac:(lia)) as (which & Ew & _ & HM). exists (max_F [2%Z] 2 1 y 0 0). unfold reduce_max_layer. cbn [as_rag bind fst snd]. rewrite Ew. cbn [bind fst snd]. eexists. split; [reflexivity|].
    specialize (HM 0%nat 0%nat ltac:(cbn; lia) ltac:(lia)). destruct HM as (H0 & H1 & H2). split.
    - apply nth_error_In in H1. destruct H1 as [H1 | [H1 | []]]; [left | right]; symmetry; exact H1.
    - split; [exact (proj1 (H2 0%nat _ eq_refl)) | exact (proj1 (H2 1%nat _ eq_refl))]. }
  destruct (FW theta x) as (m & b & Eb & Hm & _). assert (m = 0) as -> by (destruct Hm; assumption). exists b. split; [exact Eb|]. intros (b' & _ & _ & D).
  destruct (D (Arr2 (mkM 1 [[0]])) theta eq_refl eq_refl) as (dX & g' & _ & _ & _ & D').
  destruct (D' (map (fun a => ((fun _ => a), 0) : jet) theta) (Rag (mk 2 1 (fun i _ => match i with 0%nat => ((fun s => s), 1) | _ => ((fun s => - s), -1) end : jet)) 1 [2%Z])) as (K' & SK & HA & _).
  - rewrite map_map. apply map_id.
  - rewrite vmap_rag. f_equal. apply mk_ext. intros [|i] j _ _; unfold x, at_time; cbn [fst]; ring.
  - apply Forall_map. apply Forall_forall. intros a _. apply derivable_pt_lim_const.
  - rewrite smooth_rag. intros [|i] j _ _; unfold smooth; cbn [fst snd]; [apply derivable_pt_lim_id|]. apply (derivable_pt_lim_opp id 0 1). apply derivable_pt_lim_id.
  - assert (HF : forall s, exists m, vmap (at_time s) K' = Arr2 (mk 1 1 (fun _ _ => m)) /\ m = Rabs s).
    { intros s. destruct (HA s) as (bs & Es). rewrite vmap_rag in Es. destruct (FW (map (at_time s) (map (fun a => ((fun _ => a), 0) : jet) theta)) (fun i j => at_time s (match i with 0%nat => ((fun s => s), 1) | _ => ((fun s => - s), -1) end : jet))) as (m & b2 & Eb2 & Hm' & L1 & L2).
      rewrite Eb2 in Es. injection Es as Es _. exists m. split; [now rewrite <- Es|]. unfold at_time in Hm', L1, L2. cbn [fst] in Hm', L1, L2. unfold Rabs. destruct (Rcase_abs s), Hm' as [Hm' | Hm']; lra. }
    destruct (HF 0) as (m0 & H0 & _). apply curve_mk in H0 as (k' & -> & _). rewrite smooth_mk in SK. specialize (SK 0%nat 0%nat ltac:(lia) ltac:(lia)).
    assert (HK : forall s, fst (k' 0%nat 0%nat) s = Rabs s). { intros s. destruct (HF s) as (m & Hm' & ->). rewrite vmap_mk in Hm'. injection Hm' as Hm'. exact Hm'. }
    destruct (SK (1 / 2) ltac:(lra)) as (delta & Hd). pose proof (cond_pos delta) as Pd.
    pose proof (Hd (delta / 2) ltac:(lra) ltac:(rewrite Rabs_right by lra; lra)) as A. pose proof (Hd (- (delta / 2)) ltac:(lra) ltac:(rewrite Rabs_left by lra; lra)) as B.
    rewrite !HK in A, B. rewrite !Rplus_0_l, Rabs_R0, !Rminus_0_r in A, B. rewrite Rabs_Ropp in B. rewrite (Rabs_right (delta / 2)) in A, B by lra.
    replace (delta / 2 / (delta / 2)) with 1 in A by (field; lra). replace (delta / 2 / - (delta / 2)) with (-1) in B by (field; lra). apply Rabs_def2 in A. apply Rabs_def2 in B. lra.
Qed.
