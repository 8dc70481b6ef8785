(** Maxout. *)
From Coq Require Import Reals Lra Lia.
From Verif Require Import KernelModel KernelSpec KernelProofs ReduceMaxProofs.
From Verif Require Import CombModel CombSpec DenseModel MatProofs BaseFacts CombProofs CombDiffProofs CombBuiltProofs MkProofs LinearProofs ActLayerProofs.
Set Default Goal Selector "!".
Local Open Scope R_scope.

(** ** The maximum as a layer of its own *)
Definition maxact (numpy : bool) (nO nP : nat) : layer R := fun _ _ X =>
  let* Y := as_mat X in
  let* best_which := (if numpy then np_maxout else op_maxout) (reshape3 Y nO nP) in
  Ok (Arr2 (fst best_which), fun d_best g =>
    let* d_best := as_mat d_best in
    let* dZ := (if numpy then np_backprop_maxout else op_backprop_maxout) d_best (snd best_which) (Z.of_nat nP) in
    Ok (Arr2 (reshape2 dZ (nO * nP)), g)).
Lemma maxout_same numpy nO nP nI wo bo : same_layer (Maxout numpy nO nP nI wo bo) (chain [Linear (nO * nP) nI wo bo; maxact numpy nO nP]).
Proof.
  intros tr theta X. unfold Maxout, chain, chain_loop, Linear, maxact. 
  destruct (get_param1 theta bo (nO * nP)) as [b|] eqn:Eb; cbn [bind].
  2: { destruct (get_param2 theta wo (nO * nP) nI); cbn [bind]; exact I. }
  destruct (get_param2 theta wo (nO * nP) nI) as [W|]; cbn [bind]; [|exact I].
  destruct (as_mat X) as [Xm|]; cbn [bind]; [|exact I].
  destruct (gemm Xm W false true) as [Y0|]; cbn [bind]; [|exact I]. destruct (miadd Y0 (as_row b)) as [Y|]; cbn [bind fst snd as_mat]; [|exact I].
  destruct ((if numpy then np_maxout else op_maxout) (reshape3 Y nO nP)) as [bw|]; cbn [bind fst snd]; [|exact I].
  split; [reflexivity|]. intros dY g. cbn [rev app chain_back]. destruct (as_mat dY) as [d|]; cbn [bind]; [|reflexivity].
  destruct ((if numpy then np_backprop_maxout else op_backprop_maxout) d (snd bw) (Z.of_nat nP)) as [dZ|]; cbn [bind fst snd as_mat]; [|reflexivity].
  destruct (inc_grad g bo _) as [g1|]; cbn [bind]; [|reflexivity]. destruct (gemm _ Xm true false) as [dW|]; cbn [bind]; [|reflexivity].
  destruct (inc_grad g1 wo _) as [g2|]; cbn [bind]; [|reflexivity]. now destruct (gemm _ W false false).
Qed.

(** ** In terms of entries *)
Definition cell (nP : nat) (x : nat -> nat -> R) (i o : nat) : list R := vec nP (fun p => x i (o * nP + p)%nat).
Lemma vec_const_wide {A} n m (f : nat -> nat -> A) : Forall (fun l => length l = m) (vec n (fun i => vec m (f i))).
Proof. apply Forall_vec. intros i _. apply vec_length. Qed.
Lemma concat_wide {A} n m (L : list (list (list A))) : Forall (fun l => length l = n) L -> Forall (Forall (fun l : list A => length l = m)) L ->
  Forall (fun l => length l = m) (concat L) /\ length (concat L) = (length L * n)%nat.
Proof.
  intros H1 H2. split; [now apply Forall_concat_in|]. now apply concat_length_const.
Qed.
Lemma concat_concat {A} (L : list (list (list A))) : concat (map (@concat A) L) = concat (concat L).
Proof. induction L as [|l L IH]; [reflexivity|]. cbn [map concat]. now rewrite concat_app, IH. Qed.
Lemma reshape3_mk r nO nP (x : nat -> nat -> R) :
  reshape3 (mk r (nO * nP) x) nO nP = mk3 r nO nP (concat (vec r (fun i => vec nO (fun o => cell nP x i o)))).
Proof.
  unfold reshape3. rewrite mk_rows, m_rows_mk. f_equal.
  replace (vec r (fun i => vec (nO * nP) (fun j => x i j))) with (map (@concat R) (vec r (fun i => vec nO (fun o => cell nP x i o)))).
  2: { rewrite map_vec. apply vec_ext. intros i _. unfold cell. now rewrite <- (vec_concat nP nO (x i)). }
  rewrite concat_concat.
  destruct (concat_wide nO nP (vec r (fun i => vec nO (fun o => cell nP x i o)))) as [H1 H2].
  { apply vec_const_wide. } { apply Forall_vec. intros i _. apply vec_const_wide. }
  rewrite vec_length in H2. rewrite <- H2. now apply cells_of_concat1.
Qed.
Lemma wf3_mk r nO nP x : wf3 (mk3 r nO nP (concat (vec r (fun i => vec nO (fun o => cell nP x i o))))).
Proof.
  destruct (concat_wide nO nP (vec r (fun i => vec nO (fun o => cell nP x i o)))) as [H1 H2].
  { apply vec_const_wide. } { apply Forall_vec. intros i _. apply vec_const_wide. }
  rewrite vec_length in H2. split; assumption.
Qed.
Lemma cells_of_nested {A} r c (f : nat -> nat -> A) : cells_of c r (concat (vec r (fun i => vec c (f i)))) = vec r (fun i => vec c (f i)).
Proof.
  rewrite <- (vec_length r (fun i => vec c (f i))) at 1. generalize (vec_const_wide r c f). generalize (vec r (fun i => vec c (f i))).
  intros l. induction l as [|a l IH]; intros Hl; [reflexivity|]. apply Forall_cons_iff in Hl as [H1 H2]. cbn [length cells_of concat].
  rewrite firstn_app, skipn_app, H1, Nat.sub_diag, firstn_all2, skipn_all2 by lia. cbn [firstn skipn app]. rewrite app_nil_r. now rewrite IH.
Qed.
Definition best nP x i o : R := fst (argmax (cell nP x i o)).
Definition whichp nP x i o : Z := snd (argmax (cell nP x i o)).
Lemma maxact_which (numpy : bool) r nO nP x : nO <> 0%nat -> nP <> 0%nat ->
  (if numpy then np_maxout else op_maxout) (reshape3 (mk r (nO * nP) x) nO nP) = Ok (mk r nO (best nP x), vec r (fun i => vec nO (whichp nP x i))).
Proof.
  intros Ho Hp. rewrite reshape3_mk. destruct (maxout_run _ (wf3_mk r nO nP x) Ho Hp) as [E1 E2].
  assert (E : (if numpy then np_maxout else op_maxout) (mk3 r nO nP (concat (vec r (fun i => vec nO (fun o => cell nP x i o))))) =
    op_maxout (mk3 r nO nP (concat (vec r (fun i => vec nO (fun o => cell nP x i o)))))) by (destruct numpy; [exact E1|reflexivity]).
  rewrite E, E2. cbn [t_o t_b t_cells]. rewrite !map_map, !concat_map, !map_vec.
  assert (F : forall (A : Type) (h : list R -> A), cells_of nO r (concat (vec r (fun i => map h (vec nO (fun o => cell nP x i o))))) = vec r (fun i => vec nO (fun o => h (cell nP x i o)))).
  { intros A h. rewrite (vec_ext r _ (fun i => vec nO (fun o => h (cell nP x i o)))) by (intros i _; apply map_vec). apply cells_of_nested. }
  rewrite !F. reflexivity.
Qed.
Lemma which_range nP x i o : nP <> 0%nat -> (0 <= whichp nP x i o < Z.of_nat nP)%Z.
Proof.
  intros Hp. destruct (argmax_ok (cell nP x i o)) as (A & B & _).
  { intros E. apply (f_equal (@length R)) in E. unfold cell in E. rewrite vec_length in E. cbn in E. lia. }
  split; [exact A|]. assert (Hn : (Z.to_nat (snd (argmax (cell nP x i o))) < length (cell nP x i o))%nat) by (apply nth_error_Some; rewrite B; discriminate).
  unfold cell in Hn at 2. rewrite vec_length in Hn. unfold whichp. lia.
Qed.
Definition spread (nP : nat) (w : nat -> nat -> Z) (d : nat -> nat -> R) (i j : nat) : R :=
  if (Z.of_nat (j mod nP) =? w i (j / nP)%nat)%Z then d i (j / nP)%nat else 0.
Lemma spread_at nP w d i o p : (p < nP)%nat -> spread nP w d i (o * nP + p) = if (Z.of_nat p =? w i o)%Z then d i o else 0.
Proof.
  intros Hp. unfold spread. rewrite (Nat.add_comm (o * nP)), Nat.mod_add, Nat.div_add by lia. rewrite Nat.mod_small, Nat.div_small by exact Hp. reflexivity.
Qed.
Lemma maxact_back (numpy : bool) r nO nP x d : (numpy = true -> r <> 0%nat) -> nO <> 0%nat -> nP <> 0%nat ->
  exists dZ, (if numpy then np_backprop_maxout else op_backprop_maxout) (mk r nO d) (vec r (fun i => vec nO (whichp nP x i))) (Z.of_nat nP) = Ok dZ /\
    reshape2 dZ (nO * nP) = mk r (nO * nP) (spread nP (whichp nP x) d).
Proof.
  intros Hr Ho Hp.
  assert (HP : positions_in (Z.of_nat nP) (vec r (fun i => vec nO (whichp nP x i))) (mk r nO d)).
  { split; [unfold m_len; now rewrite mk_rows, vec_length|]. split; [apply vec_const_wide|]. apply Forall_vec. intros i _. apply Forall_vec. intros o _. now apply which_range. }
  eexists. split.
  { destruct numpy; [apply maxout_back_run|apply maxout_back_op]; try apply mk_wf; try exact HP; try lia.
    - unfold m_len. rewrite mk_rows. now apply Hr.
    - exact Ho. }
  rewrite Nat2Z.id. unfold reshape2. cbn [t_b t_cells]. unfold m_len. rewrite mk_rows. unfold mk at 2. f_equal.
  rewrite m_rows_mk.
  assert (E : forall rr, concat (routed nP (concat (vec rr (fun i => vec nO (whichp nP x i)))) (concat (vec rr (fun i => vec nO (fun j => d i j))))) =
    concat (vec rr (fun i => vec (nO * nP) (spread nP (whichp nP x) d i)))).
  { intros rr. unfold vec at 1 3 5. generalize (seq 0 rr). intros l. induction l as [|i l IH]; [reflexivity|]. cbn [map concat].
    rewrite routed_app by (now rewrite !vec_length). rewrite concat_app, IH. f_equal. rewrite (vec_concat nP nO). f_equal. unfold routed.
    rewrite combine_vec, map_vec. apply vec_ext. intros o Ho'. cbn [fst snd]. unfold only_at. apply vec_ext. intros p Hp'. now rewrite spread_at. }
  rewrite E. apply cells_of_nested.
Qed.

(** ** The maximum where it is attained once *)
Definition strict_at (nP : nat) (x : nat -> nat -> R) (i o w : nat) : Prop :=
  (w < nP)%nat /\ forall p, (p < nP)%nat -> p <> w -> x i (o * nP + p)%nat < x i (o * nP + w)%nat.
Lemma nth_error_vec {A} n (f : nat -> A) k : (k < n)%nat -> nth_error (vec n f) k = Some (f k).
Proof. intros Hk. unfold vec. rewrite nth_error_map, (nth_error_nth' _ 0%nat) by (now rewrite seq_length). now rewrite seq_nth. Qed.
Lemma strict_first nP x i o w : strict_at nP x i o w -> best nP x i o = x i (o * nP + w)%nat /\ whichp nP x i o = Z.of_nat w.
Proof.
  intros [Hw Hs]. assert (HF : first_max (cell nP x i o) (Z.of_nat w) (x i (o * nP + w)%nat)).
  { split; [lia|]. rewrite Nat2Z.id. unfold cell. split; [now rewrite nth_error_vec|].
    intros k y E. assert (Hk : (k < nP)%nat) by (rewrite <- (vec_length nP (fun p => x i (o * nP + p)%nat)); apply nth_error_Some; rewrite E; discriminate).
    rewrite nth_error_vec in E by exact Hk. injection E as <-.
    destruct (Nat.eq_dec k w) as [-> | Hn]; [split; [lra|lia]|]. pose proof (Hs k Hk Hn). split; [lra|auto]. }
  assert (NE : cell nP x i o <> []) by (intros E; destruct HF as (_ & HF & _); rewrite E in HF; now destruct (Z.to_nat (Z.of_nat w))).
  destruct (first_max_unique _ _ _ _ _ (argmax_ok _ NE) HF) as [E1 E2]. split; [exact E2|exact E1].
Qed.
Lemma local_lt (f g : R -> R) a b : derivable_pt_lim f 0 a -> derivable_pt_lim g 0 b -> f 0 < g 0 -> exists e, 0 < e /\ forall s, Rabs s < e -> f s < g s.
Proof.
  intros Hf Hg Hlt.
  assert (C : continuity_pt (fun s => g s - f s) 0).
  { apply derivable_continuous_pt. exists (b - a). apply (derivable_pt_lim_minus g f 0 b a Hg Hf). }
  destruct (C (g 0 - f 0) ltac:(lra)) as (e & He & HC). exists e. split; [exact He|]. intros s Hs.
  destruct (Req_dec s 0) as [-> | Hn]; [exact Hlt|]. specialize (HC s). cbn in HC. unfold R_dist in HC.
  assert (Rabs (g s - f s - (g 0 - f 0)) < g 0 - f 0) as Ha.
  { apply HC. split; [split; [exact I|lra]|]. now rewrite Rminus_0_r. }
  apply Rabs_def2 in Ha. lra.
Qed.
Lemma local_all nP (x : nat -> nat -> jet) i o w : (w < nP)%nat -> (forall p, (p < nP)%nat -> smooth (x i (o * nP + p)%nat)) ->
  (forall p, (p < nP)%nat -> p <> w -> at_time 0 (x i (o * nP + p)%nat) < at_time 0 (x i (o * nP + w)%nat)) ->
  exists e, 0 < e /\ forall s, Rabs s < e -> strict_at nP (fun i j => at_time s (x i j)) i o w.
Proof.
  intros Hw Hsm Hs.
  assert (H : forall n, (n <= nP)%nat -> exists e, 0 < e /\ forall s, Rabs s < e -> forall p, (p < n)%nat -> p <> w -> at_time s (x i (o * nP + p)%nat) < at_time s (x i (o * nP + w)%nat)).
  { induction n as [|n IH]; intros Hn; [exists 1; split; [lra|]; intros; lia|]. destruct (IH ltac:(lia)) as (e & He & H).
    destruct (Nat.eq_dec n w) as [-> | Hne].
    - exists e. split; [exact He|]. intros s Hs' p Hp Hpw. apply H; [exact Hs'|lia|exact Hpw].
    - destruct (local_lt _ _ _ _ (Hsm n ltac:(lia)) (Hsm w Hw) (Hs n ltac:(lia) Hne)) as (e' & He' & H').
      exists (Rmin e e'). split; [now apply Rmin_pos|]. intros s Hs' p Hp Hpw. destruct (Nat.eq_dec p n) as [-> | Hpn].
      + apply H'. eapply Rlt_le_trans; [exact Hs'|apply Rmin_r].
      + apply H; [|lia|exact Hpw]. eapply Rlt_le_trans; [exact Hs'|apply Rmin_l]. }
  destruct (H nP (le_n _)) as (e & He & H'). exists e. split; [exact He|]. intros s Hs'. split; [exact Hw|]. intros p Hp Hpw. now apply H'.
Qed.
Lemma S_concat r c f : S_ (r * c) f = S_ r (fun i => S_ c (fun j => f (i * c + j)%nat)).
Proof.
  unfold S_. rewrite vec_concat. unfold vec at 1 3. generalize (seq 0 r). intros l. induction l as [|i l IH]; [reflexivity|]. cbn [map concat].
  rewrite msum_app, IH. reflexivity.
Qed.
Lemma S_single n w c f : (w < n)%nat -> S_ n (fun p => (if (Z.of_nat p =? Z.of_nat w)%Z then c else 0) * f p) = c * f w.
Proof.
  intros Hw. replace n with (w + S (n - S w))%nat by lia. unfold S_. rewrite vec_app, msum_app. cbn [vec seq map].
  change (vec (S (n - S w)) ?g) with (g 0%nat :: map g (seq 1 (n - S w))). rewrite msum_cons, Nat.add_0_r, Z.eqb_refl.
  assert (Z1 : msum (vec w (fun p => (if (Z.of_nat p =? Z.of_nat w)%Z then c else 0) * f p)) = 0).
  { rewrite (vec_ext w _ (fun _ => 0)); [apply msum_zero|]. intros p Hp. destruct (Z.eqb_spec (Z.of_nat p) (Z.of_nat w)); [lia|]. ring. }
  assert (Z2 : msum (map (fun k => (if (Z.of_nat (w + k) =? Z.of_nat w)%Z then c else 0) * f (w + k)%nat) (seq 1 (n - S w))) = 0).
  { rewrite <- seq_shift, map_map. change (map ?g (seq 0 ?m)) with (vec m g). rewrite (vec_ext _ _ (fun _ => 0)); [apply msum_zero|]. intros p Hp. destruct (Z.eqb_spec (Z.of_nat (w + S p)) (Z.of_nat w)); [lia|]. ring. }
  rewrite Z1, Z2. ring.
Qed.
Lemma maxact_mk_ok (numpy : bool) nO nP tr theta r (x : nat -> nat -> R) : (numpy = true -> r <> 0%nat) -> nO <> 0%nat -> nP <> 0%nat ->
  (forall i o, (i < r)%nat -> (o < nO)%nat -> exists w, strict_at nP x i o w) ->
  differentiates (maxact numpy nO nP) tr theta (Arr2 (mk r (nO * nP) x)) (Arr2 (mk r nO (best nP x))).
Proof.
  intros Hr Ho Hp Hst. eexists. split; [unfold maxact; cbn [as_mat bind]; rewrite maxact_which by assumption; reflexivity|]. split; [apply mk_wf|].
  cbn [fst snd]. intros dY g LdY Lg. apply like_mk_inv in LdY as (d & ->). cbn [as_mat bind].
  destruct (maxact_back numpy r nO nP x d Hr Ho Hp) as (dZ & EZ & ER). rewrite EZ. cbn [bind]. rewrite ER.
  eexists _, g. split; [reflexivity|]. split; [apply like_mk|]. split; [exact Lg|].
  intros P K HP HK SP SK. apply curve_mk in HK as (k & -> & Hk). rewrite smooth_mk in SK.
  assert (Hin : forall o p, (o < nO)%nat -> (p < nP)%nat -> (o * nP + p < nO * nP)%nat) by (intros; nia).
  exists (Arr2 (mk r nO (fun i o => ((fun s => best nP (fun i j => at_time s (k i j)) i o), velocity (k i (o * nP + Z.to_nat (whichp nP x i o))%nat)) : jet))). split.
  { rewrite smooth_mk. intros i o Hi Ho'. destruct (Hst i o Hi Ho') as (w & Hs). rewrite (proj2 (strict_first _ _ _ _ _ Hs)), Nat2Z.id.
    destruct Hs as [Hw Hs]. destruct (local_all nP k i o w Hw) as (e & He & Hl).
    { intros p Hp'. apply SK; [exact Hi|]. now apply Hin. }
    { intros p Hp' Hn. rewrite !Hk by (try exact Hi; now apply Hin). now apply Hs. }
    unfold smooth. cbn [fst snd]. apply (derivable_pt_lim_locally_ext (fst (k i (o * nP + w)%nat)) _ 0 (- e) e); [lra| |].
    - intros s Hs'. assert (Ha : Rabs s < e) by (apply Rabs_def1; lra). now rewrite (proj1 (strict_first _ _ _ _ _ (Hl s Ha))).
    - apply SK; [exact Hi|]. now apply Hin. }
  split.
  { intros s. rewrite !vmap_mk. eexists. unfold maxact. cbn [as_mat bind]. rewrite maxact_which by assumption. reflexivity. }
  rewrite !vmap_mk, !inner_mk. rewrite Rminus_diag_eq by reflexivity. rewrite Rplus_0_r. apply S_ext. intros i Hi.
  rewrite S_concat. apply S_ext. intros o Ho'. destruct (Hst i o Hi Ho') as (w & Hs). destruct (strict_first _ _ _ _ _ Hs) as [_ Ew]. destruct Hs as [Hw _].
  rewrite (S_ext nP) with (g := fun p => (if (Z.of_nat p =? Z.of_nat w)%Z then d i o else 0) * velocity (k i (o * nP + p)%nat)).
  2: { intros p Hp'. rewrite spread_at by exact Hp'. now rewrite Ew. }
  rewrite (S_single nP w (d i o) (fun p => velocity (k i (o * nP + p)%nat))) by exact Hw. rewrite Ew, Nat2Z.id. reflexivity.
Qed.
Lemma maxout_mk_ok (numpy : bool) nO nP nI wo bo tr theta r (x : nat -> nat -> R) :
  (wo + nO * nP * nI <= length theta)%nat -> (bo + nO * nP <= length theta)%nat -> (numpy = true -> r <> 0%nat) -> nO <> 0%nat -> nP <> 0%nat ->
  (forall i o, (i < r)%nat -> (o < nO)%nat -> exists w, strict_at nP (lin theta wo bo nI x) i o w) ->
  differentiates (Maxout numpy nO nP nI wo bo) tr theta (Arr2 (mk r nI x)) (Arr2 (mk r nO (best nP (lin theta wo bo nI x)))).
Proof.
  intros Hw Hb Hr Ho Hp Hst. eapply same_differentiates; [apply maxout_same|]. apply chain_ok. eapply chained_more; [now apply linear_mk_ok|].
  constructor. now apply maxact_mk_ok.
Qed.
