(** Layers with an activation after an affine map. *)
From Coq Require Import Reals Lra Lia.
From Verif Require Import CombModel CombSpec DenseModel DenseSpec ActModel ActSpec MatProofs BaseFacts CombProofs CombDiffProofs CombBuiltProofs MkProofs LinearProofs ActLayerProofs DenseProofs ActProofs.
Set Default Goal Selector "!".
Local Open Scope R_scope.

Lemma activated_same f back back0 nO nI wo bo : (forall dY X P, back dY X P (mmap f P) = back0 dY P) ->
  same_layer (activated f back nO nI wo bo) (chain [Linear nO nI wo bo; act f back0]).
Proof.
  intros HB tr theta X. unfold activated, chain, chain_loop, Linear, act, affine. destruct (get_param2 theta wo nO nI) as [W|]; cbn [bind]; [|exact I].
  destruct (get_param1 theta bo nO) as [b|]; cbn [bind]; [|exact I]. destruct (as_mat X) as [Xm|]; cbn [bind]; [|exact I].
  destruct (gemm Xm W false true) as [Y0|]; cbn [bind]; [|exact I]. destruct (miadd Y0 (as_row b)) as [Y|]; cbn [bind fst snd as_mat]; [|exact I].
  split; [reflexivity|]. intros dY g. cbn [rev app chain_back]. destruct (as_mat dY) as [d|]; cbn [bind]; [|reflexivity]. rewrite HB.
  destruct (back0 d Y) as [d'|]; cbn [bind fst snd as_mat]; [|reflexivity].
  destruct (inc_grad g bo (sum0 d')) as [g1|]; cbn [bind]; [|reflexivity]. destruct (gemm d' Xm true false) as [dW|]; cbn [bind]; [|reflexivity].
  destruct (inc_grad g1 wo (concat (m_rows dW))) as [g2|]; cbn [bind]; [|reflexivity]. now destruct (gemm d' W false false).
Qed.
Lemma activated_diff f back back0 (der : R -> R) nO nI wo bo tr theta X : (forall dY X P, back dY X P (mmap f P) = back0 dY P) ->
  (forall r c d p, back0 (mk r c d) (mk r c p) = Ok (mk r c (fun i j => d i j * der (p i j)))) ->
  input_of nI X -> room wo (nO * nI) theta -> room bo nO theta ->
  everywhere nO (fun x j => derivable_pt_lim f (affine_at theta wo bo nI x j) (der (affine_at theta wo bo nI x j))) X ->
  differentiates (activated f back nO nI wo bo) tr theta (Arr2 X) (Arr2 (by_row nO (fun x j => f (affine_at theta wo bo nI x j)) X)).
Proof.
  intros HB HB0 HX Hw Hb Hd. eapply same_differentiates; [apply (activated_same f back back0 nO nI wo bo HB)|]. rewrite by_row_mk.
  rewrite (mk_ext _ _ _ (fun i j => f (lin theta wo bo nI (ent X) i j))) by (intros i j Hi Hj; now rewrite (affine_lin nI X HX theta wo bo nO)).
  rewrite (as_mk nI X HX) at 1.
  apply (act_after_linear f back0 tr theta nO nI wo bo _ (ent X) (fun i j => der (lin theta wo bo nI (ent X) i j)) Hw Hb); [intros d; apply HB0|].
  intros i j Hi Hj. rewrite <- (affine_lin nI X HX theta wo bo nO) by assumption. apply (Hd _ (in_rows X i Hi) j Hj).
Qed.
Lemma true_der f back x : (forall d, back d x = d * back 1 x) -> differentiable f x -> true_at f back x -> derivable_pt_lim f x (back 1 x).
Proof. intros _ (l & D) H. rewrite (H l D 1), Rmult_1_l. exact D. Qed.
Lemma simple_back (back : R -> R -> R) : (forall d x, back d x = d * back 1 x) -> forall r c d p,
  mbin back (mk r c d) (mk r c p) = Ok (mk r c (fun i j => d i j * back 1 (p i j))).
Proof. intros H r c d p. rewrite mbin_same. f_equal. apply mk_ext. intros i j _ _. apply H. Qed.
Lemma simple_diff f back nO nI wo bo tr theta X : (forall d x, back d x = d * back 1 x) ->
  input_of nI X -> room wo (nO * nI) theta -> room bo nO theta ->
  everywhere nO (fun x j => differentiable f (affine_at theta wo bo nI x j) /\ true_at f back (affine_at theta wo bo nI x j)) X ->
  differentiates (activated f (fun dY _ P _ => mbin back dY P) nO nI wo bo) tr theta (Arr2 X) (Arr2 (by_row nO (fun x j => f (affine_at theta wo bo nI x j)) X)).
Proof.
  intros Hs HX Hw Hb Hd. apply (activated_diff f _ (fun dY P => mbin back dY P) (back 1)); [reflexivity|now apply simple_back|assumption..|].
  intros x Hx j Hj. destruct (Hd x Hx j Hj) as [D Tr]. apply true_der; [intros; apply Hs|exact D|exact Tr].
Qed.

Lemma hard_swish_diff nO nI wo bo tr theta X : input_of nI X -> room wo (nO * nI) theta -> room bo nO theta ->
  everywhere nO (fun x j => affine_at theta wo bo nI x j <> 5/2 /\ affine_at theta wo bo nI x j <> -5/2) X ->
  differentiates (HardSwish nO nI wo bo) tr theta (Arr2 X) (Arr2 (by_row nO (fun x j => hard_swish (affine_at theta wo bo nI x j)) X)).
Proof.
  intros HX Hw Hb Hd. apply simple_diff; [|assumption..|].
  - intros d x. unfold backprop_hard_swish. cbn [nmul num_R]. ring.
  - intros x Hx j Hj. destruct (Hd x Hx j Hj) as [H1 H2]. destruct (hard_swish_true (affine_at theta wo bo nI x j)) as [A B]. split; [now apply A|exact B].
Qed.
Lemma mobilenet_diff nO nI wo bo tr theta X : input_of nI X -> room wo (nO * nI) theta -> room bo nO theta ->
  everywhere nO (fun x j => affine_at theta wo bo nI x j <> 3 /\ affine_at theta wo bo nI x j <> -3) X ->
  differentiates (HardSwishMobilenet nO nI wo bo) tr theta (Arr2 X) (Arr2 (by_row nO (fun x j => hard_swish_mobilenet (affine_at theta wo bo nI x j)) X)).
Proof.
  intros HX Hw Hb Hd. apply simple_diff; [|assumption..|].
  - intros d x. unfold backprop_hard_swish_mobilenet. cbn [nmul num_R]. ring.
  - intros x Hx j Hj. destruct (Hd x Hx j Hj) as [H1 H2]. destruct (mobilenet_true (affine_at theta wo bo nI x j)) as [A B]. split; [now apply A|exact B].
Qed.
Lemma mish_scale t (d x : R) : backprop_mish t d x = d * backprop_mish t 1 x.
Proof. unfold backprop_mish. destruct (nltb x t); cbn [nmul num_R]; ring. Qed.
Lemma mish_diff (compiled : bool) nO nI wo bo tr theta X : input_of nI X -> room wo (nO * nI) theta -> room bo nO theta ->
  everywhere nO (fun x j => affine_at theta wo bo nI x j <> 20) X ->
  differentiates ((if compiled then np_Mish else Mish) nO nI wo bo) tr theta (Arr2 X) (Arr2 (by_row nO (fun x j => mish 20 (affine_at theta wo bo nI x j)) X)).
Proof.
  intros HX Hw Hb Hd. assert (Hder : everywhere nO (fun x j => derivable_pt_lim (mish 20) (affine_at theta wo bo nI x j) (backprop_mish 20 1 (affine_at theta wo bo nI x j))) X).
  { intros x Hx j Hj. destruct (mish_true 20 (affine_at theta wo bo nI x j) (Hd x Hx j Hj)) as [A B]. apply true_der; [intros; apply mish_scale|exact A|exact B]. }
  destruct compiled.
  - change (differentiates (np_Mish nO nI wo bo) tr theta (Arr2 X) (Arr2 (by_row nO (fun x j => cpu_mish (nZ 20) (affine_at theta wo bo nI x j)) X))). unfold np_Mish.
    apply (activated_diff (cpu_mish (nZ 20)) _ (fun dY P => if mshape_eq dY P then mbin (cpu_backprop_mish (nZ 20)) dY P else Err ValueError) (backprop_mish 20 1) nO nI wo bo tr theta X); [reflexivity| |assumption..].
    intros r c d p. rewrite mshape_mk, !Nat.eqb_refl. cbn [andb]. rewrite mbin_same. f_equal. apply mk_ext. intros i j _ _. rewrite cpu_mish_back_is. apply mish_scale.
  - change (differentiates (Mish nO nI wo bo) tr theta (Arr2 X) (Arr2 (by_row nO (fun x j => mish (nZ 20) (affine_at theta wo bo nI x j)) X))). unfold Mish.
    apply (activated_diff (mish (nZ 20)) _ (fun dY P => if mshape_eq dY P then mbin (backprop_mish (nZ 20)) dY P else Err ValueError) (backprop_mish 20 1) nO nI wo bo tr theta X); [reflexivity| |assumption..].
    intros r c d p. rewrite mshape_mk, !Nat.eqb_refl. cbn [andb]. rewrite mbin_same. f_equal. apply mk_ext. intros i j _ _. apply mish_scale.
Qed.
Lemma swish_diff nO nI wo bo tr theta X : input_of nI X -> room wo (nO * nI) theta -> room bo nO theta ->
  everywhere nO (fun x j => -20 < affine_at theta wo bo nI x j < 20) X ->
  differentiates (Swish nO nI wo bo) tr theta (Arr2 X) (Arr2 (by_row nO (fun x j => swish (affine_at theta wo bo nI x j)) X)).
Proof.
  intros HX Hw Hb Hd.
  apply (activated_diff swish _ (fun dY P => let* f := mbin (fun p y => nadd y (nmul (sigmoid p) (nsub (nZ 1) y))) P (mmap swish P) in mbin nmul dY f) (swish_back 1)); [reflexivity| |assumption..|].
  - intros r c d p. rewrite mmap_mk, mbin_same. cbn [bind]. rewrite mbin_same. f_equal. apply mk_ext. intros i j _ _.
    unfold swish_back, backprop_swish. cbn [nmul num_R]. rewrite Rmult_1_l. reflexivity.
  - intros x Hx j Hj. destruct (swish_true _ (Hd x Hx j Hj)) as [A B]. apply true_der; [|exact A|exact B]. intros d. unfold swish_back, backprop_swish. cbn [nmul num_R]. ring.
Qed.
Lemma sigmoid_scale d x : sigmoid_back d x = d * sigmoid_back 1 x.
Proof. unfold sigmoid_back, backprop_sigmoid. cbn [nmul num_R]. ring. Qed.
Lemma sigmoid_diff nO nI wo bo tr theta X : input_of nI X -> room wo (nO * nI) theta -> room bo nO theta ->
  everywhere nO (fun x j => -20 < affine_at theta wo bo nI x j < 20) X ->
  differentiates (Sigmoid nO nI wo bo) tr theta (Arr2 X) (Arr2 (by_row nO (fun x j => sigmoid (affine_at theta wo bo nI x j)) X)).
Proof.
  intros HX Hw Hb Hd. apply (activated_diff sigmoid _ (fun dY P => mbin backprop_sigmoid dY (mmap sigmoid P)) (sigmoid_back 1)); [reflexivity| |assumption..|].
  - intros r c d p. rewrite mmap_mk, mbin_same. f_equal. apply mk_ext. intros i j _ _. apply (sigmoid_scale (d i j) (p i j)).
  - intros x Hx j Hj. pose proof (Hd x Hx j Hj) as H. cbv beta in H. destruct (sigmoid_true (affine_at theta wo bo nI x j)) as [A B]; [lra|].
    apply true_der; [intros; apply sigmoid_scale|now apply A|exact B].
Qed.
Lemma sigmoid_act_diff nI tr theta X : input_of nI X -> everywhere nI (fun x j => -20 < nth j x 0 < 20) X ->
  differentiates sigmoid_activation tr theta (Arr2 X) (Arr2 (by_row nI (fun x j => sigmoid (nth j x 0)) X)).
Proof.
  intros HX Hd. eapply same_differentiates with (L' := act sigmoid (fun d m => mbin nmul d (mmap dsigmoid (mmap sigmoid m)))).
  { intros tr' theta' X'. unfold sigmoid_activation, act. destruct (as_mat X') as [m|]; cbn [bind]; [|exact I]. now split. }
  rewrite by_row_mk. rewrite (mk_ext _ _ _ (fun i j => sigmoid (ent X i j))) by (intros i j Hi Hj; rewrite (row_vec nI X HX) by exact Hi; now rewrite nth_vec).
  rewrite (as_mk nI X HX) at 1. apply (act_mk_ok sigmoid _ tr theta _ nI (ent X) (fun i j => sigmoid_back 1 (ent X i j))).
  - intros d. rewrite !mmap_mk, mbin_same. f_equal. apply mk_ext. intros i j _ _. rewrite <- sigmoid_scale. reflexivity.
  - intros i j Hi Hj. assert (E : nth j (nth i (m_rows X) []) 0 = ent X i j) by (rewrite (row_vec nI X HX) by exact Hi; now rewrite nth_vec).
    pose proof (Hd _ (in_rows X i Hi) j Hj) as H. cbv beta in H. rewrite E in H. destruct (sigmoid_true (ent X i j)) as [A B]; [lra|].
    apply true_der; [intros; apply sigmoid_scale|now apply A|exact B].
Qed.

(** ** Dish *)
Lemma dish_shapes nO nI wo bo tr (theta : list R) X Y b : Dish nO nI wo bo tr theta (Arr2 X) = Ok (Y, b) -> m_cols X = nI -> nO <> nI -> nO <> 1%nat -> nI <> 1%nat ->
  forall dY g, m_cols dY = nO -> b (Arr2 dY) g = Err ValueError.
Proof.
  intros E HX N1 N2 N3 dY g Hd. unfold Dish, activated in E.
  destruct (get_param2 theta wo nO nI) as [W|]; cbn [bind] in E; [|discriminate]. destruct (get_param1 theta bo nO) as [c|]; cbn [bind as_mat] in E; [|discriminate].
  destruct (affine X W c) as [P|]; cbn [bind] in E; [|discriminate]. injection E as _ <-. cbn [as_mat bind]. unfold mbin, mshape_eq, bdim. rewrite Hd, HX.
  rewrite (proj2 (Nat.eqb_neq nO nI) N1), Bool.andb_false_r. rewrite (proj2 (Nat.eqb_neq nO 1) N2), (proj2 (Nat.eqb_neq nI 1) N3).
  match goal with |- context [match ?o with Some _ => _ | None => _ end] => destruct o; reflexivity end.
Qed.
Lemma dish_der x : derivable_pt_lim dish x (backprop_dish 1 x).
Proof. apply true_der; [|apply dish_true..]. intros d. unfold backprop_dish. cbn [nmul num_R]. ring. Qed.
Lemma dish_wrong : ~ differentiates (Dish 1 1 0 1) true [1; 1] (Arr2 (mkM 1 [[0]])) (Arr2 (mkM 1 [[dish 1]])).
Proof.
  intros (b & E & _ & D). specialize (D (Arr2 (mkM 1 [[1]])) [0; 0]). destruct D as (dX & g' & Eb & _ & _ & D).
  { cbn. repeat split; repeat constructor. } { reflexivity. }
  unfold Dish, activated in E. cbn in E. injection E as _ Hb. rewrite <- Hb in Eb. cbn in Eb. injection Eb as <- <-.
  destruct (D [((fun _ => 1), 0); ((fun _ => 1), 0)] (Arr2 (mkM 1 [[((fun s => s), 1)]]))) as (K' & SK & HA & HI).
  { reflexivity. } { reflexivity. } { repeat constructor; apply derivable_pt_lim_const. } { repeat constructor. apply derivable_pt_lim_id. }
  assert (HK : exists k, K' = Arr2 (mkM 1 [[k]])).
  { destruct (HA 0) as (b' & E0). unfold Dish, activated in E0. cbn in E0. injection E0 as E0 _. destruct K' as [| |[c rows]| | | |]; try discriminate. cbn in E0. injection E0 as <- E0.
    destruct rows as [|[|k [|]] [|]]; try discriminate. now exists k. }
  destruct HK as (k & ->).
  assert (HF : forall s, fst k s = dish (s + 1)).
  { intros s. destruct (HA s) as (b' & E0). unfold Dish, activated in E0. cbn in E0. injection E0 as E0 _. unfold at_time in E0. rewrite <- E0. rewrite dish_is. f_equal; [ring|].
    f_equal. f_equal. f_equal; [ring|]. f_equal. ring. }
  inversion SK as [|? ? Sk _]. subst. unfold smooth in Sk.
  assert (Hv : snd k = backprop_dish 1 1).
  { apply (uniqueness_limite (fst k) 0); [exact Sk|]. apply (der_local _ (fun s => dish (s + 1)) 0 (-1) 1); [lra|intros; apply HF|].
    apply (der_eq _ _ (backprop_dish 1 1 * (1 + 0))); [|ring]. apply (derivable_pt_lim_comp (fun s => s + 1) dish).
    - apply (derivable_pt_lim_plus (fun s => s) (fun _ => 1)); [apply derivable_pt_lim_id|apply derivable_pt_lim_const].
    - replace (0 + 1) with 1 by ring. apply dish_der. }
  cbn in HI. unfold velocity in HI. rewrite Hv in HI. cbn in HI. replace (0 * 0 + 1) with 1 in HI by ring. rewrite sqrt_1 in HI.
  replace (1 * 1 + 1) with 2 in HI by ring. pose proof (sqrt_lt_R0 2 ltac:(lra)) as P. pose proof (sqrt_sqrt 2 ltac:(lra)) as S2. set (q := sqrt 2) in *.
  assert (F : 1 / q - 5 / 10 * 1 * (1 * 1) / (2 * q) = 3 / 4 * / q) by (field; lra). pose proof (Rinv_0_lt_compat q P). lra.
Qed.

(** ** relu, as an operation *)
Lemma relu_true (numpy : bool) x : (x <> 0 -> differentiable (Rmax 0) x) /\
  (if numpy then np_relu else op_relu) (mkM 1 [[x]]) = mkM 1 [[Rmax 0 x]] /\
  forall l, derivable_pt_lim (Rmax 0) x l -> forall d,
    (if numpy then np_backprop_relu else op_backprop_relu) (mkM 1 [[d]]) (mkM 1 [[Rmax 0 x]]) = Ok (mkM 1 [[d * l]]).
Proof.
  destruct (pos_true x) as [A B]. split; [intros N; destruct (A N) as [l D]; exists l; apply (der_local _ (fun z => Rmax 0 z) x (x - 1) (x + 1)); [lra|reflexivity|exact D]|].
  assert (F : np_relu (mkM 1 [[x]]) = mkM 1 [[Rmax 0 x]]).
  { unfold np_relu, mmap. cbn [m_cols m_rows map]. do 3 f_equal. apply pos_max. }
  assert (F' : op_relu (mkM 1 [[x]]) = mkM 1 [[Rmax 0 x]]) by (rewrite op_relu_np; exact F).
  split; [destruct numpy; assumption|]. intros l D d.
  assert (D' : derivable_pt_lim (fun z => Rmax 0 z) x l) by (apply (der_local _ (Rmax 0) x (x - 1) (x + 1)); [lra|reflexivity|exact D]).
  specialize (B l D' d). cbv beta in B. pose proof (relu_back_mk numpy 1 1 (fun _ _ => d) (fun _ _ => x)) as E. unfold relu_back in E.
  change (mk 1 1 (fun _ _ => d)) with (mkM 1 [[d]]) in E. change (mk 1 1 (fun _ _ => x)) with (mkM 1 [[x]]) in E. rewrite F, F' in E.
  assert (G : d * l = d * step x) by (rewrite <- B, <- pos_max; apply pos_gate). rewrite G. destruct numpy; exact E.
Qed.
