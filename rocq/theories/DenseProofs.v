(** Dense layers, in the words of the specification. *)
From Coq Require Import Reals Lra Lia.
From Verif Require Import KernelModel KernelProofs ReduceSpec ReduceMaxProofs.
From Verif Require Import CombModel CombSpec DenseModel DenseSpec MatProofs BaseFacts CombProofs MkProofs LinearProofs ActLayerProofs MaxoutLayerProofs LayerNormProofs.
Set Default Goal Selector "!".
Local Open Scope R_scope.

Lemma map_nth_vec {A B} (h : A -> B) d l : map h l = vec (length l) (fun i => h (nth i l d)).
Proof.
  induction l as [|a l IH]; [reflexivity|]. cbn [map length]. rewrite IH. unfold vec. cbn [seq map]. f_equal. rewrite <- seq_shift, map_map. reflexivity.
Qed.
Section Bridge.
  Context (nI : nat) (X : mat R) (HX : input_of nI X).
  Let r := length (m_rows X).
  Lemma as_mk : X = mk r nI (ent X).
  Proof. destruct HX as [H1 H2]. rewrite <- H2. now apply mat_mk. Qed.
  Lemma row_vec i : (i < r)%nat -> nth i (m_rows X) [] = vec nI (ent X i).
  Proof. intros Hi. rewrite as_mk at 1. rewrite m_rows_mk. now rewrite nth_vec. Qed.
  Lemma by_row_mk nO f : by_row nO f X = mk r nO (fun i j => f (nth i (m_rows X) []) j).
  Proof.
    unfold by_row. apply mkM_eq. apply (map_nth_vec (fun x => vec nO (f x)) []).
  Qed.
  Lemma affine_lin theta wo bo nO i j : room wo (nO * nI) theta -> (i < r)%nat -> (j < nO)%nat ->
    affine_at theta wo bo nI (nth i (m_rows X) []) j = lin theta wo bo nI (ent X) i j.
  Proof.
    unfold room. intros Hw Hi Hj. unfold affine_at, weight_row, lin. rewrite row_vec by exact Hi. rewrite seg_vec by nia. rewrite dot_S, nsum_S.
    cbn [nadd num_R]. f_equal. apply S_ext. intros k Hk. cbn [nmul num_R]. do 2 f_equal. lia.
  Qed.
  Lemma in_rows i : (i < r)%nat -> In (nth i (m_rows X) []) (m_rows X).
  Proof. intros Hi. now apply nth_In. Qed.
End Bridge.

Lemma linear_diff nO nI wo bo tr theta X : input_of nI X -> room wo (nO * nI) theta -> room bo nO theta ->
  differentiates (Linear nO nI wo bo) tr theta (Arr2 X) (Arr2 (by_row nO (affine_at theta wo bo nI) X)).
Proof.
  intros HX Hw Hb. rewrite by_row_mk. rewrite (mk_ext _ _ _ (lin theta wo bo nI (ent X))) by (intros i j Hi Hj; now apply (affine_lin nI X HX theta wo bo nO)).
  rewrite (as_mk nI X HX) at 1. now apply linear_mk_ok.
Qed.
Lemma pos_max x : pos x = Rmax 0 x.
Proof. unfold pos. destruct (nltb_case (nZ 0) x) as [[-> H]|[-> H]]; cbn in *; unfold Rmax; destruct (Rle_dec 0 x); lra. Qed.
Lemma relu_diff numpy nO nI wo bo tr theta X : input_of nI X -> room wo (nO * nI) theta -> room bo nO theta ->
  everywhere nO (fun x j => affine_at theta wo bo nI x j <> 0) X ->
  differentiates (Relu numpy nO nI wo bo) tr theta (Arr2 X) (Arr2 (by_row nO (fun x j => Rmax 0 (affine_at theta wo bo nI x j)) X)).
Proof.
  intros HX Hw Hb Hk. rewrite by_row_mk.
  rewrite (mk_ext _ _ _ (fun i j => pos (lin theta wo bo nI (ent X) i j))) by (intros i j Hi Hj; rewrite (affine_lin nI X HX theta wo bo nO) by assumption; symmetry; apply pos_max).
  rewrite (as_mk nI X HX) at 1. apply relu_mk_ok; [exact Hw | exact Hb |]. intros i j Hi Hj. rewrite <- (affine_lin nI X HX theta wo bo nO) by assumption. apply Hk; [now apply in_rows|exact Hj].
Qed.
Lemma clip_minmax lo hi x : clip lo hi x = Rmin hi (Rmax lo x).
Proof.
  unfold clip. destruct (nltb_case x lo) as [[-> H]|[-> H]].
  - destruct (nltb_case hi lo) as [[-> H']|[-> H']]; unfold Rmin, Rmax; destruct (Rle_dec lo x); destruct (Rle_dec hi _); lra.
  - destruct (nltb_case hi x) as [[-> H']|[-> H']]; unfold Rmin, Rmax; destruct (Rle_dec lo x); destruct (Rle_dec hi _); lra.
Qed.
Lemma clipped_diff slope offset lo hi nO nI wo bo tr theta X : 0 < slope -> input_of nI X -> room wo (nO * nI) theta -> room bo nO theta ->
  everywhere nO (fun x j => affine_at theta wo bo nI x j * slope + offset <> lo /\ affine_at theta wo bo nI x j * slope + offset <> hi) X ->
  differentiates (ClippedLinear slope offset lo hi nO nI wo bo) tr theta (Arr2 X)
    (Arr2 (by_row nO (fun x j => Rmin hi (Rmax lo (affine_at theta wo bo nI x j * slope + offset))) X)).
Proof.
  intros Hs HX Hw Hb Hk. rewrite by_row_mk.
  rewrite (mk_ext _ _ _ (fun i j => clipped_linear slope offset lo hi (lin theta wo bo nI (ent X) i j)))
    by (intros i j Hi Hj; rewrite (affine_lin nI X HX theta wo bo nO) by assumption; symmetry; apply clip_minmax).
  rewrite (as_mk nI X HX) at 1. apply clipped_mk_ok; [exact Hs | exact Hw | exact Hb |]. intros i j Hi Hj. rewrite <- (affine_lin nI X HX theta wo bo nO) by assumption.
  apply Hk; [now apply in_rows|exact Hj].
Qed.
Lemma fold_max_ge a l : a <= fold_right Rmax a l /\ forall x, In x l -> x <= fold_right Rmax a l.
Proof.
  induction l as [|b l [IH1 IH2]]; [split; [cbn; lra|intros x []]|]. cbn [fold_right]. split; [eapply Rle_trans; [exact IH1|apply Rmax_r]|].
  intros x [<- | Hx]; [apply Rmax_l|]. eapply Rle_trans; [now apply IH2|apply Rmax_r].
Qed.
Lemma fold_max_in a l : fold_right Rmax a l = a \/ In (fold_right Rmax a l) l.
Proof.
  induction l as [|b l IH]; [now left|]. cbn [fold_right]. unfold Rmax at 1 3. destruct (Rle_dec b (fold_right Rmax a l)).
  - destruct IH as [-> | IH]; [now left|right; now right].
  - right. now left.
Qed.
Lemma argmax_maximum l : l <> [] -> fst (argmax l) = maximum l.
Proof.
  intros NE. destruct (argmax_ok l NE) as (_ & H1 & H2). set (m := fst (argmax l)) in *. unfold maximum.
  destruct (fold_max_ge (hd 0 l) l) as [_ G2]. pose proof (G2 m (nth_error_In _ _ H1)).
  assert (In (fold_right Rmax (hd 0 l) l) l) as Hi.
  { destruct (fold_max_in (hd 0 l) l) as [-> | Hi]; [|exact Hi]. destruct l; [congruence|now left]. }
  apply In_nth_error in Hi as (k & Hk). destruct (H2 _ _ Hk). lra.
Qed.
Lemma pieces_cell nI X theta wo bo nO nP i o : input_of nI X -> room wo (nO * nP * nI) theta -> (i < length (m_rows X))%nat -> (o < nO)%nat ->
  pieces theta wo bo nI nP (nth i (m_rows X) []) o = cell nP (lin theta wo bo nI (ent X)) i o.
Proof.
  intros HX Hw Hi Ho. unfold pieces, cell. apply vec_ext. intros p Hp. apply (affine_lin nI X HX theta wo bo (nO * nP)); [exact Hw | exact Hi | nia].
Qed.
Lemma maxout_diff numpy nO nP nI wo bo tr theta X : input_of nI X -> room wo (nO * nP * nI) theta -> room bo (nO * nP) theta ->
  nO <> 0%nat -> nP <> 0%nat -> (numpy = true -> m_rows X <> []) ->
  everywhere nO (fun x o => unique_max (pieces theta wo bo nI nP x o)) X ->
  differentiates (Maxout numpy nO nP nI wo bo) tr theta (Arr2 X) (Arr2 (by_row nO (fun x o => maximum (pieces theta wo bo nI nP x o)) X)).
Proof.
  intros HX Hw Hb Ho Hp Hn Hk. rewrite by_row_mk.
  rewrite (mk_ext _ _ _ (best nP (lin theta wo bo nI (ent X)))).
  2: { intros i o Hi Ho'. rewrite (pieces_cell nI X theta wo bo nO) by assumption. symmetry. apply argmax_maximum. intros E. apply (f_equal (@length R)) in E. unfold cell in E. rewrite vec_length in E. now cbn in E. }
  rewrite (as_mk nI X HX) at 1. apply maxout_mk_ok; [exact Hw | exact Hb | | exact Ho | exact Hp |].
  - intros E H0. apply (Hn E). now destruct (m_rows X).
  - intros i o Hi Ho'. destruct (Hk _ (in_rows X i Hi) o Ho') as (w & m & E & H). rewrite (pieces_cell nI X theta wo bo nO) in E, H by assumption.
    assert (Hwp : (w < nP)%nat) by (rewrite <- (vec_length nP (fun p => lin theta wo bo nI (ent X) i (o * nP + p)%nat)); apply nth_error_Some; unfold cell in E; rewrite E; discriminate).
    exists w. split; [exact Hwp|]. intros p Hp' Hne. unfold cell in E. rewrite nth_error_vec in E by exact Hwp. apply (f_equal (fun z => match z with Some y => y | None => 0 end)) in E. rewrite E. apply (H p); [|exact Hne]. unfold cell. now rewrite nth_error_vec.
Qed.
Lemma mean_vec n f : mean (vec n f) = S_ n f / INR n. Proof. unfold mean. rewrite vec_length. reflexivity. Qed.
Lemma layernorm_diff nI go bo tr theta X : input_of nI X -> room go nI theta -> room bo nI theta ->
  differentiates (LayerNorm nI go bo) tr theta (Arr2 X) (Arr2 (by_row nI (layer_norm_at theta go bo) X)).
Proof.
  intros HX Hg Hb. rewrite by_row_mk.
  rewrite (mk_ext _ _ _ (resc theta go bo (xh nI (ent X)))).
  2: { intros i j Hi Hj. unfold layer_norm_at, resc, xh, vr, di, mu_, inv_sqrt. rewrite (row_vec nI X HX) by exact Hi. unfold variance.
       rewrite nth_vec by exact Hj. rewrite map_vec, !mean_vec, !nsum_S, !nnat_INR. cbn [nadd nsub nmul ndiv nsqrt nZ num_R]. unfold Rdiv at 1. unfold par. cbn [nZ num_R].
       do 3 f_equal. unfold Rdiv. rewrite !Rmult_1_l. reflexivity. }
  rewrite (as_mk nI X HX) at 1. now apply layernorm_mk_ok.
Qed.

(** ** Inputs of the wrong width, missing parameters *)
Lemma matmul_wrong (a b : mat R) : m_cols a <> length (m_rows b) -> matmul a b = Err ValueError.
Proof. intros H. unfold matmul. destruct (Nat.eqb_spec (m_cols a) (length (m_rows b))); [contradiction|reflexivity]. Qed.
Lemma gemm_wrong (X : mat R) r c f : m_cols X <> c -> gemm X (mk r c f) false true = Err ValueError.
Proof. intros H. unfold gemm. rewrite transpose_mk. apply matmul_wrong. now rewrite mk_rows. Qed.
Lemma linear_width nO nI wo bo tr theta X : m_cols X <> nI -> room wo (nO * nI) theta -> room bo nO theta ->
  Linear nO nI wo bo tr theta (Arr2 X) = Err ValueError /\
  (forall numpy, Relu numpy nO nI wo bo tr theta (Arr2 X) = Err ValueError) /\
  (forall slope offset lo hi, ClippedLinear slope offset lo hi nO nI wo bo tr theta (Arr2 X) = Err ValueError).
Proof.
  intros HX Hw Hb. unfold Linear, Relu, ClippedLinear, affine. rewrite get_param2_ok, get_param1_ok by assumption. cbn [bind as_mat].
  repeat split; intros; now rewrite gemm_wrong.
Qed.
Lemma maxout_width numpy nO nP nI wo bo tr theta X : m_cols X <> nI -> room wo (nO * nP * nI) theta -> room bo (nO * nP) theta ->
  Maxout numpy nO nP nI wo bo tr theta (Arr2 X) = Err ValueError.
Proof. intros HX Hw Hb. unfold Maxout. rewrite get_param2_ok, get_param1_ok by assumption. cbn [bind as_mat]. now rewrite gemm_wrong. Qed.
Lemma missing_bias nO nI wo bo tr theta X : ~ room bo nO theta ->
  Linear nO nI wo bo tr theta X = Err KeyError /\ (forall numpy, Relu numpy nO nI wo bo tr theta X = Err KeyError) /\
  (forall slope offset lo hi, ClippedLinear slope offset lo hi nO nI wo bo tr theta X = Err KeyError).
Proof.
  unfold room. intros Hb. assert (E : get_param1 theta bo nO = Err KeyError) by (apply get_param1_short; lia).
  unfold Linear, Relu, ClippedLinear, get_param2. rewrite E. unfold get_param1. repeat split; intros; now destruct (Nat.leb (wo + nO * nI) (length theta)).
Qed.
(** A gradient of another shape *)
Lemma linear_grad_width nO nI wo bo tr theta X : input_of nI X -> room wo (nO * nI) theta -> room bo nO theta ->
  exists Y b, Linear nO nI wo bo tr theta (Arr2 X) = Ok (Y, b) /\
    forall dY g, length g = length theta -> wf_mat dY -> m_cols dY = nO -> length (m_rows dY) <> length (m_rows X) -> b (Arr2 dY) g = Err ValueError.
Proof.
  intros HX Hw Hb. destruct (linear_diff nO nI wo bo tr theta X HX Hw Hb) as (b & E & _). eexists _, b. split; [exact E|].
  intros dY g Lg Wd Cd Ld. revert E. unfold Linear. rewrite get_param2_ok, get_param1_ok by assumption. cbn [bind as_mat].
  destruct (gemm X _ false true) as [Y0|]; [|discriminate]. cbn [bind]. destruct (miadd Y0 _) as [Y|]; [|discriminate]. cbn [bind]. intros E. injection E as _ <-. cbn [as_mat bind].
  rewrite (mat_mk dY Wd), Cd, sum0_mk. destruct (inc_grad_ok g bo nO (fun j => nsum (vec (length (m_rows dY)) (fun i => ent dY i j)))) as (g1 & -> & _); [unfold room in Hb; lia|]. cbn [bind].
  unfold gemm at 1. rewrite transpose_mk. now rewrite matmul_wrong.
Qed.
(** A slope of 0 *)
Lemma clipped_zero offset lo hi nO nI wo bo tr theta X Y b : ClippedLinear 0 offset lo hi nO nI wo bo tr theta (Arr2 X) = Ok (Y, b) ->
  forall dY g, b (Arr2 dY) g = Err ZeroDivisionError.
Proof.
  unfold ClippedLinear. destruct (get_param2 _ _ _ _); [|discriminate]. destruct (get_param1 _ _ _); [|discriminate]. cbn [bind as_mat]. destruct (affine _ _ _); [|discriminate].
  cbn [bind]. intros E. injection E as _ <-. intros dY g. cbn [as_mat bind neqb num_R nZ]. destruct (Req_EM_T 0 0); [reflexivity|lra].
Qed.
(** LayerNorm broadcasts an input of width 1 *)
Lemma layernorm_broadcast : exists Y b, LayerNorm 2 0 2 true [1; 1; 0; 0] (Arr2 (mkM 1 [[5]])) = Ok (Y, b) /\ exists m, Y = Arr2 m /\ m_cols m = 2%nat.
Proof. eexists _, _. split; [reflexivity|]. eexists. split; reflexivity. Qed.
