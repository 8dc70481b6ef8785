(** Proofs about training steps. *)
From Coq Require Import Reals Lra Lia FunctionalExtensionality.
From Verif Require Import TrainModel TrainSpec DictFacts OptRealProofs MatProofs MkProofs CombProofs CombBuiltProofs LossProofs CosineProofs DenseModel SoftModel SoftProofs.
Local Open Scope list_scope.
Local Open Scope R_scope.
Set Default Goal Selector "!".

(** ** One variable *)
Lemma descend f l : derivable_pt_lim f 0 l -> l < 0 -> exists d, 0 < d /\ forall h, 0 < h < d -> f h < f 0.
Proof.
  intros D Hl. destruct (D (- l) ltac:(lra)) as [d Hd]. exists d. split; [apply cond_pos|]. intros h Hh.
  specialize (Hd h ltac:(lra) ltac:(rewrite Rabs_right; lra)). rewrite Rplus_0_l in Hd.
  apply Rabs_def2 in Hd as [Hd _]. assert ((f h - f 0) / h < 0) by lra.
  apply (Rmult_lt_compat_r h) in H; [|lra]. unfold Rdiv in H. rewrite Rmult_assoc, Rinv_l in H by lra. lra.
Qed.

(** ** Directions *)
Section Dir.
  Context {K : Type} `{EqD K}.
  Variable f : K -> list R -> list R.
  Variable D : K -> list R -> R -> R.
  Hypothesis fD : forall k g, f k g = map (fun x => x * D k g x) g.
  Hypothesis Dpos : forall k g x, 0 < D k g x.
  Fixpoint dirs (ps : list (K * list nat)) (g : list R) : list R :=
    match ps with
    | [] => []
    | (k, sh) :: ps => f k (firstn (size_of sh) g) ++ dirs ps (skipn (size_of sh) g)
    end.
  Lemma f_len k g : length (f k g) = length g. Proof. rewrite fD. apply map_length. Qed.
  Lemma dot_dir E : (forall x, 0 < E x) -> forall g, 0 <= dot g (map (fun x => x * E x) g) /\ (dot g (map (fun x => x * E x) g) = 0 -> Forall (eq 0) g).
  Proof.
    intros HE. induction g as [|x g [I1 I2]]; cbn [map].
    - unfold dot; cbn. split; [lra|constructor].
    - rewrite dot_cons. pose proof (HE x) as Hx. assert (0 <= x * (x * E x)) by (pose proof (Rle_0_sqr x); unfold Rsqr in *; nra). split; [lra|].
      intros E0. constructor; [|apply I2; lra].
      assert (x * x * E x = 0) by lra. apply Rmult_integral in H1 as [H1|H1]; [|lra]. apply Rmult_integral in H1 as [H1|H1]; lra.
  Qed.
  Lemma dirs_len : forall ps g, length g = list_sum (map (fun p => size_of (snd p)) ps) -> length (dirs ps g) = length g.
  Proof.
    induction ps as [|[k sh] ps IH]; intros g L; cbn [dirs map list_sum fold_right snd] in *; [destruct g; [reflexivity|discriminate]|].
    unfold list_sum in L. cbn [fold_right] in L. fold (list_sum (map (fun p => size_of (snd p)) ps)) in L.
    rewrite app_length, f_len, IH by (rewrite skipn_length; lia). rewrite firstn_length, skipn_length. lia.
  Qed.
  Lemma dirs_dot : forall ps g, length g = list_sum (map (fun p => size_of (snd p)) ps) -> 0 <= dot g (dirs ps g) /\ (dot g (dirs ps g) = 0 -> Forall (eq 0) g).
  Proof.
    induction ps as [|[k sh] ps IH]; intros g L; cbn [dirs map snd] in *.
    - destruct g; [|discriminate]. unfold dot; cbn. split; [lra|constructor].
    - unfold list_sum in L. cbn [fold_right] in L. fold (list_sum (map (fun p => size_of (snd p)) ps)) in L.
      destruct (IH (skipn (size_of sh) g)) as [I1 I2]; [rewrite skipn_length; lia|].
      destruct (dot_dir (D k (firstn (size_of sh) g)) (Dpos _ _) (firstn (size_of sh) g)) as [J1 J2]. rewrite <- fD in J1, J2.
      assert (E : dot g (f k (firstn (size_of sh) g) ++ dirs ps (skipn (size_of sh) g)) = dot (firstn (size_of sh) g) (f k (firstn (size_of sh) g)) + dot (skipn (size_of sh) g) (dirs ps (skipn (size_of sh) g))).
      { rewrite <- (firstn_skipn (size_of sh) g) at 1. apply dot_app. now rewrite f_len. }
      rewrite E. split; [lra|]. intros E0. rewrite <- (firstn_skipn (size_of sh) g). apply Forall_app. split; [apply J2|apply I2]; lra.
  Qed.

  Variable adam : list R -> list R -> list R -> list R -> R -> R -> R -> R -> list R * list R * list R * list R.
  Variable hp : hyper R K.
  Variable eta : R.
  Variable Inv : opt R K -> list K -> Prop.
  Hypothesis step : forall st k sh ks w g, Inv st (k :: ks) -> sh <> [] -> length w = size_of sh -> length g = size_of sh ->
    exists st' g', opt_call adam (with_rate hp eta) st k (mkArr sh w) (mkArr sh g) 1 = (st', Ok (mkArr sh (vmap2 (fun w v => w - eta * v) w (f k g)), g')) /\ Inv st' ks.
  Lemma vmap2_app (h : R -> R -> R) a : forall b c d, length a = length b -> vmap2 h (a ++ c) (b ++ d) = vmap2 h a b ++ vmap2 h c d.
  Proof. induction a as [|x a IH]; intros [|y b] c d L; try discriminate; cbn; [reflexivity|]. unfold vmap2 in IH. now rewrite IH by (cbn in L; lia). Qed.
  Lemma finish_dirs : forall ps st theta g, Inv st (map fst ps) -> layout ps theta -> length g = length theta ->
    snd (finish_flat adam (with_rate hp eta) st ps theta g) = Ok (vmap2 (fun w v => w - eta * v) theta (dirs ps g)).
  Proof.
    induction ps as [|[k sh] ps IH]; intros st theta g HI [HF L] Lg; cbn [finish_flat dirs map fst snd] in *.
    - destruct theta; [reflexivity|discriminate].
    - inversion HF as [|? ? Hs HF']; subst. unfold list_sum in L. cbn [fold_right] in L. fold (list_sum (map (fun p => size_of (snd p)) ps)) in L.
      destruct (step st k sh (map fst ps) (firstn (size_of sh) theta) (firstn (size_of sh) g) HI Hs) as (st' & g' & E & HI'); [rewrite firstn_length; lia..|].
      change (nZ 1) with 1. rewrite E. specialize (IH st' (skipn (size_of sh) theta) (skipn (size_of sh) g) HI').
      destruct (finish_flat adam (with_rate hp eta) st' ps (skipn (size_of sh) theta) (skipn (size_of sh) g)) as [st2 r2]. cbn [snd] in *.
      rewrite IH; [|split; [exact HF'|rewrite skipn_length; lia]|rewrite !skipn_length; lia].
      cbn [bind a_data]. rewrite <- vmap2_app by (rewrite f_len, !firstn_length; lia). now rewrite firstn_skipn.
  Qed.
End Dir.

(** ** Clipping *)
Definition clip_by (c : R) (g : list R) : R :=
  if neqb c (nZ 0) then 1 else if negb (nltb (OptModel.norm g) c) then c / OptModel.norm g else 1.
Lemma clip_by_ok c g : (if negb (neqb c (nZ 0)) then clip_gradient g c else g) = map (fun x => x * clip_by c g) g.
Proof.
  unfold clip_by, clip_gradient. destruct (neqb c (nZ 0)); cbn [negb].
  - rewrite <- (map_id g) at 1. apply map_ext. intros x. lra.
  - destruct (negb (nltb (OptModel.norm g) c)); [reflexivity|]. rewrite <- (map_id g) at 1. apply map_ext. intros x. lra.
Qed.
Lemma clip_by_pos c g : 0 <= c -> 0 < clip_by c g.
Proof.
  intros Hc. unfold clip_by. cbn [neqb nltb nZ num_R]. destruct (Req_EM_T c 0); [lra|].
  destruct (Rlt_dec (OptModel.norm g) c); cbn [negb]; [lra|]. apply Rdiv_lt_0_compat; lra.
Qed.

(** ** The optimizers *)
Section Opt.
  Context {K : Type} {EK : EqD K}.
  Variable hp : hyper R K.
  Hypothesis HU : unregularized hp.
  Variable s0 : nat.
  Variable l0 : option (nat * R).
  Let clip k := h_clip hp s0 k l0.
  Lemma size_pos sh (g : list R) n : sh = n :: tl sh -> length g = size_of sh -> (n <? 1)%nat = true -> g = [].
  Proof. intros E L Hn. apply Nat.ltb_lt in Hn. rewrite E in L. cbn in L. assert (n = 0)%nat by lia. subst. destruct g; [reflexivity|cbn in L; lia]. Qed.

  Definition dir_sgd k g := map (fun x => x * clip_by (clip k) g) g.
  Lemma sgd_step adam eta : (forall n k l, h_b2 hp n k l <= 0) -> forall st k sh (ks : list K) w g, o_step st = s0 /\ o_last st = l0 -> sh <> [] -> length w = size_of sh -> length g = size_of sh ->
    exists st' g', opt_call adam (with_rate hp eta) st k (mkArr sh w) (mkArr sh g) 1 = (st', Ok (mkArr sh (vmap2 (fun w v => w - eta * v) w (dir_sgd k g)), g')) /\ o_step st' = s0 /\ o_last st' = l0.
  Proof.
    intros Hb st k sh ks w g [Es El] Hs Lw Lg. destruct HU as [Hr HU']. unfold opt_call. cbn [a_shape a_data]. destruct sh as [|n sh]; [easy|].
    destruct (n <? 1)%nat eqn:En.
    - rewrite (size_pos (n :: sh) w n eq_refl Lw En), (size_pos (n :: sh) g n eq_refl Lg En). do 2 eexists. split; [reflexivity|easy].
    - cbn [h_L2 h_clip h_radam h_b1 h_b2 h_decay h_lr with_rate with_nr o_step o_last]. rewrite Es, El, Hr. destruct (HU' s0 k l0) as [HL _]. rewrite HL.
      replace (neqb 0 (nZ 0)) with true by (cbn; destruct (Req_EM_T 0 0); easy). cbn [negb andb].
      rewrite clip_by_ok. replace (nltb (nZ 0) (h_b2 hp s0 k l0)) with false by (cbn; specialize (Hb s0 k l0); destruct (Rlt_dec 0 (h_b2 hp s0 k l0)); [lra|reflexivity]).
      rewrite Bool.andb_false_r. cbn [o_avg]. eexists _, _. split.
      + do 4 f_equal. unfold dir_sgd, vmap2. apply map_ext. intros [a b]. cbn. lra.
      + unfold with_nr. cbn [o_avg]. destruct (o_avg st); cbn; auto.
  Qed.

  Definition dir_adam k g := map (fun x => x * (clip_by (clip k) g / (Rabs (x * clip_by (clip k) g) + h_eps hp s0 k l0 / sqrt (1 - h_b2 hp s0 k l0)))) g.
  Lemma base_adam_zero (w g : list R) b1 b2 e lr : length g = length w -> 0 < b1 < 1 -> 0 < b2 < 1 -> 0 < e ->
    exists m v, base_adam w g (repeat 0 (length w)) (repeat 0 (length w)) b1 b2 e (lr * sqrt (1 - b2) / (1 - b1)) =
      (vmap2 (fun w v => w - lr * v) w (map (fun x => x / (Rabs x + e / sqrt (1 - b2))) g), g, m, v) /\ True.
  Proof.
    intros L H1 H2 He. do 2 eexists. split; [|exact I]. unfold base_adam, ops_adam. f_equal. f_equal. f_equal.
    assert (Hs : 0 < sqrt (1 - b2)) by (apply sqrt_lt_R0; lra).
    revert g L. induction w as [|a w IH]; intros [|x g] L; try discriminate; [reflexivity|]. cbn [repeat length map].
    unfold vmap2 in *. cbn [combine map fst snd] in *. f_equal; [|apply IH; cbn in L; lia].
    cbn [nadd nsub nmul ndiv nsqrt nZ num_R]. replace (0 * b2 + x * x * (1 - b2)) with (Rsqr x * (1 - b2)) by (unfold Rsqr; ring).
    rewrite sqrt_mult by (try apply Rle_0_sqr; lra). rewrite sqrt_Rsqr_abs. pose proof (Rabs_pos x) as Hx.
    assert (0 < Rabs x * sqrt (1 - b2) + e) by nra. assert (0 < Rabs x + e / sqrt (1 - b2)) by (assert (0 < e / sqrt (1 - b2)) by (apply Rdiv_lt_0_compat; lra); lra).
    f_equal. field. repeat split; lra.
  Qed.
  Lemma adam_zero adam (w g : list R) b1 b2 e lr : adam = base_adam \/ adam = numpy_adam -> length g = length w -> 0 < b1 < 1 -> 0 < b2 < 1 -> 0 < e ->
    exists g' m v, adam w g (repeat 0 (length w)) (repeat 0 (length w)) b1 b2 e (lr * sqrt (1 - b2) / (1 - b1)) =
      (vmap2 (fun w v => w - lr * v) w (map (fun x => x / (Rabs x + e / sqrt (1 - b2))) g), g', m, v).
  Proof.
    intros HA L H1 H2 He. destruct (base_adam_zero w g b1 b2 e lr L H1 H2 He) as (m & v & E & _). destruct HA as [->| ->].
    - exists g, m, v. exact E.
    - pose proof (kernels_agree w g (repeat 0 (length w)) (repeat 0 (length w)) b1 b2 e (lr * sqrt (1 - b2) / (1 - b1)) L (repeat_length _ _) (repeat_length _ _)) as KA.
      rewrite E in KA. destruct (numpy_adam w g _ _ b1 b2 e _) as [[[w2 g2] m2] v2]. destruct KA as (<- & <- & <-). eauto.
  Qed.
  Definition fresh_for (st : opt R K) (ks : list K) : Prop := (o_step st = s0 /\ o_last st = l0) /\ NoDup ks /\ Forall (unseen st) ks.
  Lemma adam_first adam eta : adam = base_adam \/ adam = numpy_adam ->
    (forall n k l, 0 < h_b1 hp n k l < 1 /\ 0 < h_b2 hp n k l < 1 /\ 0 < h_eps hp n k l) ->
    forall st k sh (ks : list K) w g, fresh_for st (k :: ks) -> sh <> [] -> length w = size_of sh -> length g = size_of sh ->
    exists st' g', opt_call adam (with_rate hp eta) st k (mkArr sh w) (mkArr sh g) 1 = (st', Ok (mkArr sh (vmap2 (fun w v => w - eta * v) w (dir_adam k g)), g')) /\ fresh_for st' ks.
  Proof.
    intros HA Hb st k sh ks w g ((Es & El) & ND & HF) Hs Lw Lg. destruct HU as [Hr HU']. unfold opt_call. cbn [a_shape a_data]. destruct sh as [|n sh]; [easy|].
    inversion ND as [|? ? Hnk ND']; subst. inversion HF as [|? ? (U1 & U2 & U3) HF']; subst.
    destruct (n <? 1)%nat eqn:En.
    - rewrite (size_pos (n :: sh) w n eq_refl Lw En), (size_pos (n :: sh) g n eq_refl Lg En). do 2 eexists. split; [reflexivity|]. repeat split; assumption.
    - cbn [h_L2 h_clip h_radam h_b1 h_b2 h_decay h_lr with_rate with_nr o_step o_last]. rewrite Hr. destruct (HU' (o_step st) k (o_last st)) as [HL _]. rewrite HL.
      replace (neqb 0 (nZ 0)) with true by (cbn; destruct (Req_EM_T 0 0); easy). cbn [negb andb]. rewrite clip_by_ok.
      destruct (Hb (o_step st) k (o_last st)) as (B1 & B2 & Be).
      replace (nltb (nZ 0) (h_b1 hp (o_step st) k (o_last st))) with true by (cbn; destruct (Rlt_dec 0 (h_b1 hp (o_step st) k (o_last st))); [reflexivity|lra]).
      replace (nltb (nZ 0) (h_b2 hp (o_step st) k (o_last st))) with true by (cbn; destruct (Rlt_dec 0 (h_b2 hp (o_step st) k (o_last st))); [reflexivity|lra]).
      cbn [andb]. unfold opt_adam, mom_of, nr_of. cbn [o_mom1 o_mom2 o_step o_last h_b1 h_b2 h_lr h_eps with_rate with_nr]. rewrite U1, U2, U3.
      set (b1 := h_b1 hp (o_step st) k (o_last st)) in *. set (b2 := h_b2 hp (o_step st) k (o_last st)) in *. set (e := h_eps hp (o_step st) k (o_last st)) in *.
      set (gc := map _ g) at 1.
      destruct (adam_zero adam w gc b1 b2 e eta HA) as (g' & m & v & E); try assumption; [unfold gc; rewrite map_length; lia|].
      replace (nmul _ _) with (eta * sqrt (1 - b2) / (1 - b1)) by (cbn [npow nmul ndiv nsub nsqrt nZ num_R Nat.add]; rewrite !Rmult_1_r; reflexivity).
      change (nZ 0) with 0. rewrite E. cbn [o_avg with_moms]. eexists _, _. split.
      + do 4 f_equal. unfold gc, dir_adam, clip. rewrite map_map. f_equal. apply map_ext. intros x. unfold Rdiv, e, b2. rewrite Es, El, !Rmult_assoc. reflexivity.
      + assert (F : forall st' : opt R K, o_step st' = o_step st -> o_last st' = o_last st -> o_nr st' = dset k (0 + 1)%nat (o_nr st) ->
          o_mom1 st' = dset k m (o_mom1 st) -> o_mom2 st' = dset k v (o_mom2 st) -> fresh_for st' ks).
        { intros st' A1 A2 A3 A4 A5. split; [split; congruence|]. split; [exact ND'|]. apply Forall_forall. intros k' Hk. rewrite Forall_forall in HF'.
          destruct (HF' k' Hk) as (V1 & V2 & V3). assert (k' <> k) by (intros ->; contradiction). unfold unseen. rewrite A3, A4, A5, !dget_dset_other by assumption. auto. }
        unfold with_nr. cbn [o_avg]. destruct (o_avg st); apply F; reflexivity.
  Qed.
End Opt.

(** ** Straight lines *)
Definition still : R -> jet := fun x => (fun _ => x, 0).
Lemma vmap_id {A} (v : value A) : vmap (fun x => x) v = v.
Proof.
  induction v as [x|v|m|m w l|w d s l i|l IH|l IH] using value_ind'; cbn.
  - reflexivity.
  - now rewrite map_id.
  - destruct m as [c r]. cbn. do 2 f_equal. rewrite <- (map_id r) at 2. apply map_ext. intros q. apply map_id.
  - destruct m as [c r]. cbn. do 2 f_equal. rewrite <- (map_id r) at 2. apply map_ext. intros q. apply map_id.
  - f_equal. rewrite <- (map_id d) at 2. apply map_ext. intros q. rewrite <- (map_id q) at 2. apply map_ext. intros r. apply map_id.
  - f_equal. rewrite <- (map_id l) at 2. apply map_ext_Forall'. exact IH.
  - f_equal. rewrite <- (map_id l) at 2. apply map_ext_Forall'. exact IH.
Qed.
Lemma still_at s X : vmap (at_time s) (vmap still X) = X.
Proof. rewrite vmap_vmap. exact (vmap_id X). Qed.
Lemma still_smooth X : Forall smooth (leaves (vmap still X)).
Proof. rewrite leaves_vmap. apply Forall_map, Forall_forall. intros x _. exact (derivable_pt_lim_const x 0). Qed.
Lemma still_inner d X : inner d (vmap velocity (vmap still X)) = 0.
Proof.
  unfold inner. rewrite !leaves_vmap, map_map. cbn [velocity still snd]. generalize (leaves d) as a. induction (leaves X) as [|x l IH]; intros a; cbn [map].
  - apply dot_nil_r.
  - destruct a as [|y a]; [reflexivity|]. rewrite dot_cons, IH. ring.
Qed.
Definition line (theta v : list R) : list jet := map (fun p => (fun s => fst p - s * snd p, - snd p)) (combine theta v).
Lemma line_at theta v s : map (at_time s) (line theta v) = vmap2 (fun w v => w - s * v) theta v.
Proof. unfold line, vmap2. rewrite map_map. reflexivity. Qed.
Lemma line_start theta : forall v, length v = length theta -> map (at_time 0) (line theta v) = theta.
Proof. intros v. rewrite line_at. revert v. induction theta as [|x t IH]; intros [|y v] L; try discriminate; [reflexivity|]. unfold vmap2 in *. cbn [combine map fst snd]. rewrite IH by (cbn in L; lia). f_equal. lra. Qed.
Lemma line_smooth theta v : Forall smooth (line theta v).
Proof.
  apply Forall_map, Forall_forall. intros [x y] _. unfold smooth. cbn [fst snd].
  replace (- y) with (0 - (1 * y + 0 * 0)) by ring. apply (derivable_pt_lim_minus (fun _ => x) (fun s => s * y)); [apply derivable_pt_lim_const|].
  apply (derivable_pt_lim_mult (fun s => s) (fun _ => y)); [apply derivable_pt_lim_id|apply derivable_pt_lim_const].
Qed.
Lemma line_velocity g theta : forall v, length v = length theta -> dot g (map velocity (line theta v)) = - dot g v.
Proof.
  unfold line. intros v. rewrite map_map. cbn [velocity snd]. revert g v. induction theta as [|x t IH]; intros g [|y v] L; try discriminate; cbn [combine map].
  - rewrite !dot_nil_r. ring.
  - destruct g as [|a g]; [unfold dot; cbn; ring|]. rewrite !dot_cons. unfold velocity in *. cbn [snd] in *. rewrite IH by (cbn in L; lia). ring.
Qed.

(** ** Along a line *)
Lemma line_lowers (obj : list R -> R -> Prop) theta g v c x : 0 < c -> length v = length theta -> 0 < dot g v ->
  (forall P, map (at_time 0) P = theta -> Forall smooth P -> exists Ls, (forall s, obj (map (at_time s) P) (Ls s)) /\ Ls 0 = x /\ derivable_pt_lim Ls 0 (c * dot g (map velocity P))) ->
  exists eta0, 0 < eta0 /\ forall eta, 0 < eta < eta0 -> exists x', obj (vmap2 (fun w v => w - eta * v) theta v) x' /\ x' < x.
Proof.
  intros Hc L Hv H. destruct (H (line theta v) (line_start _ _ L) (line_smooth _ _)) as (Ls & HO & H0 & HD). rewrite line_velocity in HD by exact L.
  destruct (descend _ _ HD) as (d & Hd & Hdec); [nra|]. exists d. split; [exact Hd|]. intros eta He. exists (Ls eta). rewrite <- line_at. split; [apply HO|]. rewrite <- H0. now apply Hdec.
Qed.

(** ** Networks with a loss *)
Lemma vmap_arr2 {A B} (f : A -> B) (K : value A) m : vmap f K = Arr2 m -> exists k, K = Arr2 k.
Proof. destruct K; cbn; intros E; try discriminate. eauto. Qed.
Lemma zeros_dot n (v : list R) : dot (repeat 0 n) v = 0. Proof. apply dot_zeros_l. Qed.

Lemma net_curve net X theta Y get_grad loss d g x : differentiates net true theta X (Arr2 Y) -> get_grad Y = Ok d -> loss_at loss Y d -> loss Y = Ok x ->
  step_gradient net X get_grad theta g -> length g = length theta /\ exists c, 0 < c /\
  forall P, map (at_time 0) P = theta -> Forall smooth P -> exists Ls, (forall s, network_loss net X loss (map (at_time s) P) (Ls s)) /\ Ls 0 = x /\ derivable_pt_lim Ls 0 (c * dot g (map velocity P)).
Proof.
  intros (b & E & HY & HD) EG (Ld & (c & Hc & LG) & HT) Ex (Y' & b' & d' & dX & E' & EG' & EB). rewrite E in E'. inversion E'; subst Y' b'. rewrite EG in EG'. inversion EG'; subst d'.
  destruct (HD (Arr2 d) (repeat 0 (length theta)) Ld (repeat_length _ _)) as (dX' & g' & EB' & LdX & Lg & HC). change (nZ 0) with 0 in EB. rewrite EB in EB'. inversion EB'; subst dX' g'.
  split; [exact Lg|]. exists c. split; [exact Hc|]. intros P HP SP.
  destruct (HC P (vmap still X) HP (still_at 0 X) SP (still_smooth X)) as (K' & SK & HF & HI).
  assert (E0 : vmap (at_time 0) K' = Arr2 Y). { destruct (HF 0) as (b0 & E0). rewrite HP, still_at, E in E0. congruence. }
  assert (HL : forall s, exists Ys, vmap (at_time s) K' = Arr2 Ys /\ CombSpec.like (Arr2 Ys) (Arr2 Y)).
  { intros s. destruct (vmap_arr2 _ _ _ E0) as [m ->]. cbn [vmap]. eexists. split; [reflexivity|]. rewrite <- E0. unfold CombSpec.like. change (Arr2 (mkM (m_cols m) (map (map (at_time s)) (m_rows m)))) with (vmap (at_time s) (Arr2 m)). now rewrite !vmap_vmap. }
  exists (fun s => match vmap (at_time s) K' with Arr2 m => match loss m with Ok x => x | Err _ => 0 end | _ => 0 end). split; [|split].
  - intros s. destruct (HL s) as (Ys & EY & LY). destruct (HT Ys LY) as (xs & Exs). destruct (HF s) as (bs & Es). rewrite still_at in Es. exists Ys, bs. rewrite EY, Exs. rewrite <- EY. split; [exact Es|reflexivity].
  - rewrite E0, Ex. reflexivity.
  - replace (dot g (map velocity P)) with (inner (Arr2 d) (vmap velocity K')) by (rewrite HI, still_inner, zeros_dot; ring).
    apply LG; [exact E0|exact SK|]. intros s. destruct (HL s) as (Ys & EY & LY). destruct (HT Ys LY) as (xs & Exs). exists Ys. rewrite EY, Exs. auto.
Qed.

Lemma step_flat {K} {EK : EqD K} adam (hp : hyper R K) st ps net X theta get_grad g : step_gradient net X get_grad theta g ->
  train_step adam hp st ps net get_grad X theta = finish_flat adam hp st ps theta g.
Proof. intros (Y & b & d & dX & E & EG & EB). unfold train_step. rewrite E. cbn [bind]. rewrite EG. cbn [bind]. change (nZ 0) with 0. rewrite EB. reflexivity. Qed.

Lemma sgd_lowers_gen {K} {EK : EqD K} adam (hp : hyper R K) st ps net X theta get_grad g x (obj : list R -> R -> Prop) c :
  sgd hp -> layout ps theta -> step_gradient net X get_grad theta g -> ~ Forall (eq 0) g -> length g = length theta -> 0 < c ->
  (forall P, map (at_time 0) P = theta -> Forall smooth P -> exists Ls, (forall s, obj (map (at_time s) P) (Ls s)) /\ Ls 0 = x /\ derivable_pt_lim Ls 0 (c * dot g (map velocity P))) ->
  lowers (fun hp => train_step adam hp st ps net get_grad X theta) hp obj x.
Proof.
  intros [HU Hb] HL HS Hg Lg Hc HC.
  set (D := fun (k : K) (g : list R) (_ : R) => clip_by (h_clip hp (o_step st) k (o_last st)) g).
  assert (fD : forall k g, dir_sgd hp (o_step st) (o_last st) k g = map (fun x => x * D k g x) g) by reflexivity.
  assert (Dp : forall k g x, 0 < D k g x) by (intros; apply clip_by_pos, (proj2 HU)).
  assert (Lg' : length g = list_sum (map (fun p => size_of (snd p)) ps)) by (rewrite Lg; apply HL).
  destruct (dirs_dot _ D fD Dp ps g Lg') as [H0 H1].
  destruct (line_lowers obj theta g (dirs (dir_sgd hp (o_step st) (o_last st)) ps g) c x Hc) as (eta0 & He & HE).
  - etransitivity; [|exact Lg]. eapply dirs_len; eauto.
  - destruct H0 as [H0|H0]; [exact H0|]. exfalso. now apply Hg, H1.
  - exact HC.
  - exists eta0. split; [exact He|]. intros eta Ee. destruct (HE eta Ee) as (x' & Ho & Hx). eexists _, x'. split; [|split; [exact Ho|exact Hx]].
    rewrite (step_flat _ _ _ _ _ _ _ _ _ HS).
    eapply (finish_dirs _ D fD Dp adam hp eta (fun st' _ => o_step st' = o_step st /\ o_last st' = o_last st)); auto.
    intros st' k sh ks w g0 [A1 A2] Hs Lw Lg0. destruct (sgd_step hp HU (o_step st) (o_last st) adam eta Hb st' k sh ks w g0 (conj A1 A2) Hs Lw Lg0) as (st2 & g2 & E2 & B1 & B2). eauto.
Qed.
Lemma adam_lowers_gen {K} {EK : EqD K} adam (hp : hyper R K) st ps net X theta get_grad g x (obj : list R -> R -> Prop) c :
  adam = base_adam \/ adam = numpy_adam -> adam_hyper hp -> NoDup (map fst ps) -> Forall (fun p => unseen st (fst p)) ps ->
  layout ps theta -> step_gradient net X get_grad theta g -> ~ Forall (eq 0) g -> length g = length theta -> 0 < c ->
  (forall P, map (at_time 0) P = theta -> Forall smooth P -> exists Ls, (forall s, obj (map (at_time s) P) (Ls s)) /\ Ls 0 = x /\ derivable_pt_lim Ls 0 (c * dot g (map velocity P))) ->
  lowers (fun hp => train_step adam hp st ps net get_grad X theta) hp obj x.
Proof.
  intros HA [HU Hb] ND HF HL HS Hg Lg Hc HC.
  set (D := fun (k : K) (g : list R) (x : R) => clip_by (h_clip hp (o_step st) k (o_last st)) g / (Rabs (x * clip_by (h_clip hp (o_step st) k (o_last st)) g) + h_eps hp (o_step st) k (o_last st) / sqrt (1 - h_b2 hp (o_step st) k (o_last st)))).
  assert (fD : forall k g, dir_adam hp (o_step st) (o_last st) k g = map (fun x => x * D k g x) g) by reflexivity.
  assert (Dp : forall k g x, 0 < D k g x).
  { intros k g0 x0. unfold D. destruct (Hb (o_step st) k (o_last st)) as (B1 & B2 & Be). apply Rdiv_lt_0_compat; [apply clip_by_pos, (proj2 HU)|].
    assert (0 < h_eps hp (o_step st) k (o_last st) / sqrt (1 - h_b2 hp (o_step st) k (o_last st))) by (apply Rdiv_lt_0_compat; [lra|apply sqrt_lt_R0; lra]). pose proof (Rabs_pos (x0 * clip_by (h_clip hp (o_step st) k (o_last st)) g0)). lra. }
  assert (Lg' : length g = list_sum (map (fun p => size_of (snd p)) ps)) by (rewrite Lg; apply HL).
  destruct (dirs_dot _ D fD Dp ps g Lg') as [H0 H1].
  destruct (line_lowers obj theta g (dirs (dir_adam hp (o_step st) (o_last st)) ps g) c x Hc) as (eta0 & He & HE).
  - etransitivity; [|exact Lg]. eapply dirs_len; eauto.
  - destruct H0 as [H0|H0]; [exact H0|]. exfalso. now apply Hg, H1.
  - exact HC.
  - exists eta0. split; [exact He|]. intros eta Ee. destruct (HE eta Ee) as (x' & Ho & Hx). eexists _, x'. split; [|split; [exact Ho|exact Hx]].
    rewrite (step_flat _ _ _ _ _ _ _ _ _ HS).
    eapply (finish_dirs _ D fD Dp adam hp eta (fresh_for (o_step st) (o_last st))); auto.
    + intros st' k sh ks w g0 FF Hs Lw Lg0. exact (adam_first hp HU (o_step st) (o_last st) adam eta HA Hb st' k sh ks w g0 FF Hs Lw Lg0).
    + split; [auto|]. split; [exact ND|]. now apply Forall_map.
Qed.

Lemma sgd_lowers {K} {EK : EqD K} adam (hp : hyper R K) st ps net X theta Y get_grad loss d g x :
  sgd hp -> layout ps theta -> differentiates net true theta X (Arr2 Y) -> get_grad Y = Ok d -> loss_at loss Y d -> loss Y = Ok x ->
  step_gradient net X get_grad theta g -> ~ Forall (eq 0) g ->
  lowers (fun hp => train_step adam hp st ps net get_grad X theta) hp (network_loss net X loss) x.
Proof. intros H1 H2 H3 H4 H5 H6 H7 H8. destruct (net_curve net X theta Y get_grad loss d g x H3 H4 H5 H6 H7) as (L & c & Hc & HC). now apply sgd_lowers_gen with (g := g) (c := c). Qed.
Lemma adam_lowers {K} {EK : EqD K} adam (hp : hyper R K) st ps net X theta Y get_grad loss d g x :
  adam = base_adam \/ adam = numpy_adam -> adam_hyper hp -> NoDup (map fst ps) -> Forall (fun p => unseen st (fst p)) ps ->
  layout ps theta -> differentiates net true theta X (Arr2 Y) -> get_grad Y = Ok d -> loss_at loss Y d -> loss Y = Ok x ->
  step_gradient net X get_grad theta g -> ~ Forall (eq 0) g ->
  lowers (fun hp => train_step adam hp st ps net get_grad X theta) hp (network_loss net X loss) x.
Proof. intros A1 A2 A3 A4 H2 H3 H4 H5 H6 H7 H8. destruct (net_curve net X theta Y get_grad loss d g x H3 H4 H5 H6 H7) as (L & c & Hc & HC). now apply adam_lowers_gen with (g := g) (c := c). Qed.

(** ** The losses *)
Lemma like_input n (Y Y' : mat R) : input_of n Y -> CombSpec.like (Arr2 Y') (Arr2 Y) -> input_of n Y' /\ length (m_rows Y') = length (m_rows Y).
Proof.
  intros [W C] L. unfold CombSpec.like in L. cbn [vmap] in L. injection L as LC LR.
  assert (LR' : map (@length R) (m_rows Y') = map (@length R) (m_rows Y)).
  { apply (f_equal (map (@length unit))) in LR. rewrite !map_map in LR. erewrite (map_ext _ (@length R)), (map_ext (fun x => length (map _ x)) (@length R)) in LR by (intros; apply map_length). exact LR. }
  split; [split|].
  - unfold wf_mat in *. apply Forall_map with (f := @length R) (P := fun k => k = m_cols Y'). rewrite LR', LC. now apply Forall_map.
  - congruence.
  - apply (f_equal (@length nat)) in LR'. now rewrite !map_length in LR'.
Qed.
Lemma input_like n (Y Y' : mat R) : input_of n Y -> input_of n Y' -> length (m_rows Y') = length (m_rows Y) -> CombSpec.like (Arr2 Y') (Arr2 Y).
Proof.
  intros [W C] [W' C'] L. unfold CombSpec.like. cbn [vmap]. rewrite C, C'. f_equal. f_equal.
  unfold wf_mat in *. rewrite C in W. rewrite C' in W'. clear C C'. revert L W W'. generalize (m_rows Y) (m_rows Y'). intros a b. revert a.
  induction b as [|u b IH]; intros [|v a] L W W'; try discriminate; [reflexivity|]. inversion W; subst. inversion W'; subst. cbn [map]. f_equal; [|apply IH; auto].
  match goal with H : length u = length v |- _ => revert H end. clear. revert v. induction u as [|x u IH]; intros [|y v] L; try discriminate; [reflexivity|]. cbn. f_equal. apply IH. now injection L.
Qed.
Lemma l2_at b n Y T : input_of n Y -> input_of n T -> length (m_rows T) = length (m_rows Y) -> m_rows Y <> [] ->
  exists d, l2_get_grad b Y T = Ok d /\ loss_at (fun Y => l2_get_loss b Y T) Y d.
Proof.
  intros HY HT HL HR. destruct (l2_ok b n Y T HY HT HL) as (D & E1 & E2 & ED & LG). exists D. split; [exact E1|]. split; [|split].
  - apply (input_like n); [exact HY| |].
    + split; [|now subst D]. subst D. unfold wf_mat. cbn [m_rows m_cols]. apply Forall_forall. intros v Hv. apply in_map_iff in Hv as ([u w] & <- & Hp). rewrite map_length, combine_length. cbn [fst snd].
      destruct HY as [W C], HT as [W' C']. unfold wf_mat in W, W'. rewrite Forall_forall in W, W'. pose proof (W _ (in_combine_l _ _ _ _ Hp)). pose proof (W' _ (in_combine_r _ _ _ _ Hp)). lia.
    + subst D. cbn [m_rows]. rewrite map_length, combine_length. lia.
  - eexists. split; [|exact LG]. unfold normed. destruct b; [|lra]. apply Rdiv_lt_0_compat; [lra|]. apply lt_0_INR. destruct (m_rows Y); [congruence|cbn; lia].
  - intros Y' LY. destruct (like_input n Y Y' HY LY) as [HY' L']. destruct (l2_ok b n Y' T HY' HT ltac:(lia)) as (D' & _ & E & _). eauto.
Qed.
Lemma cosine_at (b iz : bool) n Y T : input_of n Y -> input_of n T -> length (m_rows T) = length (m_rows Y) ->
  Forall (Exists (fun x => x <> - (1 / 100000000))) (m_rows Y) -> Forall (fun t => (iz = true /\ Forall (fun x => x = 0) t) \/ Exists (fun x => x <> - (1 / 100000000)) t) (m_rows T) ->
  exists d, cosine_get_grad b iz Y T = Ok d /\ loss_at (fun Y => cosine_get_loss b iz Y T) Y d.
Proof.
  intros HY HT HL NY NT. destruct (cosine_ok b iz n Y T HY HT HL NY NT) as (D & E1 & ID & LD & LG). exists D. split; [exact E1|]. split; [|split].
  - now apply (input_like n).
  - exists 1. split; [lra|exact LG].
  - intros Y' LY. destruct (like_input n Y Y' HY LY) as [HY' L']. destruct (cosine_value b iz n Y' T HY' HT ltac:(lia)) as (x & E & _). eauto.
Qed.
Lemma cross_entropy_curve h nrm t nO nI wo bo c l tr X theta Xh g : tr = ListInts l \/ tr = ArrInts l ->
  differentiates h true theta X (Arr2 Xh) -> 0 < t -> nO <> 0%nat -> input_of nI Xh -> room wo (nO * nI) theta -> room bo nO theta ->
  length l = length (m_rows Xh) -> plain_names (names c) nO -> valid_smoothing (label_smoothing c) (Z.of_nat nO) -> Forall (in_classes nO) l ->
  let net := chain [h; Softmax nrm t nO nI wo bo] in
  step_gradient net X (fun Y => get_grad c Y tr) theta g -> forall x, network_cross_entropy net X c nO l theta x ->
  length g = length theta /\
  forall P, map (at_time 0) P = theta -> Forall smooth P ->
  exists Ls, (forall s, network_cross_entropy net X c nO l (map (at_time s) P) (Ls s)) /\ Ls 0 = x /\ derivable_pt_lim Ls 0 (1 * dot g (map velocity P)).
Proof.
  intros Htr (b & E & HW & HD) Ht Hn HX Hw Hb Hl Hp Hv HI net (Y' & b' & d' & dX & E' & EG' & EB) x (Y0 & b0 & E0 & Ex). rewrite E' in E0. inversion E0; subst Y0 b0. clear E0.
  assert (HS : forall th Xs, length th = length theta -> input_of nI Xs -> length (m_rows Xs) = length (m_rows Xh) -> exists Y b, Softmax nrm t nO nI wo bo true th (Arr2 Xs) = Ok (Arr2 Y, b)).
  { intros th Xs L1 L2 L3. destruct (labels_softmax c l tr nrm t nO nI wo bo true th Xs Htr Ht Hn (orb_true_r nrm) L2) as (Y & b2 & _ & E2 & _); try assumption; try (unfold room in *; lia); try lia. eauto. }
  destruct (labels_softmax c l tr nrm t nO nI wo bo true theta Xh Htr Ht Hn (orb_true_r nrm) HX Hw Hb Hl Hp Hv HI) as (Y & bS & dY & ES & EG & HSD).
  assert (EN : net true theta X = Ok (Arr2 Y, fun d g => let* p := bS d g in let* q := b (fst p) (snd p) in Ok (fst q, snd q))).
  { unfold net, chain, chain_loop. rewrite E. cbn [bind fst snd]. rewrite ES. cbn [bind fst snd rev app chain_back]. reflexivity. }
  rewrite EN in E'. inversion E'; subst Y' b'. clear E'. rewrite EG in EG'. inversion EG'; subst d'. clear EG'.
  destruct (HSD (repeat 0 (length theta)) (repeat_length _ _)) as (dXh & g1 & EB1 & LX & Lg1 & HC). rewrite EB1 in EB. cbn [bind fst snd] in EB.
  destruct (HD dXh g1 LX Lg1) as (dX2 & g2 & EB2 & LX2 & Lg2 & HC2). rewrite EB2 in EB. cbn [bind fst snd] in EB. inversion EB; subst dX2 g2. clear EB.
  split; [exact Lg2|]. intros P HP SP.
  destruct (HC2 P (vmap still X) HP (still_at 0 X) SP (still_smooth X)) as (K' & SK & HF & HI2).
  assert (EK : vmap (at_time 0) K' = Arr2 Xh). { destruct (HF 0) as (b0 & E0). rewrite HP, still_at, E in E0. congruence. }
  destruct (vmap_arr2 _ _ _ EK) as [m EM].
  set (Xs := fun s => mkM (m_cols m) (map (map (at_time s)) (m_rows m))).
  assert (EXs : forall s, vmap (at_time s) K' = Arr2 (Xs s)) by (intros s; now rewrite EM).
  assert (LXs : forall s, input_of nI (Xs s) /\ length (m_rows (Xs s)) = length (m_rows Xh)).
  { intros s. apply like_input; [exact HX|]. rewrite <- EK, <- EXs. unfold CombSpec.like. now rewrite !vmap_vmap. }
  assert (LP : forall s, length (map (at_time s) P) = length theta) by (intros s; rewrite <- HP, !map_length; reflexivity).
  set (Ys := fun s => match Softmax nrm t nO nI wo bo true (map (at_time s) P) (Arr2 (Xs s)) with Ok (Arr2 Y, _) => Y | _ => mkM 0 [] end).
  assert (EYs : forall s, exists b', Softmax nrm t nO nI wo bo true (map (at_time s) P) (Arr2 (Xs s)) = Ok (Arr2 (Ys s), b')).
  { intros s. destruct (LXs s) as [I1 I2]. destruct (HS _ _ (LP s) I1 I2) as (Y1 & b1 & E1). exists b1. unfold Ys. now rewrite E1. }
  exists (fun s => weighted_cross_entropy (label_weights (normalize c) (missing_value c) l) (label_target (label_smoothing c) nO l) (Ys s)). split; [|split].
  - intros s. destruct (EYs s) as (b1 & E1). destruct (HF s) as (b2 & E2). rewrite still_at, EXs in E2. eexists (Ys s), _. split; [|reflexivity].
    unfold net, chain, chain_loop. rewrite E2. cbn [bind fst snd]. rewrite E1. cbn [bind fst snd]. reflexivity.
  - rewrite Ex. destruct (EYs 0) as (b1 & E1). rewrite HP in E1. assert (EX0 : Xs 0 = Xh) by (specialize (EXs 0); rewrite EK in EXs; congruence). rewrite EX0, ES in E1. congruence.
  - replace (1 * dot g (map velocity P)) with (inner dXh (vmap velocity K') + (dot g1 (map velocity P) - dot (repeat 0 (length theta)) (map velocity P))) by (rewrite HI2, still_inner, zeros_dot; ring).
    apply HC; [exact HP|exact EK|exact SP|exact SK|]. intros s. rewrite EXs. apply EYs.
Qed.
Lemma lowers_gen {K} {EK : EqD K} adam (hp : hyper R K) st ps net X theta get_grad g x (obj : list R -> R -> Prop) c :
  descending adam hp st ps -> layout ps theta -> step_gradient net X get_grad theta g -> ~ Forall (eq 0) g -> length g = length theta -> 0 < c ->
  (forall P, map (at_time 0) P = theta -> Forall smooth P -> exists Ls, (forall s, obj (map (at_time s) P) (Ls s)) /\ Ls 0 = x /\ derivable_pt_lim Ls 0 (c * dot g (map velocity P))) ->
  lowers (fun hp => train_step adam hp st ps net get_grad X theta) hp obj x.
Proof. intros [D|(D1 & D2 & D3 & D4)] H1 H2 H3 H4 H5 H6; [now apply sgd_lowers_gen with (g := g) (c := c)|now apply adam_lowers_gen with (g := g) (c := c)]. Qed.
Lemma loss_lowers {K} {EK : EqD K} adam (hp : hyper R K) st ps net X theta Y get_grad loss d g x :
  descending adam hp st ps -> layout ps theta -> differentiates net true theta X (Arr2 Y) -> get_grad Y = Ok d -> loss_at loss Y d -> loss Y = Ok x ->
  step_gradient net X get_grad theta g -> ~ Forall (eq 0) g ->
  lowers (fun hp => train_step adam hp st ps net get_grad X theta) hp (network_loss net X loss) x.
Proof. intros H1 H2 H3 H4 H5 H6 H7 H8. destruct (net_curve net X theta Y get_grad loss d g x H3 H4 H5 H6 H7) as (L & c & Hc & HC). now apply lowers_gen with (g := g) (c := c). Qed.
Lemma l2_lowers {K} {EK : EqD K} adam (hp : hyper R K) st ps net X theta b n Y T g x :
  descending adam hp st ps -> layout ps theta -> differentiates net true theta X (Arr2 Y) -> input_of n Y -> input_of n T -> length (m_rows T) = length (m_rows Y) -> m_rows Y <> [] ->
  l2_get_loss b Y T = Ok x -> step_gradient net X (fun Y => l2_get_grad b Y T) theta g -> ~ Forall (eq 0) g ->
  lowers (fun hp => train_step adam hp st ps net (fun Y => l2_get_grad b Y T) X theta) hp (network_loss net X (fun Y => l2_get_loss b Y T)) x.
Proof. intros H1 H2 H3 H4 H5 H6 H7 H8 H9 H10. destruct (l2_at b n Y T H4 H5 H6 H7) as (d & E & L). now apply loss_lowers with (Y := Y) (d := d) (g := g). Qed.
Lemma cosine_lowers {K} {EK : EqD K} adam (hp : hyper R K) st ps net X theta (b iz : bool) n Y T g x :
  descending adam hp st ps -> layout ps theta -> differentiates net true theta X (Arr2 Y) -> input_of n Y -> input_of n T -> length (m_rows T) = length (m_rows Y) ->
  Forall (Exists (fun x => x <> - (1 / 100000000))) (m_rows Y) -> Forall (fun t => (iz = true /\ Forall (fun x => x = 0) t) \/ Exists (fun x => x <> - (1 / 100000000)) t) (m_rows T) ->
  cosine_get_loss b iz Y T = Ok x -> step_gradient net X (fun Y => cosine_get_grad b iz Y T) theta g -> ~ Forall (eq 0) g ->
  lowers (fun hp => train_step adam hp st ps net (fun Y => cosine_get_grad b iz Y T) X theta) hp (network_loss net X (fun Y => cosine_get_loss b iz Y T)) x.
Proof. intros H1 H2 H3 H4 H5 H6 H7 H7' H8 H9 H10. destruct (cosine_at b iz n Y T H4 H5 H6 H7 H7') as (d & E & L). now apply loss_lowers with (Y := Y) (d := d) (g := g). Qed.
Lemma cross_entropy_lowers {K} {EK : EqD K} adam (hp : hyper R K) st ps theta h nrm t nO nI wo bo c l tr X Xh g x :
  let net := chain [h; Softmax nrm t nO nI wo bo] in
  descending adam hp st ps -> layout ps theta -> tr = ListInts l \/ tr = ArrInts l -> differentiates h true theta X (Arr2 Xh) ->
  0 < t -> nO <> 0%nat -> input_of nI Xh -> room wo (nO * nI) theta -> room bo nO theta ->
  length l = length (m_rows Xh) -> plain_names (names c) nO -> valid_smoothing (label_smoothing c) (Z.of_nat nO) -> Forall (in_classes nO) l ->
  step_gradient net X (fun Y => get_grad c Y tr) theta g -> ~ Forall (eq 0) g -> network_cross_entropy net X c nO l theta x ->
  lowers (fun hp => train_step adam hp st ps net (fun Y => get_grad c Y tr) X theta) hp (network_cross_entropy net X c nO l) x.
Proof.
  intros net H1 H2 Htr HD Ht Hn HX Hw Hb Hl Hp Hv HI HG Hg Hx.
  destruct (cross_entropy_curve h nrm t nO nI wo bo c l tr X theta Xh g Htr HD Ht Hn HX Hw Hb Hl Hp Hv HI HG x Hx) as [L HC].
  apply lowers_gen with (g := g) (c := 1); try assumption. lra.
Qed.
