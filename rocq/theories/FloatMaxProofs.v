(** Floating point: maxout with and without NaN, the loss scale, gradients of the rectifier, clipping. *)
From Coq Require Import ZArith Lia Bool List.
From Verif Require Import FloatModel FloatSpec FloatFacts FloatIntProofs DenseModel KernelModel ReduceModel OptModel ScalerModel BaseFacts FloatProofs.
From Coq.Floats Require Import SpecFloat.
Set Default Goal Selector "!".
Import ListNotations.
Local Open Scope Z_scope.

Section Format.
  Variables prec emax : Z.
  Local Notation N := (num_sf prec emax).

  Lemma no_nan_In : forall l x, forallb (fun x => negb (f_nan x)) l = true -> In x l -> f_nan x = false.
  Proof. intros l x H Hx. rewrite forallb_forall in H. specialize (H x Hx). now destruct (f_nan x). Qed.

  Lemma argmax_from_spec : forall l pre best w, forallb (fun x => negb (f_nan x)) (pre ++ l) = true ->
    0 <= w < Z.of_nat (length pre) -> nth_error pre (Z.to_nat w) = Some best ->
    (forall x, In x pre -> SFltb best x = false) -> (forall j x, (j < Z.to_nat w)%nat -> nth_error pre j = Some x -> SFltb x best = true) ->
    let '(v, i) := @argmax_from _ N best w (Z.of_nat (length pre)) l in
    0 <= i < Z.of_nat (length (pre ++ l)) /\ nth_error (pre ++ l) (Z.to_nat i) = Some v /\
    (forall x, In x (pre ++ l) -> SFltb v x = false) /\ (forall j x, (j < Z.to_nat i)%nat -> nth_error (pre ++ l) j = Some x -> SFltb x v = true).
  Proof.
    induction l as [|x l IH]; intros pre best w Nn Hw Eb Mx Fst; cbn [argmax_from].
    - rewrite app_nil_r in *. repeat split; try lia; assumption.
    - assert (App : pre ++ x :: l = (pre ++ [x]) ++ l) by now rewrite <- app_assoc. rewrite App in *.
      assert (Len : Z.of_nat (length pre) + 1 = Z.of_nat (length (pre ++ [x]))) by (rewrite app_length; cbn; lia). rewrite Len.
      assert (Nb : f_nan best = false) by (apply (no_nan_In _ best Nn), in_or_app; left; apply in_or_app; left; eapply nth_error_In; exact Eb).
      assert (Nx : f_nan x = false) by (apply (no_nan_In _ x Nn), in_or_app; left; apply in_or_app; right; now left).
      cbn [nltb num_sf]. destruct (SFltb best x) eqn:Lt.
      + apply IH; [exact Nn|lia| | |].
        * rewrite Nat2Z.id, nth_error_app2 by lia. now rewrite Nat.sub_diag.
        * intros y Hy. apply in_app_or in Hy. destruct Hy as [Hy|[<-|[]]]; [|apply ltb_irrefl]. destruct (SFltb x y) eqn:Q; [|reflexivity].
          rewrite <- (Mx y Hy). symmetry. eapply ltb_trans; eassumption.
        * intros j y Hj Ej. rewrite Nat2Z.id in Hj. rewrite nth_error_app1 in Ej by lia.
          assert (In y pre) by (eapply nth_error_In; exact Ej).
          assert (Ny : f_nan y = false) by (apply (no_nan_In _ y Nn), in_or_app; left; apply in_or_app; now left).
          destruct (ltb_neg_trans best y x Ny Lt) as [Q|Q]; [rewrite (Mx y) in Q by assumption; discriminate|exact Q].
      + apply IH; [exact Nn|lia| | |].
        * rewrite nth_error_app1 by (apply nth_error_Some; congruence). exact Eb.
        * intros y Hy. apply in_app_or in Hy. destruct Hy as [Hy|[<-|[]]]; [now apply Mx|exact Lt].
        * intros j y Hj Ej. rewrite nth_error_app1 in Ej; [now apply (Fst j)|]. apply Nat.lt_trans with (Z.to_nat w); [exact Hj|lia].
  Qed.

  Lemma argmax_loop_spec : forall l, forallb (fun x => negb (f_nan x)) l = true -> l <> [] ->
    exists v i, @argmax_loop _ N l = Ok (v, i) /\ 0 <= i < Z.of_nat (length l) /\ nth_error l (Z.to_nat i) = Some v /\
    (forall x, In x l -> SFltb v x = false) /\ (forall j x, (j < Z.to_nat i)%nat -> nth_error l j = Some x -> SFltb x v = true).
  Proof.
    intros [|x l] Nn Ne; [contradiction|]. cbn [argmax_loop].
    pose proof (argmax_from_spec l [x] x 0 Nn) as S. cbn [length Z.of_nat Pos.of_succ_nat] in S.
    destruct (@argmax_from _ N x 0 1 l) as [v i]. exists v, i. split; [reflexivity|]. apply S.
    - lia.
    - reflexivity.
    - intros y [<-|[]]. apply ltb_irrefl.
    - intros j y Hj _. cbn in Hj. lia.
  Qed.

  (** Without NaN the unrolled kernels compute what the loop computes. *)
  Lemma unrolled : forall P l, forallb (fun x => negb (f_nan x)) l = true -> length l = P -> @maxout_cell _ N P l = @argmax_loop _ N l.
  Proof.
    intros P l Nn L. destruct P as [|[|[|[|P]]]]; try reflexivity.
    - destruct l as [|a [|b [|c l]]]; try discriminate L. cbn [maxout_cell argmax_args argmax_loop argmax_from fst snd].
      destruct (@nltb _ N a b); reflexivity.
    - destruct l as [|a [|b [|c [|d l]]]]; try discriminate L. cbn [maxout_cell argmax_args argmax_loop argmax_from fst snd].
      assert (Na := no_nan_In _ a Nn (or_introl eq_refl)). assert (Nb := no_nan_In _ b Nn (or_intror (or_introl eq_refl))).
      assert (Nc := no_nan_In _ c Nn (or_intror (or_intror (or_introl eq_refl)))). cbn [nltb num_sf].
      destruct (SFltb b c) eqn:Bc; cbn [fst snd].
      + destruct (SFltb a b) eqn:Ab.
        * rewrite (ltb_trans a b c Ab Bc). reflexivity.
        * destruct (SFltb a c) eqn:Ac; reflexivity.
      + destruct (SFltb a b) eqn:Ab; [reflexivity|].
        destruct (SFltb a c) eqn:Ac; [|reflexivity]. destruct (ltb_neg_trans a b c Nb Ac); congruence.
  Qed.

  Lemma maxout_spec : forall P l, forallb (fun x => negb (f_nan x)) l = true -> length l = P -> (0 < P)%nat ->
    exists v i, @maxout_cell _ N P l = Ok (v, i) /\ 0 <= i < Z.of_nat P /\ nth_error l (Z.to_nat i) = Some v /\
    (forall x, In x l -> @nltb _ N v x = false) /\ (forall j x, (j < Z.to_nat i)%nat -> nth_error l j = Some x -> @nltb _ N x v = true).
  Proof. intros P l Nn L Hp. rewrite unrolled by assumption. subst P. apply argmax_loop_spec; [exact Nn|]. now destruct l. Qed.

  Lemma nan_from : forall l w i, @argmax_from _ N S754_nan w i l = (S754_nan, w).
  Proof. induction l as [|x l IH]; intros w i; cbn; [reflexivity|apply IH]. Qed.
  Lemma maxout_first_nan : forall P l, length l = P -> @maxout_cell _ N (S P) (S754_nan :: l) = Ok (S754_nan, 0).
  Proof.
    intros P l L. destruct P as [|[|[|P]]].
    - destruct l; [reflexivity|discriminate L].
    - destruct l as [|a [|b l]]; try discriminate L. reflexivity.
    - destruct l as [|a [|b [|c l]]]; try discriminate L. reflexivity.
    - cbn [maxout_cell argmax_loop]. now rewrite nan_from.
  Qed.
  (** With more than three candidates, a NaN that is not the first is passed over. *)
  Lemma nan_skipped : forall l best w i w' i', fst (@argmax_from _ N best w i l) = fst (@argmax_from _ N best w' i' (filter (fun x => negb (f_nan x)) l)).
  Proof.
    induction l as [|x l IH]; intros best w i w' i'; cbn [filter argmax_from]; [reflexivity|]. destruct x as [s|s| |s m e]; cbn [f_nan negb argmax_from].
    - destruct (@nltb _ N best _); apply IH.
    - destruct (@nltb _ N best _); apply IH.
    - assert (E : @nltb _ N best S754_nan = false) by (destruct best as [t|t| |t n f]; reflexivity). rewrite E. apply IH.
    - destruct (@nltb _ N best _); apply IH.
  Qed.
  Lemma maxout_skips_nan : forall P x l, (3 <= P)%nat -> length l = P ->
    option_map fst (match @maxout_cell _ N (S P) (x :: l) with Ok r => Some r | Err _ => None end) =
    option_map fst (match @argmax_loop _ N (x :: filter (fun x => negb (f_nan x)) l) with Ok r => Some r | Err _ => None end).
  Proof.
    intros P x l H3 L. destruct P as [|[|[|P]]]; try lia. cbn [maxout_cell argmax_loop option_map]. f_equal. apply nan_skipped.
  Qed.

  (** The maximum of numpy: NaN if there is a NaN *)
  Lemma xp_max_nan : forall l best w i, In S754_nan (best :: l) -> fst (@xp_argmax_from _ N best w i l) = S754_nan.
  Proof.
    induction l as [|x l IH]; intros best w i Hi; cbn [xp_argmax_from]; [destruct Hi as [->|[]]; reflexivity|].
    destruct (negb (@neqb _ N best best)) eqn:Nb.
    - cbn [fst]. destruct best as [[]|[]| |[] m e]; try discriminate Nb; [reflexivity| |]; cbn in Nb; unfold SFeqb in Nb; cbn in Nb; rewrite Z.compare_refl in Nb; change (Pos.compare_cont Eq m m) with (m ?= m)%positive in Nb; rewrite Pos.compare_refl in Nb; discriminate Nb.
    - destruct Hi as [->|Hi]; [discriminate Nb|].
      destruct (@nltb _ N best x || negb (@neqb _ N x x)) eqn:Q; apply IH; [exact Hi|]. destruct Hi as [->|Hi]; [|now right].
      destruct best as [s|s| |s m e]; discriminate Q.
  Qed.

  Hypothesis F : format prec emax.

  (** ** The gradient of the rectifier *)
  Lemma cpu_backprop_relu_elem : forall d y, @cpu_backprop_relu _ N [d] [y] = [if f_nan y || @nltb _ N (@nZ _ N 0) y then d else S754_zero false].
  Proof. intros d [s|s| |s m e]; try reflexivity; destruct s; reflexivity. Qed.
  Lemma op_backprop_relu_elem : forall d y, valid_binary prec emax d = true ->
    @nmul _ N d (if @nltb _ N (@nZ _ N 0) y then @nZ _ N 1 else @nZ _ N 0) =
    if @nltb _ N (@nZ _ N 0) y then d else if f_finite d then S754_zero (f_sign d) else S754_nan.
  Proof.
    intros d y V. destruct (@nltb _ N (@nZ _ N 0) y) eqn:E.
    - cbn [nmul nZ num_sf]. now rewrite (mul_one _ _ F).
    - destruct d as [s|s| |s m e]; cbn; try reflexivity; now rewrite xorb_false_r.
  Qed.

  (** ** Clipping to a range *)
  Lemma clip_range : forall lo hi x, f_nan lo = false -> f_nan hi = false -> f_nan x = false -> @nltb _ N hi lo = false ->
    @nltb _ N (@clip _ N lo hi x) lo = false /\ @nltb _ N hi (@clip _ N lo hi x) = false /\
    (@nltb _ N x lo = false -> @nltb _ N hi x = false -> @clip _ N lo hi x = x).
  Proof.
    intros lo hi x Nl Nh Nx Le. unfold clip. cbn [nltb num_sf] in *. destruct (SFltb x lo) eqn:Xl.
    - rewrite Le. repeat split; [apply ltb_irrefl|exact Le|discriminate].
    - destruct (SFltb hi x) eqn:Hx; repeat split; try assumption; try discriminate; try reflexivity. apply ltb_irrefl.
  Qed.
  Lemma clip_nan_id : forall lo hi, @clip _ N lo hi S754_nan = S754_nan.
  Proof. intros [s|s| |s m e] [t|t| |t n f]; reflexivity. Qed.

  (** ** The loss scale *)
  Lemma scale_up : forall k s m e, 0 <= k -> k < emax -> canon prec emax m e -> exists m' e', canon prec emax m' e' /\ same m' e' m (e + k) /\
    SFmul prec emax (S754_finite s m e) (pow2 prec emax k) = if e' <=? emax - prec then S754_finite s m' e' else S754_infinity s.
  Proof.
    intros k s m e Hk Hk' C. destruct (scaled prec emax m e k C Hk) as [m' [e' [C' [L E]]]]. exists m', e'.
    assert (S : same m' e' m (e + k)) by (unfold same; rewrite Z.min_l, Z.sub_diag, Z.pow_0_r, Z.mul_1_r by lia; exact E).
    repeat split; [exact C'|exact S|]. apply (mul_top prec emax F); try assumption; try (pose proof (prec_ge _ _ F); pose proof (emax_gt _ _ F); lia).
    (* the exponent cannot drop by more than prec - 1 *)
    pose proof (digits_bounds m) as Dm. unfold canon, fexp, emin in *.
    assert (Dg : Z.pos (digits2_pos m') = Z.pos (digits2_pos m) + (e + k - e')) by (rewrite (shl_unique m m' (e + k - e')) by (lia || exact E); apply digits_shl; lia).
    lia.
  Qed.
  Lemma unscale_value : forall k x, 0 <= k -> k <= emax - 2 -> valid_binary prec emax x = true ->
    f_finite (@nmul _ N x (pow2 prec emax k)) = true -> @nmul _ N (@nmul _ N x (pow2 prec emax k)) (pow2 prec emax (- k)) = x.
  Proof.
    intros k x Hk Hk' V Fin. pose proof (prec_ge _ _ F) as Hp. pose proof (emax_gt _ _ F) as He. cbn [nmul num_sf] in *.
    destruct x as [s|s| |s m e].
    - rewrite !(pow2_eq _ _ F) by lia. cbn. now rewrite !xorb_false_r.
    - rewrite (pow2_eq _ _ F) in Fin by lia. discriminate Fin.
    - discriminate Fin.
    - cbn [valid_binary] in V. apply bounded_canon in V. destruct V as [C L]. destruct (scale_up k s m e Hk ltac:(lia) C) as [m' [e' [C' [S E]]]].
      rewrite E in *. destruct (e' <=? emax - prec) eqn:Le; [|discriminate Fin].
      rewrite (mul_top prec emax F s m' e' (- k) m e C); try lia; [now rewrite (proj2 (Z.leb_le _ _) L)| |].
      + unfold same in *. replace (Z.min e (e' + - k)) with (Z.min e' (e + k) - k) by lia. replace (e - (Z.min e' (e + k) - k)) with (e + k - Z.min e' (e + k)) by lia.
        replace (e' + - k - (Z.min e' (e + k) - k)) with (e' - Z.min e' (e + k)) by lia. now rewrite S.
      + assert (L2 : e' <= e + k \/ e' > e + k) by lia. destruct L2 as [L2|L2]; [lia|]. unfold same in S. rewrite Z.min_r in S by lia.
        rewrite Z.sub_diag, Z.pow_0_r, Z.mul_1_r in S. assert (Dg : Z.pos (digits2_pos m) = Z.pos (digits2_pos m') + (e' - (e + k))) by (rewrite (shl_unique m' m (e' - (e + k))) by lia; apply digits_shl; lia).
        unfold canon, fexp, emin in *. lia.
  Qed.

  (** The reciprocal of a power of two *)
  Lemma inv_pow2 : forall k, 0 <= k -> k <= emax - 2 -> @ndiv _ N (@nZ _ N 1) (pow2 prec emax k) = pow2 prec emax (- k).
  Proof.
    intros k Hk Hk'. pose proof (prec_ge _ _ F) as Hp. pose proof (emax_gt _ _ F) as He. cbn [ndiv nZ num_sf]. rewrite (one_eq _ _ F), !(pow2_eq _ _ F) by lia.
    cbn [SFdiv]. unfold SFdiv_core_binary. cbn [Zdigits2]. rewrite (digits_top _ _ F).
    set (e0 := Z.min (fexp prec emax (prec + (1 - prec) - (prec + (k + 1 - prec)))) (1 - prec - (k + 1 - prec))).
    assert (E0 : e0 = Z.max (- k - prec) (3 - emax - prec)) by (unfold e0, fexp, emin; lia).
    set (sh := 1 - prec - (k + 1 - prec) - e0). assert (Hs : 0 < sh) by (unfold sh; lia).
    destruct sh as [|p|p] eqn:Esh; [lia| |lia]. rewrite Z.shiftl_mul_pow2 by lia.
    assert (Q : Z.div_eucl (Z.pos (top prec) * 2 ^ Z.pos p) (Z.pos (top prec)) = (2 ^ Z.pos p, 0)).
    { pose proof (Z.div_mul (2 ^ Z.pos p) (Z.pos (top prec))) as D. pose proof (Z.mod_mul (2 ^ Z.pos p) (Z.pos (top prec))) as M. rewrite Z.mul_comm in D, M. unfold Z.div in D. unfold Z.modulo in M.
      destruct (Z.div_eucl (Z.pos (top prec) * 2 ^ Z.pos p) (Z.pos (top prec))) as [q r]. rewrite D, M by lia. reflexivity. }
    rewrite Q. assert (NL : new_location (Z.pos (top prec)) 0 = loc_Exact) by (unfold new_location; destruct (Z.even (Z.pos (top prec))); reflexivity). rewrite NL.
    cbn [xorb]. assert (E2 : 2 ^ Z.pos p = Z.pos (shl 1 (Z.pos p))) by (rewrite shl_eq by lia; lia). rewrite E2.
    rewrite (aux_same prec emax false (top prec) (- k + 1 - prec)).
    - now rewrite (proj2 (Z.leb_le _ _)) by lia.
    - apply canon_top; [exact F|lia].
    - lia.
    - rewrite <- E2, (top_eq _ _ F), <- Z.pow_add_r by lia. f_equal. lia.
  Qed.

  Lemma unscale_exact : forall (sc : scaler spec_float) k grads, sc_enabled sc = true -> sc_scale sc = pow2 prec emax k -> 0 <= k -> k <= emax - 2 ->
    Forall (Forall (fun x => valid_binary prec emax x = true)) grads ->
    Forall (Forall (fun x => f_finite (@nmul _ N x (sc_scale sc)) = true)) grads ->
    fst (@unscale _ N f_finite sc (map (map (fun x => @nmul _ N x (sc_scale sc))) grads)) = (sc_found sc, grads).
  Proof.
    intros sc k grads En Es Hk Hk' V Fin. unfold unscale. rewrite En. cbn [negb]. rewrite Es in *. rewrite (inv_pow2 k Hk Hk'). unfold check_and_unscale.
    assert (Ex : existsb (fun g => existsb (fun x => negb (f_finite x)) g) (map (map (fun x => @nmul _ N x (pow2 prec emax k))) grads) = false).
    { clear V Es. induction Fin as [|g grads Hg Hgs IH]; [reflexivity|]. cbn [map existsb]. rewrite IH, orb_false_r. clear - Hg. induction Hg as [|x g Hx Hg IH]; [reflexivity|]. cbn [map existsb]. now rewrite Hx, IH. }
    rewrite Ex, orb_false_r. cbn [fst]. f_equal. rewrite map_map. clear Ex Es.
    induction grads as [|g grads IH]; [reflexivity|]. inversion V; inversion Fin; subst. cbn [map]. rewrite IH by assumption. f_equal. rewrite map_map.
    clear IH V Fin. induction g as [|x g IH]; [reflexivity|]. cbn [map]. repeat match goal with H : Forall _ (_ :: _) |- _ => inversion H; clear H; subst end.
    rewrite IH by assumption. f_equal. now apply unscale_value.
  Qed.

  (** Doubling and halving keep the scale a power of two. *)
  Lemma pow2_mul : forall a b, 2 - emax <= a -> a < emax -> 2 - emax <= b -> b < emax -> 2 - emax <= a + b -> a + b < emax ->
    @nmul _ N (pow2 prec emax a) (pow2 prec emax b) = pow2 prec emax (a + b).
  Proof.
    intros a b A1 A2 B1 B2 C1 C2. pose proof (prec_ge _ _ F) as Hp. pose proof (emax_gt _ _ F) as He. cbn [nmul num_sf].
    rewrite (pow2_eq _ _ F a), (pow2_eq _ _ F (a + b)) by lia. rewrite (mul_top prec emax F false (top prec) (a + 1 - prec) b (top prec) (a + b + 1 - prec)); try lia.
    - now rewrite (proj2 (Z.leb_le _ _)) by lia.
    - apply canon_top; [exact F|lia].
    - unfold same. replace (a + 1 - prec + b) with (a + b + 1 - prec) by lia. reflexivity.
  Qed.
  Lemma pow2_overflow : f_finite (@nmul _ N (pow2 prec emax (emax - 1)) (pow2 prec emax 1)) = false.
  Proof.
    pose proof (prec_ge _ _ F) as Hp. pose proof (emax_gt _ _ F) as He. cbn [nmul num_sf]. rewrite (pow2_eq _ _ F (emax - 1)) by lia.
    rewrite (mul_top prec emax F false (top prec) (emax - 1 + 1 - prec) 1 (top prec) (emax + 1 - prec)); try lia.
    - now rewrite (proj2 (Z.leb_gt _ _)) by lia.
    - apply canon_top; [exact F|lia].
    - unfold same. replace (emax - 1 + 1 - prec + 1) with (emax + 1 - prec) by lia. reflexivity.
  Qed.
  Lemma scale_stays : forall (sc : scaler spec_float) k, sc_enabled sc = true -> sc_scale sc = pow2 prec emax k -> 2 - emax < k -> k < emax ->
    sc_growth sc = pow2 prec emax 1 -> sc_backoff sc = pow2 prec emax (-1) ->
    exists k', sc_scale (@update _ N f_finite sc) = pow2 prec emax k' /\ k - 1 <= k' <= k + 1 /\ k' < emax /\ (sc_found sc = true -> k' = k - 1) /\ (sc_found sc = false -> k <= k').
  Proof.
    intros sc k En Es L1 L2 Eg Eb. pose proof (prec_ge _ _ F) as Hp. pose proof (emax_gt _ _ F) as He. unfold update. rewrite En. cbn [negb]. unfold amp_update_scale. rewrite Es, Eg, Eb.
    destruct (sc_found sc) eqn:Fd.
    - exists (k - 1). cbn [sc_scale]. rewrite pow2_mul by lia. repeat split; try lia; try discriminate.
    - destruct (Nat.eqb (S (sc_tracker sc)) (sc_interval sc)).
      + destruct (Z.eq_dec k (emax - 1)) as [->|Ne].
        * rewrite pow2_overflow. exists (emax - 1). cbn [sc_scale]. repeat split; try lia; discriminate.
        * rewrite pow2_mul by lia. exists (k + 1). rewrite (pow2_eq _ _ F (k + 1)) by lia. cbn [f_finite sc_scale]. repeat split; try lia; discriminate.
      + exists k. cbn [sc_scale]. repeat split; try lia; discriminate.
  Qed.
End Format.
