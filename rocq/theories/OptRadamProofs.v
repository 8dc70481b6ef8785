From Coq Require Import Reals Lra Psatz.
From Verif Require Import BaseFacts DictFacts OptSpec OptProofs OptRealProofs.
Set Default Goal Selector "!".
Local Open Scope R_scope.

Lemma nnat_INR n : @nnat R num_R n = INR n.
Proof. unfold nnat. cbn [nZ num_R]. symmetry. apply INR_IZR_INZ. Qed.
Lemma radam_values_real b1 b2 t : 0 <= b2 < 1 -> (0 < t)%nat ->
  radam_values b1 b2 t = (rho b2 t, if Rle_dec 5 (rho b2 t) then rect b2 t * sqrt (1 - b2 ^ t) / (1 - b1 ^ t) else 1 / (1 - b1 ^ t)).
Proof.
  intros Hb Ht. destruct (pow_bounds b2 t Hb Ht) as [P0 P1]. unfold radam_values. rewrite !npow_pow, nnat_INR. cbn [nadd nmul nsub ndiv nZ nsqrt num_R].
  change (2 / (1 - b2) - 1) with (rho_inf b2). change (rho_inf b2 - 2 * INR t * b2 ^ t / (1 - b2 ^ t)) with (rho b2 t).
  set (r := rho b2 t). assert (LE : r <= rho_inf b2).
  { unfold r, rho. assert (0 <= 2 * INR t * b2 ^ t / (1 - b2 ^ t)); [|lra]. apply Rmult_le_pos; [|apply Rlt_le, Rinv_0_lt_compat; lra].
    apply Rmult_le_pos; [|exact P0]. apply Rmult_le_pos; [lra|apply pos_INR]. }
  f_equal. cbn [nltb num_R]. destruct (Rlt_dec r 5) as [H|H], (Rle_dec 5 r) as [H'|H']; try lra; cbn [negb]; [reflexivity|]. f_equal.
  unfold rect. fold r. set (i := rho_inf b2) in *.
  assert (A : 0 <= (r - 4) * (r - 2) * i / ((i - 4) * (i - 2) * r)).
  { apply Rmult_le_pos; [|apply Rlt_le, Rinv_0_lt_compat].
    - apply Rmult_le_pos; [apply Rmult_le_pos|]; lra.
    - apply Rmult_lt_0_compat; [apply Rmult_lt_0_compat|]; lra. }
  rewrite <- sqrt_mult by lra. f_equal. field. repeat split; lra.
Qed.

Section Radam.
  Context {K : Type} `{EqD K} (adam : list R -> list R -> list R -> list R -> R -> R -> R -> R -> list R * list R * list R * list R) (hp : hyper R K).
  Lemma run_betas b1 b2 es : forall st, betas_ok hp b1 b2 st -> betas_ok hp b1 b2 (fst (run_events adam hp st es)).
  Proof.
    induction es as [|e es IH]; intros st B; [exact B|]. cbn [run_events].
    assert (B1 : betas_ok hp b1 b2 (fst (run_event adam hp st e))).
    { destruct e as [j w g sc| |x]; cbn [run_event]; [|exact B|exact B]. pose proof (call_betas adam hp b1 b2 st j w g sc B) as C. destruct (opt_call adam hp st j w g sc). exact C. }
    destruct (run_event adam hp st e) as [s1 o1]. cbn [fst] in *. specialize (IH s1 B1). destruct (run_events adam hp s1 es). exact IH.
  Qed.
  Lemma call_radam b1 b2 sz k st tr w g sc : h_radam hp = true -> betas_ok hp b1 b2 st ->
    fixed (h_b1 hp) b1 -> fixed (h_b2 hp) b2 -> 0 < b1 < 1 -> 0 < b2 < 1 ->
    moments_are b1 b2 sz k st tr -> length (a_data w) = sz -> length (a_data g) = sz -> (1 <= hd 0%nat (a_shape g))%nat ->
    let G := eff_grad hp st k (a_data w) (a_data g) in
    exists st' w' g', opt_call adam hp st k w g sc = (st', Ok (w', g')) /\ length (a_data w') = sz /\
      forall i, (i < sz)%nat ->
        let t := (length tr + 2)%nat in
        let m := ema b1 (column i (tr ++ [G])) in
        let v := ema b2 (map (fun x => x ^ 2) (column i (tr ++ [G]))) in
        let lr := h_lr hp (o_step st) k (o_last st) in
        let L2 := h_L2 hp (o_step st) k (o_last st) in
        let eps := h_eps hp (o_step st) k (o_last st) in
        nth i (a_data w') 0 =
          (if h_decay hp then 1 - sc * lr * L2 else 1) *
          (nth i (a_data w) 0 - lr * (if Rle_dec 5 (rho b2 t) then rect b2 t * sqrt (1 - b2 ^ t) / (1 - b1 ^ t) * (m / (sqrt v + eps)) else m / (1 - b1 ^ t))).
  Proof.
    intros Er Bo E1 E2 B1 B2 (Hnr & M1 & M2) Lw Lg Hl. cbv zeta. rewrite opt_call_eq.
    destruct (a_shape g) as [|len shp]; [cbn in Hl; lia|]. cbn [hd] in Hl.
    destruct (Nat.ltb_spec len 1) as [?|_]; [lia|]. cbv zeta.
    set (G := eff_grad hp st k (a_data w) (a_data g)).
    assert (LG : length G = sz) by (unfold G; rewrite eff_grad_length; lia).
    set (nr := (nr_of st k + 1)%nat). set (s1 := with_nr st (dset k nr (o_nr st))).
    assert (N1 : nr_of s1 k = nr) by (unfold nr_of, s1; cbn [with_nr o_nr]; now rewrite dget_dset_same).
    unfold update_of. rewrite Er. unfold opt_radam. change (o_mom1 s1) with (o_mom1 st). change (o_mom2 s1) with (o_mom2 st). change (o_buf s1) with (o_buf st). rewrite Lw, M1, M2, E1, E2, N1.
    destruct (Bo Er) as (_ & _ & Kb). pose proof (proj1 (lookup_value b1 b2 (o_buf st) (nr + 1) Kb)) as LV.
    replace (nr + 1)%nat with (length tr + 2)%nat in * by (unfold nr; lia). set (t := (length tr + 2)%nat) in *.
    destruct (radam_lookup (o_buf st) b1 b2 t) as [bf [N z]]. cbn [snd] in LV. rewrite radam_values_real in LV by (lra || (unfold t; lia)). injection LV as -> EZ.
    destruct (pow_bounds b1 t ltac:(lra) ltac:(unfold t; lia)) as [P0 P1].
    set (mm := vmap2 (fun m g0 : R => (m + (nZ 1 - b1) * g0)%num) (map (fun m : R => (m * b1)%num) (moment b1 (fun x : R => x) sz tr)) G).
    set (vv := vmap2 (fun m g0 : R => (m + (nZ 1 - b2) * npow g0 2)%num) (map (fun m : R => (m * b2)%num) (moment b2 (fun x : R => x ^ 2) sz tr)) G).
    assert (LM1 : length mm = sz) by (unfold mm; rewrite vmap2_length; rewrite map_length, moment_length; lia).
    assert (LM2 : length vv = sz) by (unfold vv; rewrite vmap2_length; rewrite map_length, moment_length; lia).
    assert (Q1 : forall i, (i < sz)%nat -> nth i mm 0 = ema b1 (column i (tr ++ [G]))).
    { intros i Hi. pose proof (moment_snoc b1 (fun x => x) sz tr G i Hi) as Q. rewrite map_id in Q. rewrite Q. unfold mm.
      rewrite vmap2_nth_R by (rewrite map_length, moment_length; lia). rewrite map_nth_R by (rewrite moment_length; lia). cbn. lra. }
    assert (Q2 : forall i, (i < sz)%nat -> nth i vv 0 = ema b2 (map (fun x => x ^ 2) (column i (tr ++ [G])))).
    { intros i Hi. rewrite (moment_snoc b2 (fun x => x ^ 2) sz tr G i Hi). unfold vv.
      rewrite vmap2_nth_R by (rewrite map_length, moment_length; lia). rewrite map_nth_R by (rewrite moment_length; lia). cbn. lra. }
    cbn [nltb nZ num_R]. change (o_step s1) with (o_step st). change (o_last s1) with (o_last st). set (lr := h_lr hp (o_step st) k (o_last st)). set (eps := h_eps hp (o_step st) k (o_last st)). set (L2 := h_L2 hp (o_step st) k (o_last st)).
    match goal with |- context [if (_ && h_decay hp)%bool then map _ ?e else _] => set (w1 := e) end.
    assert (W : length w1 = sz /\ forall i, (i < sz)%nat -> nth i w1 0 = nth i (a_data w) 0 - lr * (if Rle_dec 5 (rho b2 t) then rect b2 t * sqrt (1 - b2 ^ t) / (1 - b1 ^ t) * (ema b1 (column i (tr ++ [G])) / (sqrt (ema b2 (map (fun x => x ^ 2) (column i (tr ++ [G])))) + eps)) else ema b1 (column i (tr ++ [G])) / (1 - b1 ^ t))).
    { unfold w1. destruct (Rle_dec 5 (rho b2 t)) as [H5|H5], (Rlt_dec (rho b2 t) 5) as [H5'|H5']; try lra; cbn [negb].
      - assert (LQ : length (vmap2 (fun a q : R => (a / (nsqrt q + eps))%num) mm vv) = sz) by (rewrite vmap2_length; lia).
        split; [rewrite vmap2_length; lia|]. intros i Hi. rewrite vmap2_nth_R by lia. rewrite vmap2_nth_R by lia. rewrite (Q1 i Hi), (Q2 i Hi), EZ. cbn [nadd nmul nopp ndiv nsqrt num_R]. ring.
      - destruct (Rlt_dec 0 z) as [Hz|Hz].
        + split; [rewrite vmap2_length; lia|]. intros i Hi. rewrite vmap2_nth_R by lia. rewrite (Q1 i Hi), EZ. cbn [nadd nmul nopp ndiv nsqrt num_R]. unfold Rdiv. ring.
        + exfalso. apply Hz. rewrite EZ. apply Rdiv_lt_0_compat; lra. }
    clearbody w1. destruct W as [Lw1 Hw]. do 3 eexists. split; [reflexivity|]. cbn [a_data]. split.
    { destruct (_ && _)%bool; [rewrite map_length|]; exact Lw1. }
    intros i Hi. specialize (Hw i Hi). destruct (h_decay hp).
    - rewrite Bool.andb_true_r. cbn [neqb num_R]. destruct (Req_EM_T L2 0) as [E0|E0]; cbn [negb].
      + rewrite Hw, E0. ring.
      + rewrite map_nth_R by lia. rewrite Hw. cbn [nmul nsub num_R]. ring.
    - rewrite Bool.andb_false_r, Hw. ring.
  Qed.
End Radam.

Lemma radam_step {K} `{EqD K} adam (hp : hyper R K) b1 b2 sz k es avg w g sc :
  adam = base_adam \/ adam = numpy_adam ->
  h_radam hp = true ->
  fixed (h_b1 hp) b1 -> fixed (h_b2 hp) b2 -> 0 < b1 < 1 -> 0 < b2 < 1 -> Forall (sized k sz) es ->
  length (a_data w) = sz -> length (a_data g) = sz -> (1 <= hd 0%nat (a_shape g))%nat ->
  let st := fst (run_events adam hp (opt_init avg) es) in
  let tr := (eff_trace adam hp (opt_init avg) k es ++ [eff_grad hp st k (a_data w) (a_data g)])%list in
  let t := S (length tr) in
  let lr := h_lr hp (o_step st) k (o_last st) in
  let L2 := h_L2 hp (o_step st) k (o_last st) in
  let eps := h_eps hp (o_step st) k (o_last st) in
  exists st' w' g', opt_call adam hp st k w g sc = (st', Ok (w', g')) /\ length (a_data w') = sz /\
    forall i, (i < sz)%nat ->
      let m := ema b1 (column i tr) in
      let v := ema b2 (map (fun x => x ^ 2) (column i tr)) in
      nth i (a_data w') 0 =
        (if h_decay hp then 1 - sc * lr * L2 else 1) *
        (nth i (a_data w) 0 - lr * (if Rle_dec 5 (rho b2 t) then rect b2 t * sqrt (1 - b2 ^ t) / (1 - b1 ^ t) * (m / (sqrt v + eps)) else m / (1 - b1 ^ t))).
Proof.
  intros Ha Er F1 F2 B1 B2 Hs Lw Lg Hl. cbv zeta.
  pose proof (run_moments adam (kernel_spec adam Ha) hp b1 b2 sz k es (opt_init avg) [] F1 F2 B1 B2 Hs (init_moments b1 b2 sz k avg)) as M. cbn [app] in M.
  assert (B : betas_ok hp b1 b2 (fst (run_events adam hp (opt_init avg) es))) by (apply run_betas; intros _; split; [exact F1|split; [exact F2|apply buf_ok_init]]).
  destruct (call_radam adam hp b1 b2 sz k _ _ w g sc Er B F1 F2 B1 B2 M Lw Lg Hl) as (st' & w' & g' & E & L & Hi). cbv zeta in Hi.
  exists st', w', g'. split; [exact E|]. split; [exact L|]. intros i Hlt. rewrite (Hi i Hlt), app_length. cbn [length]. replace (S (length (eff_trace adam hp (opt_init avg) k es) + 1)) with (length (eff_trace adam hp (opt_init avg) k es) + 2)%nat by lia. reflexivity.
Qed.
