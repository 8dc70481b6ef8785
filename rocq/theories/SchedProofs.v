From Verif Require Import BaseFacts SchedSpec.
Set Default Goal Selector "!".

(** *** Generators *)
Section Gen.
  Context {T : Type} `{Num T} `{NumX T}.
  Variable seq : nat -> option T.

  Definition ginv (k pos : nat) (lv : T) : Prop :=
    (forall i, i < pos -> seq i <> None) /\
    (k = 0 /\ pos = 0 /\ seq 0 = Some lv \/
     1 <= k /\ yields seq (k - 1) lv /\ (pos = k \/ 0 < pos /\ pos < k /\ seq pos = None /\ seq (pos - 1) = Some lv)).

  Lemma loop_inv n : forall k pos lv g' v, ginv k pos lv ->
    gen_loop n (mkGen seq pos) lv = (g', v) -> exists pos', g' = mkGen seq pos' /\ ginv (k + n) pos' v.
  Proof.
    induction n as [|n IH]; intros k pos lv g' v Hi E.
    - cbn in E. injection E as <- <-. exists pos. rewrite Nat.add_0_r. auto.
    - cbn [gen_loop] in E. unfold gen_next in E. cbn [g_seq g_pos] in E.
      destruct Hi as [Hal Hi]. destruct (seq pos) as [x|] eqn:Ep.
      + assert (Hk : pos = k).
        { destruct Hi as [(A & B & _)|(_ & _ & [A|(_ & _ & A & _)])]; [lia | exact A | congruence]. }
        subst pos. replace (k + S n) with (S k + n) by lia. apply (IH (S k) (S k) x g' v); [|exact E].
        split.
        * intros i Hlt. destruct (Nat.eq_dec i k) as [->|]; [congruence | apply Hal; lia].
        * right. split; [lia|]. split; [|now left]. exists k. rewrite Nat.sub_succ, Nat.sub_0_r.
          split; [|split; [exact Ep | now left]].
          intros i Hle. destruct (Nat.eq_dec i k) as [->|]; [congruence | apply Hal; lia].
      + injection E as <- <-. exists pos. split; [reflexivity|]. split; [exact Hal|].
        right. split; [lia|].
        destruct Hi as [(A & B & C)|(A & (j & J1 & J2 & J3) & P)]; [subst; congruence|].
        assert (Hpos : 0 < pos /\ pos <= k /\ seq (pos - 1) = Some lv).
        { destruct P as [->|(P1 & P2 & P3 & P4)]; [|repeat split; [lia | lia | exact P4]].
          repeat split; [lia | lia |]. destruct J3 as [->|[J3 J4]]; [exact J2|].
          exfalso. apply (Hal (S j)); [lia | exact J4]. }
        destruct Hpos as (P1 & P2 & P3). split.
        * exists (pos - 1). repeat split.
          -- intros i Hle. apply Hal. lia.
          -- exact P3.
          -- right. split; [lia|]. now replace (S (pos - 1)) with pos by lia.
        * right. repeat split; [lia | lia | exact Ep | exact P3].
  Qed.

  Definition wgood (s : schedule T) (k : nat) : Prop :=
    exists pos lv, s = WrapGen (Z.of_nat k - 1) lv (mkGen seq pos) /\ ginv k pos lv.

  Lemma wrap_good s : wrap_generator seq = Ok s -> wgood s 0.
  Proof.
    unfold wrap_generator. destruct (seq 0) as [p|] eqn:E; [|discriminate]. intros X. injection X as <-.
    exists 0, p. split; [reflexivity|]. split; [lia|]. left. auto.
  Qed.

  Lemma wrap_call s k step ls : wgood s k -> (0 <= step)%Z -> (Z.of_nat k - 1 <= step)%Z ->
    exists s' v, sched_call s step ls = (s', Ok v) /\ wgood s' (S (Z.to_nat step)) /\ yields seq (Z.to_nat step) v.
  Proof.
    intros (pos & lv & -> & Hi) H0s Hle. cbn [sched_call].
    destruct (Z.ltb_spec step 0); [lia|]. destruct (Z.ltb_spec step (Z.of_nat k - 1)); [lia|].
    destruct (gen_loop (Z.to_nat (step - (Z.of_nat k - 1))) (mkGen seq pos) lv) as [g' v] eqn:E.
    destruct (loop_inv _ _ _ _ _ _ Hi E) as (pos' & -> & Hi').
    replace (k + Z.to_nat (step - (Z.of_nat k - 1))) with (S (Z.to_nat step)) in Hi' by lia.
    do 2 eexists. split; [reflexivity|]. split.
    - exists pos', v. split; [|exact Hi']. f_equal. lia.
    - destruct Hi' as [_ [(A & _)|(_ & Y & _)]]; [lia|]. now rewrite Nat.sub_succ, Nat.sub_0_r in Y.
  Qed.

  Lemma wrap_run calls : forall s k, wgood s k ->
    nondecreasing (map fst calls) -> Forall (fun c => (0 <= fst c)%Z) calls ->
    (forall c, hd_error calls = Some c -> (Z.of_nat k - 1 <= fst c)%Z) ->
    Forall2 (fun c r => exists v, r = Ok v /\ yields seq (Z.to_nat (fst c)) v) calls (snd (sched_run s calls)) /\
    wgood (fst (sched_run s calls)) (match calls with [] => k | c :: _ => S (Z.to_nat (fst (last calls c))) end).
  Proof.
    induction calls as [|[step ls] calls IH]; intros s k Hg Hnd Hpos Hk.
    - cbn. split; [constructor | exact Hg].
    - inversion Hpos as [|? ? P0 P1]; subst. cbn [fst] in P0. cbn [sched_run].
      destruct (wrap_call s k step ls Hg P0 (Hk _ eq_refl)) as (s1 & v & E & Hg1 & Y). rewrite E.
      assert (Hnd' : nondecreasing (map fst calls)).
      { destruct calls; [exact I | apply Hnd]. }
      assert (Hk1 : forall c, hd_error calls = Some c -> (Z.of_nat (S (Z.to_nat step)) - 1 <= fst c)%Z).
      { intros c Hc. destruct calls as [|c' calls']; [discriminate|]. injection Hc as ->.
        cbn [map fst nondecreasing] in Hnd. lia. }
      specialize (IH s1 (S (Z.to_nat step)) Hg1 Hnd' P1 Hk1).
      destruct (sched_run s1 calls) as [s2 rs]. cbn [fst snd] in *. destruct IH as [I1 I2]. split.
      + constructor; [|exact I1]. cbn [fst]. eauto.
      + destruct calls as [|c calls]; [exact I2|].
        replace (last ((step, ls) :: c :: calls) (step, ls)) with (last (c :: calls) c); [exact I2|].
        change (last ((step, ls) :: c :: calls) (step, ls)) with (last (c :: calls) (step, ls)).
        apply last_default. discriminate.
  Qed.

  Lemma wrap_decrease s k step ls : wgood s k -> (step < Z.of_nat k - 1)%Z -> sched_call s step ls = (s, Err ValueError).
  Proof.
    intros (pos & lv & -> & _) Hlt. cbn [sched_call]. destruct (Z.ltb_spec step 0); [reflexivity|].
    destruct (Z.ltb_spec step (Z.of_nat k - 1)); [reflexivity | lia].
  Qed.

  Lemma generator_values s calls :
    wrap_generator seq = Ok s -> nondecreasing (map fst calls) -> Forall (fun c => (0 <= fst c)%Z) calls ->
    Forall2 (fun c r => exists v, r = Ok v /\ yields seq (Z.to_nat (fst c)) v) calls (snd (sched_run s calls)).
  Proof.
    intros E Hnd Hpos. apply (wrap_run calls s 0 (wrap_good s E) Hnd Hpos).
    intros c Hc. destruct calls as [|c' calls']; [discriminate|]. injection Hc as ->. inversion Hpos; subst. cbn. lia.
  Qed.

  Lemma generator_decrease s calls c step ls :
    wrap_generator seq = Ok s -> nondecreasing (map fst (calls ++ [c])) -> Forall (fun c => (0 <= fst c)%Z) (calls ++ [c]) ->
    (step < fst c)%Z ->
    let s' := fst (sched_run s (calls ++ [c])) in sched_call s' step ls = (s', Err ValueError).
  Proof.
    intros E Hnd Hpos Hlt. cbv zeta.
    destruct (wrap_run (calls ++ [c]) s 0 (wrap_good s E) Hnd Hpos) as [_ Hg].
    { intros d Hc. destruct (calls ++ [c]) as [|c' calls']; [discriminate|]. injection Hc as ->. inversion Hpos; subst. cbn. lia. }
    destruct (calls ++ [c]) as [|d l] eqn:El; [now destruct calls|].
    rewrite <- El in Hg. rewrite last_last in Hg. rewrite <- El.
    eapply wrap_decrease; [exact Hg|].
    apply Forall_app in Hpos || idtac. assert (0 <= fst c)%Z.
    { rewrite Forall_forall in Hpos. apply Hpos. rewrite <- El. apply in_or_app. right. now left. }
    lia.
  Qed.

  Lemma yields_unique k v w : yields seq k v -> yields seq k w -> v = w.
  Proof.
    intros (i & A1 & A2 & A3) (j & B1 & B2 & B3).
    assert (i = j).
    { destruct A3 as [->|[A3 A4]], B3 as [->|[B3 B4]].
      - reflexivity.
      - exfalso. apply (A1 (S j)); [lia | exact B4].
      - exfalso. apply (B1 (S i)); [lia | exact A4].
      - destruct (lt_eq_lt_dec i j) as [[L|L]|L]; [|exact L|].
        + exfalso. apply (B1 (S i)); [lia | exact A4].
        + exfalso. apply (A1 (S j)); [lia | exact B4]. }
    subst j. congruence.
  Qed.

  Lemma generator_empty : seq 0 = None -> wrap_generator seq = Err ValueError.
  Proof. intros E. unfold wrap_generator. now rewrite E. Qed.
End Gen.

Lemma negative_step {T} `{Num T} `{NumX T} (s : schedule T) step ls : (step < 0)%Z -> sched_call s step ls = (s, Err ValueError).
Proof. intros Hlt. destruct s; cbn [sched_call]; destruct (Z.ltb_spec step 0); reflexivity || lia. Qed.

Lemma constant_value {T} `{Num T} `{NumX T} (rate : T) step ls : (0 <= step)%Z -> sched_call (Constant rate) step ls = (Constant rate, Ok rate).
Proof. intros Hle. cbn [sched_call]. destruct (Z.ltb_spec step 0); [lia | reflexivity]. Qed.

Lemma constant_then_value {T} `{Num T} `{NumX T} (rate : T) steps inner step ls : (0 <= step)%Z ->
  sched_call (ConstantThen rate steps inner) step ls =
  if Z.ltb step steps then (ConstantThen rate steps inner, Ok rate)
  else (ConstantThen rate steps (fst (sched_call inner step ls)), snd (sched_call inner step ls)).
Proof.
  intros Hle. cbn [sched_call]. destruct (Z.ltb_spec step 0); [lia|]. destruct (Z.ltb step steps); [reflexivity|].
  now destruct (sched_call inner step ls).
Qed.

(** *** Plateaus *)
Section Plateau.
  Local Open Scope R_scope.
  Variable mp : nat.
  Hypothesis Hmp : (0 < mp)%nat.

  Definition fstep (s : nat * nat) (b : bool) : nat * nat :=
    if b then (fst s + snd s / mp, 0)%nat else (fst s, S (snd s)).

  Lemma fold_runs l : forall a c,
    let s := fold_left fstep l (a, c) in
    (fst s + snd s / mp = a + list_sum_nat (map (fun len => len / mp) (runs c l)))%nat.
  Proof.
    induction l as [|b l IH]; intros a c; cbv zeta in *.
    - cbn. unfold list_sum_nat. cbn. lia.
    - destruct b; cbn [fold_left fstep fst snd runs map].
      + rewrite IH. unfold list_sum_nat. cbn [fold_right]. lia.
      + now rewrite IH.
  Qed.

  Lemma flags_snoc l : forall prev e, flags prev (l ++ [e]) = (flags prev l ++ flag (prev ++ l) e)%list.
  Proof.
    induction l as [|x l IH]; intros prev e; cbn [app flags].
    - rewrite !app_nil_r. reflexivity.
    - rewrite IH, <- !app_assoc. reflexivity.
  Qed.

  Definition pinv (evs : list (Z * R)) (st : pstate R) : Prop :=
    let s := fold_left fstep (flags [] evs) (0, 0)%nat in
    p_n st = (fst s + snd s / mp)%nat /\ p_patience st = (snd s mod mp)%nat /\
    match evs with
    | [] => st = mkP None None 0 0
    | e0 :: _ => exists best, p_best st = Some best /\ p_last st = Some (fst (last evs e0)) /\
                   forall e, improves evs e = if Rlt_dec best (snd e) then true else false
    end.

  Lemma improves_snoc evs e0 e : improves (evs ++ [e0]) e = (improves evs e && if Rlt_dec (snd e0) (snd e) then true else false)%bool.
  Proof. unfold improves. rewrite forallb_app. cbn [forallb]. now rewrite andb_true_r. Qed.

  Lemma div_succ c : (S c / mp = if Nat.eqb (S (c mod mp)) mp then S (c / mp) else c / mp)%nat /\
                     (S c mod mp = if Nat.eqb (S (c mod mp)) mp then 0 else S (c mod mp))%nat.
  Proof.
    pose proof (Nat.div_mod c mp ltac:(lia)) as D. pose proof (Nat.mod_upper_bound c mp ltac:(lia)) as M.
    destruct (Nat.eqb_spec (S (c mod mp)) mp) as [E|E].
    - assert (Q : (S c = mp * S (c / mp) + 0)%nat) by lia.
      split; [symmetry; apply (Nat.div_unique _ _ _ 0); lia | symmetry; apply (Nat.mod_unique _ _ (S (c / mp))); lia].
    - assert (Q : (S c = mp * (c / mp) + S (c mod mp))%nat) by lia.
      split; [symmetry; apply (Nat.div_unique _ _ _ (S (c mod mp))); lia | symmetry; apply (Nat.mod_unique _ _ (c / mp)); lia].
  Qed.

  Lemma update_inv evs st e : pinv evs st -> (forall e0, In e0 evs -> (fst e0 <= fst e)%Z) ->
    exists st', plateau_update mp st (Some e) = Ok st' /\ pinv (evs ++ [e]) st'.
  Proof.
    intros (Hn & Hp & Hm) Hord. destruct e as [step score]. unfold plateau_update.
    assert (Hfl : flags [] (evs ++ [(step, score)]) = (flags [] evs ++ flag evs (step, score))%list) by apply flags_snoc.
    assert (Impr : improves evs (step, score) = true ->
      pinv (evs ++ [(step, score)]) (mkP (Some score) (Some step) 0 (p_n st))).
    { intros Hi. unfold pinv. rewrite Hfl. unfold flag. rewrite Hi, fold_left_app. cbn [fold_left].
      set (s := fold_left fstep (flags [] evs) (0, 0)%nat) in *. unfold fstep at 1 2 3. cbn [fst snd p_n p_patience p_best p_last].
      rewrite Nat.div_0_l, Nat.mod_0_l by lia. split; [lia|]. split; [reflexivity|].
      destruct (evs ++ [(step, score)]) as [|e0 l] eqn:El; [now destruct evs|]. rewrite <- El.
      exists score. split; [reflexivity|]. split; [now rewrite last_last|].
      intros e. rewrite improves_snoc. cbn [snd]. destruct (Rlt_dec score (snd e)) as [Hlt|Hge]; [|apply andb_false_r].
      rewrite andb_true_r. unfold improves in *. rewrite forallb_forall in Hi |- *. intros p Hp'. specialize (Hi p Hp'). cbn [snd] in Hi.
      destruct (Rlt_dec (snd p) score); [|discriminate]. destruct (Rlt_dec (snd p) (snd e)); [reflexivity | lra]. }
    destruct evs as [|e0 evs'] eqn:Eevs.
    - subst st. cbn [p_best p_last]. eexists. split; [reflexivity|]. now apply Impr.
    - rewrite <- Eevs in *. destruct Hm as (best & Hb & Hl & Hi). rewrite Hb, Hl. cbn [nltb num_R].
      destruct (Rlt_dec best score) as [Hlt|Hge].
      + eexists. split; [reflexivity|]. apply Impr. rewrite Hi. cbn [snd]. destruct (Rlt_dec best score); [reflexivity | lra].
      + assert (HiF : improves evs (step, score) = false).
        { rewrite Hi. cbn [snd]. destruct (Rlt_dec best score); [lra | reflexivity]. }
        assert (Hlast : (fst (last evs e0) <= step)%Z).
        { apply (Hord (last evs e0)). rewrite Eevs. destruct (exists_last (l := e0 :: evs') ltac:(discriminate)) as (l & a & ->).
          rewrite last_last. apply in_or_app. right. now left. }
        assert (Keep : forall e, improves (evs ++ [(step, score)]) e = if Rlt_dec best (snd e) then true else false).
        { intros e. rewrite improves_snoc, Hi. cbn [snd]. destruct (Rlt_dec best (snd e)); [|reflexivity].
          destruct (Rlt_dec score (snd e)); [reflexivity | lra]. }
        assert (Hld : last evs (step, score) = last evs e0) by (apply last_default; rewrite Eevs; discriminate).
        destruct (Z.ltb_spec step (fst (last evs e0))); [lia|].
        destruct (Z.ltb_spec (fst (last evs e0)) step) as [Hnew|Hsame].
        * assert (Ef : flags [] (evs ++ [(step, score)]) = (flags [] evs ++ [false])%list).
          { rewrite Hfl. unfold flag. rewrite HiF, Hld. cbn [fst]. destruct (Z.ltb_spec (fst (last evs e0)) step); [reflexivity | lia]. }
          destruct (div_succ (snd (fold_left fstep (flags [] evs) (0, 0)%nat))) as [Dv Md].
          rewrite Hp. destruct (Nat.eqb_spec (S (snd (fold_left fstep (flags [] evs) (0, 0)%nat) mod mp)) mp) as [Em|Em];
            (eexists; split; [reflexivity|]; unfold pinv; rewrite Ef, fold_left_app; cbn [fold_left];
             set (s := fold_left fstep (flags [] evs) (0, 0)%nat) in *; change (fstep s false) with (fst s, S (snd s)); cbn [fst snd p_n p_patience p_best p_last];
             split; [rewrite Hn, Dv; lia|]; split; [now rewrite Md|];
             destruct (evs ++ [(step, score)]) as [|e1 l] eqn:El; [now destruct evs|]; rewrite <- El;
             exists best; split; [first [exact Hb | reflexivity]|]; split; [now rewrite last_last | rewrite <- El in Keep; exact Keep]).
        * assert (Ef : flags [] (evs ++ [(step, score)]) = flags [] evs).
          { rewrite Hfl. unfold flag. rewrite HiF, Hld. cbn [fst]. destruct (Z.ltb_spec (fst (last evs e0)) step); [lia | apply app_nil_r]. }
          eexists. split; [reflexivity|]. unfold pinv. rewrite Ef. cbn [p_n p_patience p_best p_last].
          split; [exact Hn|]. split; [exact Hp|].
          destruct (evs ++ [(step, score)]) as [|e1 l] eqn:El; [now destruct evs|]. rewrite <- El.
          exists best. split; [first [exact Hb | reflexivity]|]. split; [now rewrite last_last | rewrite <- El in Keep; exact Keep].
  Qed.

  Lemma pinv_n evs st : pinv evs st -> p_n st = plateaus mp evs.
  Proof. intros (Hn & _). rewrite Hn. unfold plateaus. rewrite (fold_runs (flags [] evs) 0 0). reflexivity. Qed.

  Lemma nondecreasing_le l : forall a b, nondecreasing (l ++ [a]) -> In b l -> (b <= a)%Z.
  Proof.
    induction l as [|x l IH]; intros a b Hnd Hin; [contradiction|].
    assert (Hxa : (x <= a)%Z /\ nondecreasing (l ++ [a])).
    { cbn [app] in Hnd. destruct (l ++ [a]) as [|y l'] eqn:El; [now destruct l|]. destruct Hnd as [Hxy Hnd]. split; [|exact Hnd].
      destruct l as [|z l]; cbn in El; injection El as -> <-; [exact Hxy|].
      specialize (IH a y Hnd (or_introl eq_refl)). lia. }
    destruct Hin as [->|Hin]; [apply Hxa|]. apply (IH a b); [apply Hxa | exact Hin].
  Qed.

  Lemma nondecreasing_prefix l l' : nondecreasing (l ++ l') -> nondecreasing l.
  Proof.
    induction l as [|x l IH]; intros Hnd; [exact I|]. cbn [app] in Hnd.
    destruct l as [|y l]; [exact I|]. cbn [app] in *. destruct Hnd as [A B]. split; [exact A | apply IH; exact B].
  Qed.

  (** One result per call: scale^n times the inner schedule's rate. *)
  Fixpoint expected (scale : R) (prev : list (Z * R)) (calls : list (Z * option (Z * R))) (inner : list (result R)) : list (result R) :=
    match calls, inner with
    | (_, ls) :: calls', r :: inner' =>
      let evs := (prev ++ match ls with Some e => [e] | None => [] end)%list in
      (let* v := r in Ok (scale ^ plateaus mp evs * v)) :: expected scale evs calls' inner'
    | _, _ => []
    end.

  Lemma npow_pow_R (x : R) n : npow x n = x ^ n.
  Proof. induction n as [|n IH]; cbn; [reflexivity|]. now rewrite IH. Qed.

  Lemma plateau_run scale calls : forall inner prev st, pinv prev st ->
    nondecreasing (map fst (prev ++ evals_of calls)) -> Forall (fun c => (0 <= fst c)%Z) calls ->
    snd (sched_run (Plateau mp scale inner st) calls) = expected scale prev calls (snd (sched_run inner calls)).
  Proof.
    induction calls as [|[step ls] calls IH]; intros inner prev st Hi Hnd Hpos; [reflexivity|].
    inversion Hpos as [|? ? P0 P1]; subst. cbn [fst] in P0. cbn [sched_run sched_call].
    destruct (Z.ltb_spec step 0); [lia|].
    assert (Step : exists st', plateau_update mp st ls = Ok st' /\ pinv (prev ++ match ls with Some e => [e] | None => [] end) st').
    { destruct ls as [e|].
      - apply update_inv; [exact Hi|]. intros e0 He0.
        apply (nondecreasing_le (map fst prev)); [|now apply in_map].
        cbn [evals_of flat_map snd] in Hnd.
        change (map fst (prev ++ ([e] ++ evals_of calls)))%list with (map fst (prev ++ ([e] ++ evals_of calls)%list)) in Hnd.
        rewrite app_assoc, map_app in Hnd. apply nondecreasing_prefix in Hnd. now rewrite map_app in Hnd.
      - rewrite app_nil_r. exists st. auto. }
    destruct Step as (st' & -> & Hi'). destruct (sched_call inner step ls) as [inner' r] eqn:Ec.
    assert (Hnd' : nondecreasing (map fst ((prev ++ match ls with Some e => [e] | None => [] end) ++ evals_of calls))).
    { rewrite <- app_assoc. exact Hnd. }
    specialize (IH inner' _ st' Hi' Hnd' P1).
    destruct (sched_run (Plateau mp scale inner' st') calls) as [s2 rs]. destruct (sched_run inner' calls) as [i2 rs']. cbn [snd] in *.
    cbn [expected]. rewrite IH. f_equal. now rewrite <- (pinv_n _ _ Hi'), npow_pow_R.
  Qed.

  Lemma plateau_init : pinv [] (mkP None None 0 0).
  Proof. unfold pinv. cbn. rewrite Nat.div_0_l, Nat.mod_0_l by lia. auto. Qed.

  Lemma expected_nth scale calls : forall prev inner i c r, nth_error calls i = Some c -> nth_error inner i = Some r ->
    nth_error (expected scale prev calls inner) i =
    Some (let* v := r in Ok (scale ^ plateaus mp (prev ++ evals_of (firstn (S i) calls)) * v)).
  Proof.
    induction calls as [|[step ls] calls IH]; intros prev inner i c r Hc Hr; [destruct i; discriminate|].
    destruct inner as [|r0 inner]; [destruct i; discriminate|].
    destruct i as [|i]; cbn [nth_error] in Hc, Hr.
    - injection Hr as ->. cbn [expected nth_error firstn evals_of flat_map snd]. rewrite app_nil_r. reflexivity.
    - cbn [expected nth_error]. rewrite (IH _ _ i c r Hc Hr).
      change (firstn (S (S i)) ((step, ls) :: calls)) with ((step, ls) :: firstn (S i) calls).
      cbn [evals_of flat_map snd]. rewrite <- app_assoc. reflexivity.
  Qed.

  Lemma plateau_values scale inner calls i c r :
    nondecreasing (map fst (evals_of calls)) -> Forall (fun c => (0 <= fst c)%Z) calls ->
    nth_error calls i = Some c -> nth_error (snd (sched_run inner calls)) i = Some r ->
    nth_error (snd (sched_run (plateau mp scale inner) calls)) i =
    Some (let* v := r in Ok (scale ^ plateaus mp (evals_of (firstn (S i) calls)) * v)).
  Proof.
    intros Hnd Hpos Hc Hr. unfold plateau.
    rewrite (plateau_run scale calls inner [] _ plateau_init Hnd Hpos). now rewrite (expected_nth scale calls [] _ i c r Hc Hr).
  Qed.

  (** Passing the same evaluation again changes nothing. *)
  Lemma plateau_idempotent st e st' : plateau_update mp st (Some e) = Ok st' -> plateau_update mp st' (Some e) = Ok st'.
  Proof.
    destruct e as [step score], st as [b l p n]. cbn [plateau_update p_best p_last p_patience p_n].
    assert (Same : forall n', plateau_update mp (mkP (Some score) (Some step) 0 n') (Some (step, score)) = Ok (mkP (Some score) (Some step) 0 n')).
    { intros n'. cbn. destruct (Rlt_dec score score); [lra|]. now rewrite Z.ltb_irrefl. }
    destruct b as [best|], l as [last|]; intros E; try (injection E as <-; apply Same).
    cbn [nltb num_R] in E. destruct (Rlt_dec best score) as [|Hge]; [injection E as <-; apply Same|].
    assert (Same' : forall p' n', plateau_update mp (mkP (Some best) (Some step) p' n') (Some (step, score)) = Ok (mkP (Some best) (Some step) p' n')).
    { intros p' n'. cbn. destruct (Rlt_dec best score); [lra|]. now rewrite Z.ltb_irrefl. }
    destruct (Z.ltb step last); [discriminate|]. destruct (Z.ltb last step).
    - destruct (Nat.eqb (S p) mp); injection E as <-; apply Same'.
    - injection E as <-. apply Same'.
  Qed.
End Plateau.
