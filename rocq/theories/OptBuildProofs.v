(** Building and calling optimizers: proofs for C70. *)
From Coq Require Import Reals Lra Lia ZArith List Bool.
From Verif Require Import BaseFacts DictFacts SchedSpec SchedProofs OptBuildModel OptBuildSpec.
Import ListNotations.
Set Default Goal Selector "!".
Local Open Scope nat_scope.

Section Values.
  Context {T : Type} `{Num T} `{NumX T}.

  Lemma follows_later f n m (s : schedule T) : follows f n s -> n <= m -> follows f m s.
  Proof.
    intros (I & Hi & Hs) Hle. exists (fun m s => exists k, k <= m /\ I k s). split; [now exists n|].
    intros j s0 step ls (k & Hk & Hik) Hj. destruct (Hs k s0 step ls Hik) as (s' & E & Hi'); [lia|]. exists s'. split; [exact E|]. now exists step.
  Qed.
  Lemma follows_call f n (s : schedule T) ls : follows f n s -> exists s', sched_call s (Z.of_nat n) ls = (s', Ok (f n)) /\ follows f n s'.
  Proof. intros (I & Hi & Hs). destruct (Hs n s n ls Hi (le_n n)) as (s' & E & Hi'). exists s'. split; [exact E|]. now exists I. Qed.
  Lemma follows_stateless f (s : schedule T) : (forall step ls, sched_call s (Z.of_nat step) ls = (s, Ok (f step))) -> follows f 0 s.
  Proof. intros E. exists (fun _ s' => s' = s). split; [reflexivity|]. intros m s0 step ls -> _. exists s. split; [apply E|reflexivity]. Qed.
  Lemma follows_constant f c : (forall n, f n = c) -> follows f 0 (Constant (T := T) c).
  Proof. intros E. apply follows_stateless. intros step ls. rewrite constant_value by lia. now rewrite E. Qed.
  Lemma follows_gen f seq s : wrap_generator seq = Ok s -> (forall n, yields seq n (f n)) -> follows (T := T) f 0 s.
  Proof.
    intros Ew Hy. exists (fun m s => exists k, k <= S m /\ wgood seq s k). split; [exists 0; split; [lia|now apply wrap_good]|].
    intros m s0 step ls (k & Hk & Hg) Hm. destruct (wrap_call seq s0 k (Z.of_nat step) ls Hg) as (s' & v & E & Hg' & Hv); [lia|lia|].
    rewrite Nat2Z.id in Hg', Hv. rewrite (yields_unique _ _ _ _ (Hy step) Hv). exists s'. split; [exact E|]. now exists (S step).
  Qed.

  Lemma arg_schedule (a : arg T) f : arg_values a f -> exists s, to_schedule a = Ok s /\ follows f 0 s.
  Proof.
    destruct a as [c|l|seq|s|]; cbn [arg_values to_schedule].
    - intros E. exists (Constant c). split; [reflexivity|now apply follows_constant].
    - intros [Hl Hv]. unfold wrap_generator at 1. destruct l as [|x l]; [congruence|]. cbn [nth_error]. eexists. split; [reflexivity|].
      apply (follows_gen f (fun i => nth_error (x :: l) i)); [reflexivity|]. intros n. specialize (Hv n). exists (Nat.min n (length (x :: l) - 1)).
      assert (Hlen : 1 <= length (x :: l)) by (cbn; lia). repeat split.
      + intros i Hi. apply nth_error_Some. lia.
      + exact Hv.
      + destruct (Nat.le_gt_cases n (length (x :: l) - 1)); [left; lia|]. right. split; [lia|]. apply nth_error_None. lia.
    - intros Hv. unfold wrap_generator at 1. destruct (Hv 0) as (j & Hj & Ha & Es & _). destruct (seq 0) as [p|] eqn:E0; [|now apply (Ha 0) in E0; [|lia]].
      eexists. split; [reflexivity|]. apply (follows_gen f seq); [unfold wrap_generator; now rewrite E0|]. intros n. destruct (Hv n) as (i & Hi & H1 & H2 & H3).
      exists i. repeat split; [exact H1|exact H2|]. destruct H3 as [->|H3]; [now left|]. destruct (Nat.eq_dec i n) as [->|]; [now left|]. right. split; [lia|exact H3].
    - intros Hf. now exists s.
    - intros [].
  Qed.
  Lemma bad_schedule (a : arg T) : (bad_arg a /\ to_schedule a = Err ValueError) \/ (~ bad_arg a /\ exists s, to_schedule a = Ok s).
  Proof.
    destruct a as [c|l|seq|s|]; cbn; unfold wrap_generator.
    - right. split; [tauto|eauto].
    - destruct l as [|x l]; [now left|]. right. split; [discriminate|cbn; eauto].
    - destruct (seq 0); [right; split; [discriminate|eauto]|now left].
    - right. split; [tauto|eauto].
    - now left.
  Qed.
End Values.

Section Refine.
  Context {T K : Type} `{Num T} `{NumX T} `{EqD K}.
  Variables (F : field -> nat -> T) (radam decay : bool).
  Notation optimizer := (optimizer T K).
  Notation opt := (opt T K).
  Variable adam : list T -> list T -> list T -> list T -> T -> T -> T -> T -> list T * list T * list T * list T.

  Definition hyper_of : hyper T K :=
    mkHyper (fun n _ _ => F Flr n) (fun n _ _ => F Fb1 n) (fun n _ _ => F Fb2 n) (fun n _ _ => F Feps n) (fun n _ _ => F FL2 n) (fun n _ _ => F Fclip n) radam decay.

  Definition good (z : optimizer) (st : opt) : Prop :=
    z_opt z = st /\ z_radam z = radam /\ z_decay z = decay /\ forall f, follows (F f) (o_step st) (get_field f z).
  Definition runs {A} (m : M A) (st : opt) (v : result A) (st' : opt) : Prop :=
    forall z, good z st -> exists z', m z = (z', v) /\ good z' st'.

  Lemma runs_ret {A} (a : A) st : runs (ret a) st (Ok a) st.
  Proof. intros z Hz. now exists z. Qed.
  Lemma runs_raise {A} e st : runs (A := A) (raise e) st (Err e) st.
  Proof. intros z Hz. now exists z. Qed.
  Lemma runs_bind {A B} (m : M A) (f : A -> M B) st a st1 r st2 : runs m st (Ok a) st1 -> runs (f a) st1 r st2 -> runs (mbind m f) st r st2.
  Proof. intros Hm Hf z Hz. destruct (Hm z Hz) as (z1 & E & Hz1). destruct (Hf z1 Hz1) as (z2 & E2 & Hz2). exists z2. split; [|exact Hz2]. unfold mbind. now rewrite E. Qed.
  Lemma runs_bind_err {A B} (m : M A) (f : A -> M B) st e st1 : runs m st (Err e) st1 -> runs (mbind m f) st (Err e) st1.
  Proof. intros Hm z Hz. destruct (Hm z Hz) as (z1 & E & Hz1). exists z1. split; [|exact Hz1]. unfold mbind. now rewrite E. Qed.
  Lemma runs_get st : runs get_opt st (Ok st) st.
  Proof. intros z Hz. exists z. split; [|exact Hz]. unfold get_opt. now rewrite (proj1 Hz). Qed.
  Lemma runs_put st st' : o_step st' = o_step st -> runs (put_opt st') st (Ok tt) st'.
  Proof.
    intros Es z (E1 & E2 & E3 & E4). eexists. split; [reflexivity|]. split; [reflexivity|]. split; [exact E2|]. split; [exact E3|]. intros f. rewrite Es.
    specialize (E4 f). destruct f; exact E4.
  Qed.
  Lemma runs_query f st : runs (query f) st (Ok (F f (o_step st))) st.
  Proof.
    intros z (E1 & E2 & E3 & E4). unfold query. rewrite E1.
    destruct (follows_call _ _ _ (match o_last st with Some (n, x) => Some (Z.of_nat n, x) | None => None end) (E4 f)) as (s' & E & Hf). rewrite E.
    eexists. split; [reflexivity|]. split; [now destruct f|]. split; [now destruct f|]. split; [now destruct f|].
    intros g. specialize (E4 g). destruct f, g; try exact E4; exact Hf.
  Qed.

  Definition with_alloc (key : K) (size : nat) (st : opt) : opt :=
    with_moms st (if dmem key (o_mom1 st) then o_mom1 st else dset key (repeat (nZ 0) size) (o_mom1 st))
                 (if dmem key (o_mom2 st) then o_mom2 st else dset key (repeat (nZ 0) size) (o_mom2 st)).
  Lemma runs_alloc key size st : runs (alloc_moms key size) st (Ok tt) (with_alloc key size st).
  Proof. unfold alloc_moms. eapply runs_bind; [apply runs_get|]. now apply runs_put. Qed.

  Lemma dset_dset {V} (k : K) (v w : V) d : dset k v (dset k w d) = dset k v d.
  Proof.
    induction d as [|[k' v'] d IH]; cbn [dset].
    - now rewrite eqd_refl.
    - destruct (eqd k k') as [->|Hn]; cbn [dset]; [now rewrite eqd_refl|]. rewrite eqd_neq by exact Hn. now rewrite IH.
  Qed.
  Lemma alloc_mom (key : K) size (d : dict K (list T)) :
    mom_of (if dmem key d then d else dset key (repeat (nZ 0) size) d) key size = mom_of d key size.
  Proof. unfold mom_of, dmem. destruct (dget key d) as [m|] eqn:E; [now rewrite E|]. now rewrite dget_dset_same. Qed.
  Lemma alloc_dset (key : K) size v (d : dict K (list T)) : dset key v (if dmem key d then d else dset key (repeat (nZ 0) size) d) = dset key v d.
  Proof. destruct (dmem key d); [reflexivity|apply dset_dset]. Qed.

  Lemma radam_alloc st w g sc key nr :
    opt_radam (fixed (F Flr (o_step st)) (F Fb1 (o_step st)) (F Fb2 (o_step st)) (F Feps (o_step st))) (with_alloc key (length w) st) w g sc key nr =
    opt_radam hyper_of st w g sc key nr.
  Proof.
    unfold opt_radam. cbn [fixed hyper_of h_lr h_b1 h_b2 h_eps with_alloc with_moms o_mom1 o_mom2 o_step o_last o_buf o_avg o_nr with_buf].
    rewrite !alloc_mom, !alloc_dset. reflexivity.
  Qed.
  Lemma adam_alloc st w g sc key nr :
    opt_adam adam (fixed (F Flr (o_step st)) (F Fb1 (o_step st)) (F Fb2 (o_step st)) (F Feps (o_step st))) (with_alloc key (length w) st) w g sc key nr =
    opt_adam adam hyper_of st w g sc key nr.
  Proof.
    unfold opt_adam. cbn [fixed hyper_of h_lr h_b1 h_b2 h_eps with_alloc with_moms o_mom1 o_mom2 o_step o_last o_buf o_avg o_nr with_buf].
    rewrite !alloc_mom. destruct (adam _ _ _ _ _ _ _ _) as [[[w' g'] m1] m2]. now rewrite !alloc_dset.
  Qed.
  Lemma radam_step st w g sc key nr st' wg : opt_radam hyper_of st w g sc key nr = (st', wg) -> o_step st' = o_step st.
  Proof. unfold opt_radam. destruct (radam_lookup _ _ _ _) as [b [n s]]. intros E. apply (f_equal (fun p => o_step (fst p))) in E. cbn in E. now rewrite E. Qed.
  Lemma adam_step st w g sc key nr st' wg : opt_adam adam hyper_of st w g sc key nr = (st', wg) -> o_step st' = o_step st.
  Proof. unfold opt_adam. destruct (adam _ _ _ _ _ _ _ _) as [[[w' g'] m1] m2]. intros [= <- _]. reflexivity. Qed.

  Lemma runs_radam st w g sc key nr st' wg : opt_radam hyper_of st w g sc key nr = (st', wg) ->
    runs (call_radam w g sc key nr) st (Ok wg) st'.
  Proof.
    intros E. unfold call_radam. eapply runs_bind; [apply runs_alloc|]. do 4 (eapply runs_bind; [apply runs_query|]). eapply runs_bind; [apply runs_get|].
    cbn [o_step with_alloc with_moms]. rewrite radam_alloc, E. eapply runs_bind; [|apply runs_ret]. apply runs_put. exact (radam_step _ _ _ _ _ _ _ _ E).
  Qed.
  Lemma runs_adam st w g sc key nr st' wg : opt_adam adam hyper_of st w g sc key nr = (st', wg) ->
    runs (call_adam adam w g sc key nr) st (Ok wg) st'.
  Proof.
    intros E. unfold call_adam. eapply runs_bind; [apply runs_alloc|]. do 4 (eapply runs_bind; [apply runs_query|]). eapply runs_bind; [apply runs_get|].
    cbn [o_step with_alloc with_moms]. rewrite adam_alloc, E. eapply runs_bind; [|apply runs_ret]. apply runs_put. exact (adam_step _ _ _ _ _ _ _ _ E).
  Qed.

  Lemma call_refines st key w g sc st' r : opt_call adam hyper_of st key w g sc = (st', r) ->
    forall z, good z st -> exists z', call adam key w g sc z = (z', r) /\ good z' st'.
  Proof.
    intros E z Hz. unfold call. unfold opt_call in E. destruct (a_shape g) as [|len sh] eqn:Esh.
    { injection E as <- <-. now exists z. }
    destruct (Nat.ltb len 1). { injection E as <- <-. now exists z. }
    pose proof (proj1 (proj2 Hz)) as Z2. pose proof (proj1 (proj2 (proj2 Hz))) as Z3. rewrite Z2, Z3. clear Z2 Z3.
    revert z Hz. match goal with |- forall z, good z st -> exists z', ?m z = _ /\ _ => change (runs m st r st') end.
    cbn [hyper_of h_L2 h_clip h_lr h_b1 h_b2 h_eps h_radam h_decay] in E.
    eapply runs_bind; [apply runs_get|]. set (nr := nr_of st key + 1) in *. eapply runs_bind; [apply (runs_put st); reflexivity|].
    set (st1 := with_nr st (dset key nr (o_nr st))) in *. assert (Hs1 : o_step st1 = o_step st) by reflexivity.
    eapply runs_bind; [apply runs_query|]. set (L2 := F FL2 (o_step st1)) in *.
    eapply (runs_bind _ _ st1 (if negb (neqb L2 (nZ 0)) && negb decay then vmap2 (fun g0 w0 => nadd g0 (nmul L2 w0)) (a_data g) (a_data w) else a_data g) st1).
    { destruct (negb (neqb L2 (nZ 0)) && negb decay); [|apply runs_ret]. eapply runs_bind; [apply runs_query|]. apply runs_ret. }
    set (g1 := if negb (neqb L2 (nZ 0)) && negb decay then _ else _) in *.
    eapply runs_bind; [apply runs_query|]. set (clip := F Fclip (o_step st1)) in *.
    eapply (runs_bind _ _ st1 (if negb (neqb clip (nZ 0)) then clip_gradient g1 clip else g1) st1).
    { destruct (negb (neqb clip (nZ 0))); [|apply runs_ret]. eapply runs_bind; [apply runs_query|]. apply runs_ret. }
    set (g2 := if negb (neqb clip (nZ 0)) then _ else _) in *.
    destruct (if radam then Ok (opt_radam hyper_of st1 (a_data w) g2 sc key nr) else _) as [[st2 [w2 g3]]|e] eqn:Eu.
    - eapply (runs_bind _ _ st1 (w2, g3) st2).
      { destruct radam; [apply runs_radam; congruence|]. eapply runs_bind; [apply runs_query|].
        destruct (nltb (nZ 0) (F Fb1 (o_step st1))) eqn:E1; cbn [andb] in Eu.
        - eapply runs_bind; [eapply runs_bind; [apply runs_query|apply runs_ret]|]. destruct (nltb (nZ 0) (F Fb2 (o_step st1))) eqn:E2.
          + apply runs_adam. congruence.
          + eapply runs_bind; [apply runs_query|]. rewrite E2. injection Eu as <- <- <-. eapply runs_bind; [apply runs_query|]. apply runs_ret.
        - eapply runs_bind; [apply runs_ret|]. cbn iota. eapply runs_bind; [apply runs_query|]. destruct (nltb (nZ 0) (F Fb2 (o_step st1))); [discriminate Eu|].
          injection Eu as <- <- <-. eapply runs_bind; [apply runs_query|]. apply runs_ret. }
      assert (Hs2 : o_step st2 = o_step st1).
      { destruct radam; [apply (radam_step st1 (a_data w) g2 sc key nr st2 (w2, g3)); congruence|].
        destruct (nltb (nZ 0) (F Fb1 (o_step st1)) && nltb (nZ 0) (F Fb2 (o_step st1))); [apply (adam_step st1 (a_data w) g2 sc key nr st2 (w2, g3)); congruence|].
        destruct (nltb (nZ 0) (F Fb2 (o_step st1))); [discriminate Eu|]. now injection Eu as <- _ _. }
      eapply runs_bind; [apply runs_query|]. rewrite Hs2. fold L2.
      eapply (runs_bind _ _ st2 (if negb (neqb L2 (nZ 0)) && decay then map (fun x => nsub x (nmul (nmul (nmul sc (F Flr (o_step st1))) L2) x)) w2 else w2) st2).
      { destruct (negb (neqb L2 (nZ 0)) && decay); [|apply runs_ret]. eapply runs_bind; [apply runs_query|]. eapply runs_bind; [apply runs_query|]. rewrite Hs2. apply runs_ret. }
      eapply runs_bind; [apply runs_get|]. injection E as <- <-. eapply runs_bind; [|apply runs_ret]. apply runs_put. destruct (o_avg st2); reflexivity.
    - injection E as <- <-. eapply runs_bind_err. destruct radam; [discriminate Eu|]. eapply runs_bind; [apply runs_query|].
      destruct (nltb (nZ 0) (F Fb1 (o_step st1))) eqn:E1; cbn [andb] in Eu.
      + eapply runs_bind; [eapply runs_bind; [apply runs_query|apply runs_ret]|]. destruct (nltb (nZ 0) (F Fb2 (o_step st1))) eqn:E2; discriminate Eu.
      + eapply runs_bind; [apply runs_ret|]. cbn iota. eapply runs_bind; [apply runs_query|]. destruct (nltb (nZ 0) (F Fb2 (o_step st1))); [|discriminate Eu].
        injection Eu as <-. apply runs_raise.
  Qed.

  Lemma event_refines st e st' out : run_event adam hyper_of st e = (st', out) ->
    forall z, good z st -> exists z', handle adam z e = (z', out) /\ good z' st'.
  Proof.
    intros E z Hz. destruct e as [k w g s| |s]; cbn [run_event handle] in *.
    - destruct (opt_call adam hyper_of st k w g s) as [st1 r] eqn:Ec. injection E as <- <-.
      destruct (call_refines _ _ _ _ _ _ _ Ec z Hz) as (z' & -> & Hz'). now exists z'.
    - injection E as <- <-. eexists. split; [reflexivity|]. destruct Hz as (Z1 & Z2 & Z3 & Z4). split; [cbn; now rewrite Z1|]. split; [exact Z2|]. split; [exact Z3|].
      intros f. apply (follows_later _ (o_step st)); [|cbn; lia]. specialize (Z4 f). destruct f; exact Z4.
    - injection E as <- <-. eexists. split; [reflexivity|]. destruct Hz as (Z1 & Z2 & Z3 & Z4). split; [cbn; now rewrite Z1|]. split; [exact Z2|]. split; [exact Z3|].
      intros f. specialize (Z4 f). destruct f; exact Z4.
  Qed.
  Lemma events_refine es : forall st st' out, run_events adam hyper_of st es = (st', out) ->
    forall z, good z st -> exists z', handle_all adam z es = (z', out) /\ good z' st'.
  Proof.
    induction es as [|e es IH]; intros st st' out E z Hz; cbn [run_events handle_all] in *.
    - injection E as <- <-. now exists z.
    - destruct (run_event adam hyper_of st e) as [st1 o1] eqn:E1. destruct (run_events adam hyper_of st1 es) as [st2 o2] eqn:E2. injection E as <- <-.
      destruct (event_refines _ _ _ _ E1 z Hz) as (z1 & -> & Hz1). destruct (IH _ _ _ E2 z1 Hz1) as (z2 & -> & Hz2). now exists z2.
  Qed.
End Refine.

Section Top.
  Context {T K : Type} `{Num T} `{NumX T} `{EqD K}.
  Lemma optimizer_refines lr L2 b1 b2 eps clip flr fL2 fb1 fb2 feps fclip avg radam decay :
    arg_values lr flr -> arg_values L2 fL2 -> arg_values b1 fb1 -> arg_values b2 fb2 -> arg_values eps feps -> arg_values clip fclip ->
    acts_as (Optimizer (K := K) lr L2 b1 b2 eps clip avg radam decay) (of_step flr fb1 fb2 feps fL2 fclip radam decay) avg.
  Proof.
    intros A1 A2 A3 A4 A5 A6. apply arg_schedule in A1 as (s1 & E1 & G1). apply arg_schedule in A2 as (s2 & E2 & G2). apply arg_schedule in A3 as (s3 & E3 & G3).
    apply arg_schedule in A4 as (s4 & E4 & G4). apply arg_schedule in A5 as (s5 & E5 & G5). apply arg_schedule in A6 as (s6 & E6 & G6).
    unfold Optimizer. rewrite E1, E2, E3, E4, E5, E6. cbn [bind]. eexists. split; [reflexivity|]. intros adam es.
    set (F := fun f => match f with Fclip => fclip | Flr => flr | Fb1 => fb1 | Fb2 => fb2 | Feps => feps | FL2 => fL2 end).
    destruct (run_events adam (hyper_of F radam decay) (opt_init avg) es) as [st' out] eqn:Er.
    match goal with |- context [handle_all adam ?z es] => destruct (events_refine F radam decay adam es _ _ _ Er z) as (z' & -> & Hz') end.
    { split; [reflexivity|]. split; [reflexivity|]. split; [reflexivity|]. intros f. destruct f; assumption. }
    destruct Hz' as (-> & _). exact Er.
  Qed.

  Lemma optimizer_errors (lr L2 b1 b2 eps clip : arg T) avg radam decay :
    match Optimizer (K := K) lr L2 b1 b2 eps clip avg radam decay with
    | Ok _ => ~ bad_arg lr /\ ~ bad_arg L2 /\ ~ bad_arg b1 /\ ~ bad_arg b2 /\ ~ bad_arg eps /\ ~ bad_arg clip
    | Err e => e = ValueError /\ (bad_arg lr \/ bad_arg L2 \/ bad_arg b1 \/ bad_arg b2 \/ bad_arg eps \/ bad_arg clip)
    end.
  Proof.
    unfold Optimizer. destruct (bad_schedule clip) as [[B ->]|[B6 (s6 & ->)]]; [cbn; tauto|]. cbn [bind].
    destruct (bad_schedule lr) as [[B ->]|[B1 (s1 & ->)]]; [cbn; tauto|]. cbn [bind].
    destruct (bad_schedule b1) as [[B ->]|[B2 (s2 & ->)]]; [cbn; tauto|]. cbn [bind].
    destruct (bad_schedule b2) as [[B ->]|[B3 (s3 & ->)]]; [cbn; tauto|]. cbn [bind].
    destruct (bad_schedule eps) as [[B ->]|[B4 (s4 & ->)]]; [cbn; tauto|]. cbn [bind].
    destruct (bad_schedule L2) as [[B ->]|[B5 (s5 & ->)]]; [cbn; tauto|]. cbn [bind]. tauto.
  Qed.

  Lemma kw_arg (o : option (arg T)) d f : kw_values o d f -> arg_values (kw o d) f.
  Proof. now destruct o. Qed.
  Lemma adam_acts (k : kwargs T) flr fL2 fb1 fb2 feps fclip :
    kw_values (w_lr k) (nZ 1 / nZ 1000)%num flr -> kw_values (w_L2 k) (nZ 0) fL2 -> kw_values (w_beta1 k) (nZ 9 / nZ 10)%num fb1 ->
    kw_values (w_beta2 k) (nZ 999 / nZ 1000)%num fb2 -> kw_values (w_eps k) (nZ 1 / nZ 100000000)%num feps -> kw_values (w_clip k) (nZ 1) fclip ->
    let decay := match w_decay k with Some b => b | None => true end in
    let avg := match w_averages k with Some b => b | None => true end in
    acts_as (Adam (K := K) k) (of_step flr fb1 fb2 feps fL2 fclip false decay) avg /\
    acts_as (RAdam (K := K) k) (of_step flr fb1 fb2 feps fL2 fclip true decay) avg.
  Proof. intros A1 A2 A3 A4 A5 A6. split; apply optimizer_refines; now apply kw_arg. Qed.
  Lemma sgd_acts (k : kwargs T) lr flr fL2 fclip :
    w_lr k = Some lr -> w_beta1 k = None -> w_beta2 k = None -> w_eps k = None ->
    arg_values lr flr -> kw_values (w_L2 k) (nZ 0) fL2 -> kw_values (w_clip k) (nZ 1) fclip ->
    let decay := match w_decay k with Some b => b | None => true end in
    let avg := match w_averages k with Some b => b | None => true end in
    acts_as (SGD (K := K) k) (of_step flr (fun _ => nZ 0) (fun _ => nZ 0) (fun _ => nZ 1 / nZ 100000000)%num fL2 fclip false decay) avg.
  Proof.
    intros E1 E2 E3 E4 A1 A2 A3. unfold SGD. rewrite E1, E2, E3, E4. apply optimizer_refines; try (now apply kw_arg); try exact A1; cbn; reflexivity.
  Qed.
  Lemma sgd_type_error (k : kwargs T) :
    w_lr k = None \/ w_beta1 k <> None \/ w_beta2 k <> None \/ w_eps k <> None -> SGD (K := K) k = Err TypeError.
  Proof. unfold SGD. destruct (w_lr k), (w_beta1 k), (w_beta2 k), (w_eps k); try reflexivity. intros [E|[E|[E|E]]]; congruence. Qed.

  Lemma then_follows f rate steps (s : schedule T) :
    follows f 0 s -> follows (fun n => if Z.ltb (Z.of_nat n) steps then rate else f n) 0 (ConstantThen rate steps s).
  Proof.
    intros (I & Hi & Hs). exists (fun m s' => exists j s0, j <= m /\ s' = ConstantThen rate steps s0 /\ I j s0).
    split; [exists 0, s; now split|]. intros m s' step ls (j & s0 & Hj & -> & Hi') Hm. cbn [sched_call].
    destruct (Z.ltb_spec (Z.of_nat step) 0); [lia|]. destruct (Z.ltb (Z.of_nat step) steps).
    - eexists. split; [reflexivity|]. exists j, s0. split; [lia|now split].
    - destruct (Hs j s0 step ls Hi') as (s2 & -> & Hi2); [lia|]. eexists. split; [reflexivity|]. exists step, s2. now split.
  Qed.
End Top.

(** SGD over the reals. *)
Lemma sgd_never_raises (K : Type) (EK : EqD K) adam (hp : hyper R K) es : forall st,
  h_radam hp = false -> (forall n k l, (h_b2 hp n k l <= 0)%R) ->
  (forall k w g s, In (ECall k w g s) es -> a_shape g <> []) ->
  forall k r, In (k, r) (snd (run_events adam hp st es)) -> exists wg, r = Ok wg.
Proof.
  induction es as [|e es IH]; intros st Hr Hb Hs k r Hin; [destruct Hin|].
  cbn [run_events] in Hin. destruct (run_event adam hp st e) as [st1 o1] eqn:E1. destruct (run_events adam hp st1 es) as [st2 o2] eqn:E2.
  cbn [snd] in Hin. apply in_app_or in Hin as [Hin|Hin].
  - destruct e as [k0 w g s| |s]; cbn [run_event] in E1; [|injection E1 as <- <-; destruct Hin|injection E1 as <- <-; destruct Hin].
    destruct (opt_call adam hp st k0 w g s) as [st' r'] eqn:Ec. injection E1 as <- <-. destruct Hin as [[= <- <-]|[]].
    specialize (Hs k0 w g s (or_introl eq_refl)). unfold opt_call in Ec. destruct (a_shape g) as [|len sh]; [congruence|].
    destruct (Nat.ltb len 1); [injection Ec as <- <-; eauto|]. rewrite Hr in Ec.
    match type of Ec with context [nltb (nZ 0) (h_b2 hp ?a ?b ?c)] => assert (Eb : nltb (nZ 0) (h_b2 hp a b c) = false) by
      (generalize (Hb a b c); generalize (h_b2 hp a b c); intros y Hy; cbn; destruct (Rlt_dec 0 y) as [Hl|]; [lra|reflexivity]) end.
    rewrite Eb, andb_false_r in Ec. injection Ec as <- <-. eauto.
  - apply (IH st1 Hr Hb) with (k := k); [|now rewrite E2]. intros k1 w g s Hi. apply (Hs k1 w g s). now right.
Qed.

Lemma sgd_total (K : Type) (EK : EqD K) (k : kwargs R) lr flr fL2 fclip :
  w_lr k = Some lr -> w_beta1 k = None -> w_beta2 k = None -> w_eps k = None ->
  arg_values lr flr -> kw_values (w_L2 k) 0%R fL2 -> kw_values (w_clip k) 1%R fclip ->
  exists z : optimizer R K, SGD k = Ok z /\
    forall adam es, (forall key w g s, In (ECall key w g s) es -> a_shape g <> []) ->
      forall key r, In (key, r) (snd (handle_all adam z es)) -> exists wg, r = Ok wg.
Proof.
  intros E1 E2 E3 E4 A1 A2 A3. pose proof (sgd_acts (K := K) k lr flr fL2 fclip E1 E2 E3 E4 A1 A2 A3) as (z & Ez & Hz). exists z. split; [exact Ez|].
  intros adam es Hs key r Hin. specialize (Hz adam es). destruct (handle_all adam z es) as [z' out].
  match type of Hz with run_events adam ?hp ?st es = _ => apply (sgd_never_raises K EK adam hp es st eq_refl) with (k := key) end; [|exact Hs|rewrite Hz; exact Hin].
  intros; cbn; lra.
Qed.
