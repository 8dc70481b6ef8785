From Verif Require Import BaseFacts DictFacts OptSpec.
Set Default Goal Selector "!".

Section P.
  Context {T K : Type} `{Num T} `{EqD K}.
  Notation opt := (opt T K).
  Notation hyper := (hyper T K).
  Notation event := (event T K).
  Implicit Types (st s t : opt) (hp : hyper) (k : K).

  Definition buf_ok (b1 b2 : T) (buf : list (option (nat * T * T))) : Prop :=
    forall i (c : nat) n z, nth_error buf i = Some (Some (c, n, z)) -> (n, z) = radam_values b1 b2 c.

  Lemma buf_ok_init b1 b2 : buf_ok b1 b2 (repeat None 10).
  Proof.
    intros i s n z Hi. apply nth_error_In in Hi. apply repeat_spec in Hi. discriminate.
  Qed.

  Lemma lookup_value b1 b2 buf step : buf_ok b1 b2 buf ->
    snd (radam_lookup buf b1 b2 step) = radam_values b1 b2 step /\ buf_ok b1 b2 (fst (radam_lookup buf b1 b2 step)).
  Proof.
    intros Hok.
    assert (Fresh : forall n z, radam_values b1 b2 step = (n, z) ->
              buf_ok b1 b2 (set_nth (step mod 10) (Some (step, n, z)) buf)).
    { intros n z Hv i s n' z' Hi. destruct (Nat.eq_dec i (step mod 10)) as [->|Hne].
      - destruct (nth_error buf (step mod 10)) as [x|] eqn:Ex.
        + rewrite nth_error_set_nth_eq in Hi.
          * injection Hi as <- <- <-. now rewrite Hv.
          * apply nth_error_Some. congruence.
        + exfalso. apply nth_error_None in Ex.
          assert (Hlen : length (set_nth (step mod 10) (Some (step, n, z)) buf) = length buf) by apply set_nth_length.
          assert (Hs : nth_error (set_nth (step mod 10) (Some (step, n, z)) buf) (step mod 10) <> None) by congruence.
          apply nth_error_Some in Hs. rewrite Hlen in Hs. lia.
      - rewrite nth_error_set_nth_neq in Hi by congruence. exact (Hok i s n' z' Hi). }
    unfold radam_lookup. destruct (radam_values b1 b2 step) as [n z] eqn:Ev.
    destruct (nth_error buf (step mod 10)) as [[[[s0 n0] z0]|]|] eqn:Eb.
    - destruct (Nat.eqb_spec step s0) as [->|Hne].
      + cbn [fst snd]. split; [|exact Hok]. rewrite (Hok _ _ _ _ Eb). exact Ev.
      + cbn [fst snd]. split; [reflexivity | now apply Fresh].
    - cbn [fst snd]. split; [reflexivity | now apply Fresh].
    - cbn [fst snd]. split; [reflexivity | now apply Fresh].
  Qed.

  Variable adam : list T -> list T -> list T -> list T -> T -> T -> T -> T -> list T * list T * list T * list T.

  Definition clock (s t : opt) : Prop := o_step s = o_step t /\ o_last s = o_last t.
  Definition betas_ok hp b1 b2 st : Prop :=
    h_radam hp = true -> fixed (h_b1 hp) b1 /\ fixed (h_b2 hp) b2 /\ buf_ok b1 b2 (o_buf st).

  Lemma same_set1 k s t m1 m2 : same_key k s t ->
    same_key k (with_moms s (dset k m1 (o_mom1 s)) (dset k m2 (o_mom2 s)))
               (with_moms t (dset k m1 (o_mom1 t)) (dset k m2 (o_mom2 t))).
  Proof.
    intros (Hn & H1 & H2 & Ha). unfold same_key. cbn [with_moms o_mom1 o_mom2 o_avg o_nr].
    rewrite !dget_dset_same. auto.
  Qed.

  Lemma adam_same hp s t k w g sc nr : clock s t -> same_key k s t ->
    let p := opt_adam adam hp s w g sc k nr in
    let q := opt_adam adam hp t w g sc k nr in
    snd p = snd q /\ clock (fst p) (fst q) /\ same_key k (fst p) (fst q).
  Proof.
    intros [C1 C2] Hs. cbv zeta. unfold opt_adam.
    assert (M1 : mom_of (o_mom1 s) k (length w) = mom_of (o_mom1 t) k (length w)).
    { unfold mom_of. now rewrite (proj1 (proj2 Hs)). }
    assert (M2 : mom_of (o_mom2 s) k (length w) = mom_of (o_mom2 t) k (length w)).
    { unfold mom_of. now rewrite (proj1 (proj2 (proj2 Hs))). }
    rewrite M1, M2, C1, C2.
    destruct (adam _ _ _ _ _ _ _ _) as [[[w' g'] m1] m2]. cbn [fst snd].
    split; [reflexivity|]. split; [split; [exact C1 | exact C2]|]. now apply same_set1.
  Qed.

  Lemma radam_same hp b1 b2 s t k w g sc nr : clock s t -> same_key k s t ->
    fixed (h_b1 hp) b1 -> fixed (h_b2 hp) b2 -> buf_ok b1 b2 (o_buf s) -> buf_ok b1 b2 (o_buf t) ->
    let p := opt_radam hp s w g sc k nr in
    let q := opt_radam hp t w g sc k nr in
    snd p = snd q /\ clock (fst p) (fst q) /\ same_key k (fst p) (fst q).
  Proof.
    intros [C1 C2] Hs F1 F2 Bs Bt. cbv zeta. unfold opt_radam.
    assert (M1 : mom_of (o_mom1 s) k (length w) = mom_of (o_mom1 t) k (length w)).
    { unfold mom_of. now rewrite (proj1 (proj2 Hs)). }
    assert (M2 : mom_of (o_mom2 s) k (length w) = mom_of (o_mom2 t) k (length w)).
    { unfold mom_of. now rewrite (proj1 (proj2 (proj2 Hs))). }
    assert (N : nr_of s k = nr_of t k).
    { unfold nr_of. now rewrite (proj1 Hs). }
    rewrite M1, M2, C1, C2, N, F1, F2.
    destruct (lookup_value b1 b2 (o_buf s) (nr_of t k + 1) Bs) as [L1 _].
    destruct (lookup_value b1 b2 (o_buf t) (nr_of t k + 1) Bt) as [L2 _].
    destruct (radam_lookup (o_buf s) b1 b2 (nr_of t k + 1)) as [ba va].
    destruct (radam_lookup (o_buf t) b1 b2 (nr_of t k + 1)) as [bb vb].
    cbn [snd] in L1, L2. subst va vb. destruct (radam_values b1 b2 (nr_of t k + 1)) as [n z].
    cbn [fst snd]. split; [reflexivity|]. split; [split; [exact C1 | exact C2]|].
    destruct Hs as (Hn & H1 & H2 & Ha). unfold same_key. cbn [with_buf with_moms o_mom1 o_mom2 o_avg o_nr].
    rewrite !dget_dset_same. auto.
  Qed.

  (** The update part of a call, on the state whose count was already increased. *)
  Definition update_of hp (st : opt) k (w g : list T) (sc : T) (nr : nat) : result (opt * (list T * list T)) :=
    if h_radam hp then Ok (opt_radam hp st w g sc k nr)
    else if ((nZ 0 <? h_b1 hp (o_step st) k (o_last st)) && (nZ 0 <? h_b2 hp (o_step st) k (o_last st)))%num
    then Ok (opt_adam adam hp st w g sc k nr)
    else if (nZ 0 <? h_b2 hp (o_step st) k (o_last st))%num then Err NotImplementedError
    else Ok (st, (vmap2 (fun w g => (w - sc * h_lr hp (o_step st) k (o_last st) * g)%num) w g, g)).

  Definition average_of (st : opt) k (w : list T) (nr : nat) : opt :=
    match o_avg st with
    | None => st
    | Some avg =>
      let ema := match dget k avg with Some e => e | None => repeat (nZ 0) (length w) end in
      with_avg st (Some (dset k (update_averages ema w nr) avg))
    end.

  Lemma opt_call_eq hp st k w g sc :
    opt_call adam hp st k w g sc =
    match a_shape g with
    | [] => (st, Err TypeError)
    | len :: _ =>
      if (len <? 1)%nat then (st, Ok (w, g))
      else
        let nr := (nr_of st k + 1)%nat in
        let st1 := with_nr st (dset k nr (o_nr st)) in
        match update_of hp st1 k (a_data w) (eff_grad hp st k (a_data w) (a_data g)) sc nr with
        | Err e => (st1, Err e)
        | Ok (st2, (w', g')) =>
          let L2 := h_L2 hp (o_step st) k (o_last st) in
          let w'' := if (negb (L2 =? nZ 0)%num && h_decay hp)%bool
                     then map (fun x => (x - sc * h_lr hp (o_step st) k (o_last st) * L2 * x)%num) w' else w' in
          (average_of st2 k w'' nr, Ok (mkArr (a_shape w) w'', mkArr (a_shape g) (map (fun x => (x * nZ 0)%num) g')))
        end
    end.
  Proof.
    unfold opt_call, update_of, average_of, eff_grad. destruct (a_shape g) as [|len shp]; [reflexivity|].
    destruct (len <? 1)%nat; [reflexivity|]. cbn [with_nr o_step o_last].
    destruct (h_decay hp), (h_L2 hp (o_step st) k (o_last st) =? nZ 0)%num,
      (h_clip hp (o_step st) k (o_last st) =? nZ 0)%num; reflexivity.
  Qed.

  Lemma update_same hp b1 b2 s t k w g sc nr :
    clock s t -> same_key k s t -> betas_ok hp b1 b2 s -> betas_ok hp b1 b2 t ->
    match update_of hp s k w g sc nr, update_of hp t k w g sc nr with
    | Ok p, Ok q => snd p = snd q /\ clock (fst p) (fst q) /\ same_key k (fst p) (fst q)
    | Err e, Err e' => e = e'
    | _, _ => False
    end.
  Proof.
    intros Hc Hs Bs Bt. unfold update_of. destruct (h_radam hp) eqn:Er.
    - destruct (Bs Er) as (F1 & F2 & Ks). destruct (Bt Er) as (_ & _ & Kt).
      exact (radam_same hp b1 b2 s t k w g sc nr Hc Hs F1 F2 Ks Kt).
    - destruct Hc as [C1 C2]. rewrite C1, C2.
      destruct (_ && _)%bool.
      + exact (adam_same hp s t k w g sc nr (conj C1 C2) Hs).
      + destruct (_ <? _)%num; [reflexivity|]. cbn [fst snd]. repeat split; try assumption; apply Hs.
  Qed.

  Lemma average_same s t k w nr : clock s t -> same_key k s t ->
    clock (average_of s k w nr) (average_of t k w nr) /\ same_key k (average_of s k w nr) (average_of t k w nr).
  Proof.
    intros [C1 C2] (Hn & H1 & H2 & Ha). unfold average_of.
    destruct (o_avg s) as [sa|] eqn:Es, (o_avg t) as [ta|] eqn:Et; cbn [option_map] in Ha; try discriminate Ha.
    - injection Ha as Ha. rewrite Ha. split; [split; assumption|].
      unfold same_key. cbn [with_avg o_mom1 o_mom2 o_avg o_nr option_map]. rewrite !dget_dset_same. auto.
    - split; [split; assumption|]. unfold same_key. rewrite Es, Et. auto.
  Qed.

  (** A call for key k gives the same result and key state from states that agree on k. *)
  Lemma call_same hp b1 b2 s t k w g sc :
    clock s t -> same_key k s t -> betas_ok hp b1 b2 s -> betas_ok hp b1 b2 t ->
    let p := opt_call adam hp s k w g sc in
    let q := opt_call adam hp t k w g sc in
    snd p = snd q /\ clock (fst p) (fst q) /\ same_key k (fst p) (fst q).
  Proof.
    intros Hc Hs Bs Bt. cbv zeta. rewrite !opt_call_eq.
    destruct (a_shape g) as [|len shp]; [cbn [fst snd]; auto|].
    destruct (len <? 1)%nat; [cbn [fst snd]; auto|]. cbv zeta.
    assert (N : nr_of s k = nr_of t k).
    { unfold nr_of. now rewrite (proj1 Hs). }
    assert (G : eff_grad hp s k (a_data w) (a_data g) = eff_grad hp t k (a_data w) (a_data g)).
    { unfold eff_grad. now rewrite (proj1 Hc), (proj2 Hc). }
    rewrite N, G. set (nr := (nr_of t k + 1)%nat).
    assert (Hs' : same_key k (with_nr s (dset k nr (o_nr s))) (with_nr t (dset k nr (o_nr t)))).
    { destruct Hs as (Hn & H1 & H2 & Ha). unfold same_key. cbn [with_nr o_mom1 o_mom2 o_avg o_nr].
      rewrite !dget_dset_same. auto. }
    pose proof (update_same hp b1 b2 _ _ k (a_data w) (eff_grad hp t k (a_data w) (a_data g)) sc nr
                  (Hc : clock (with_nr s (dset k nr (o_nr s))) (with_nr t (dset k nr (o_nr t)))) Hs' Bs Bt) as U.
    destruct (update_of hp (with_nr s _) _ _ _ _ _) as [[s2 [ws gs]]|e],
             (update_of hp (with_nr t _) _ _ _ _ _) as [[t2 [wt gt]]|e']; try contradiction.
    - cbn [fst snd] in U. destruct U as (E & Hc2 & Hs2). injection E as -> ->.
      destruct Hc as [C1 C2]. rewrite C1, C2. cbn [fst snd].
      split; [reflexivity|]. now apply average_same.
    - subst e'. cbn [fst snd]. auto.
  Qed.

  (** A call for another key leaves everything held for k alone. *)
  Lemma update_other hp s j k w g sc nr p : j <> k -> update_of hp s j w g sc nr = Ok p -> clock s (fst p) /\ same_key k s (fst p).
  Proof.
    intros Hne. assert (Hne' : k <> j) by congruence. unfold update_of. destruct (h_radam hp).
    - intros E. injection E as <-. unfold opt_radam. destruct (radam_lookup _ _ _ _) as [b [n z]]. cbn [fst].
      split; [split; reflexivity|]. unfold same_key. cbn [with_buf with_moms o_mom1 o_mom2 o_avg o_nr].
      now rewrite !dget_dset_other by assumption.
    - destruct (_ && _)%bool.
      + intros E. injection E as <-. unfold opt_adam. destruct (adam _ _ _ _ _ _ _ _) as [[[w' g'] m1] m2]. cbn [fst].
        split; [split; reflexivity|]. unfold same_key. cbn [with_moms o_mom1 o_mom2 o_avg o_nr].
        now rewrite !dget_dset_other by assumption.
      + destruct (_ <? _)%num; [discriminate|]. intros E. injection E as <-. cbn [fst]. repeat split; reflexivity.
  Qed.

  Lemma call_other hp s j k w g sc : j <> k ->
    clock s (fst (opt_call adam hp s j w g sc)) /\ same_key k s (fst (opt_call adam hp s j w g sc)).
  Proof.
    intros Hne. assert (Hne' : k <> j) by congruence. rewrite opt_call_eq.
    assert (Refl : clock s s /\ same_key k s s) by (repeat split; reflexivity).
    destruct (a_shape g) as [|len shp]; [exact Refl|]. destruct (len <? 1)%nat; [exact Refl|]. cbv zeta.
    set (nr := (nr_of s j + 1)%nat). set (s1 := with_nr s (dset j nr (o_nr s))).
    assert (R1 : clock s s1 /\ same_key k s s1).
    { split; [split; reflexivity|]. unfold same_key, s1. cbn [with_nr o_mom1 o_mom2 o_avg o_nr].
      now rewrite !dget_dset_other by assumption. }
    destruct (update_of hp s1 _ _ _ _ _) as [[s2 [ws gs]]|e] eqn:U; [|exact R1].
    destruct (update_other hp s1 j k _ _ _ _ _ Hne U) as [[C1 C2] (Hn & H1 & H2 & Ha)]. cbn [fst] in *.
    destruct R1 as [[D1 D2] (Kn & K1 & K2 & Ka)]. cbv zeta. cbn [fst].
    unfold average_of. destruct (o_avg s2) as [a|] eqn:Ea.
    - split; [split; cbn; congruence|]. unfold same_key. cbn [with_avg o_mom1 o_mom2 o_avg o_nr option_map].
      rewrite dget_dset_other by assumption. repeat split; [congruence|congruence|congruence|].
      rewrite Ka, Ha. reflexivity.
    - split; [split; congruence|]. unfold same_key. repeat split; [congruence|congruence|congruence|].
      rewrite Ka, Ha, Ea. reflexivity.
  Qed.

  Lemma average_buf s k w nr : o_buf (average_of s k w nr) = o_buf s.
  Proof. unfold average_of. destruct (o_avg s); reflexivity. Qed.

  Lemma call_betas hp b1 b2 s k w g sc : betas_ok hp b1 b2 s -> betas_ok hp b1 b2 (fst (opt_call adam hp s k w g sc)).
  Proof.
    intros B Er. destruct (B Er) as (F1 & F2 & Kb). split; [exact F1|]. split; [exact F2|].
    rewrite opt_call_eq. destruct (a_shape g) as [|len shp]; [exact Kb|]. destruct (len <? 1)%nat; [exact Kb|].
    cbv zeta. set (s1 := with_nr s _). unfold update_of. rewrite Er. unfold opt_radam.
    rewrite F1, F2. pose proof (proj2 (lookup_value b1 b2 (o_buf s1) (nr_of s1 k + 1) Kb)) as L.
    destruct (radam_lookup (o_buf s1) b1 b2 (nr_of s1 k + 1)) as [b [n z]]. cbn [fst] in *.
    rewrite average_buf. exact L.
  Qed.

  Lemma same_key_trans k s t u : same_key k s t -> same_key k t u -> same_key k s u.
  Proof. unfold same_key. intros (A & B & C & D) (E & F & G & I). repeat split; congruence. Qed.
  Lemma same_key_sym k s t : same_key k s t -> same_key k t s.
  Proof. unfold same_key. intros (A & B & C & D). repeat split; congruence. Qed.

  Lemma run_same hp b1 b2 k es : forall s t,
    clock s t -> same_key k s t -> betas_ok hp b1 b2 s -> betas_ok hp b1 b2 t ->
    let p := run_events adam hp s es in
    let q := run_events adam hp t (filter (concerns k) es) in
    filter (out_of k) (snd p) = snd q /\ clock (fst p) (fst q) /\ same_key k (fst p) (fst q).
  Proof.
    induction es as [|e es IH]; intros s t Hc Hs Bs Bt; cbv zeta.
    - cbn [filter run_events fst snd]. auto.
    - cbn [filter]. destruct (concerns k e) eqn:Ek.
      + cbn [run_events]. destruct e as [j w g sc| |x]; cbn [concerns] in Ek.
        * unfold eqk in Ek. destruct (eqd j k) as [->|_]; [|discriminate]. cbn [run_event].
          destruct (call_same hp b1 b2 s t k w g sc Hc Hs Bs Bt) as (E & Hc1 & Hs1).
          pose proof (call_betas hp b1 b2 s k w g sc Bs) as Bs1. pose proof (call_betas hp b1 b2 t k w g sc Bt) as Bt1.
          destruct (opt_call adam hp s k w g sc) as [s1 r], (opt_call adam hp t k w g sc) as [t1 r'].
          cbn [fst snd] in *. subst r'.
          specialize (IH s1 t1 Hc1 Hs1 Bs1 Bt1). cbv zeta in IH.
          destruct (run_events adam hp s1 es) as [s2 o], (run_events adam hp t1 (filter _ es)) as [t2 o'].
          cbn [fst snd] in *. cbn [app filter]. unfold out_of at 1. cbn [fst]. unfold eqk.
          destruct (eqd k k) as [_|N]; [|congruence]. destruct IH as (IH1 & IH2). now rewrite IH1.
        * cbn [run_event]. specialize (IH (step_schedules s) (step_schedules t)). cbv zeta in IH.
          destruct (run_events adam hp (step_schedules s) es), (run_events adam hp (step_schedules t) (filter _ es)).
          cbn [fst snd app] in *. apply IH; try assumption.
          split; cbn; [now rewrite (proj1 Hc) | apply Hc].
        * cbn [run_event]. specialize (IH (set_last_score s x) (set_last_score t x)). cbv zeta in IH.
          destruct (run_events adam hp (set_last_score s x) es), (run_events adam hp (set_last_score t x) (filter _ es)).
          cbn [fst snd app] in *. apply IH; try assumption.
          split; cbn; [apply Hc | now rewrite (proj1 Hc)].
      + destruct e as [j w g sc| |x]; cbn [concerns] in Ek; [|discriminate|discriminate].
        unfold eqk in Ek. destruct (eqd j k) as [->|Hne]; [discriminate|].
        cbn [run_events run_event].
        destruct (call_other hp s j k w g sc Hne) as [Hc1 Hs1].
        pose proof (call_betas hp b1 b2 s j w g sc Bs) as Bs1.
        destruct (opt_call adam hp s j w g sc) as [s1 r]. cbn [fst] in *.
        assert (Hc' : clock s1 t) by (split; [rewrite <- (proj1 Hc1) | rewrite <- (proj2 Hc1)]; apply Hc).
        specialize (IH s1 t Hc' (same_key_trans k s1 s t (same_key_sym _ _ _ Hs1) Hs) Bs1 Bt). cbv zeta in IH.
        destruct (run_events adam hp s1 es) as [s2 o]. cbn [fst snd app filter] in *.
        unfold out_of at 1. cbn [fst]. unfold eqk. destruct (eqd j k) as [E|_]; [congruence|]. exact IH.
  Qed.

  Lemma per_key hp (avg : bool) k es :
    (h_radam hp = true -> exists b1 b2, fixed (h_b1 hp) b1 /\ fixed (h_b2 hp) b2) ->
    let p := run_events adam hp (opt_init avg) es in
    let q := run_events adam hp (opt_init avg) (filter (concerns k) es) in
    filter (out_of k) (snd p) = snd q /\ same_key k (fst p) (fst q).
  Proof.
    intros Hf. cbv zeta.
    assert (exists b1 b2, betas_ok hp b1 b2 (opt_init avg)) as (b1 & b2 & B).
    { destruct (h_radam hp) eqn:Er.
      - destruct (Hf eq_refl) as (b1 & b2 & F1 & F2). exists b1, b2. intros _.
        split; [exact F1|]. split; [exact F2|]. apply buf_ok_init.
      - exists (nZ 0), (nZ 0). intros E. congruence. }
    destruct (run_same hp b1 b2 k es (opt_init avg) (opt_init avg)) as (E & _ & Hs); auto; repeat split; reflexivity.
  Qed.

  (** *** Gradient consumed *)
  Lemma call_nr hp st k w g sc st' r : opt_call adam hp st k w g sc = (st', r) ->
    1 <= hd 0 (a_shape g) -> a_shape g <> [] ->
    nr_of st' k = nr_of st k + 1 /\ (forall j, j <> k -> nr_of st' j = nr_of st j).
  Proof.
    intros E Hl Hne. pose proof (fun j (N : k <> j) => call_other hp st k j w g sc N) as Oth. rewrite E in Oth. cbn [fst] in Oth.
    split.
    2: { intros j Hj. destruct (Oth j) as [_ (Hn & _)]; [congruence|]. unfold nr_of. now rewrite Hn. }
    rewrite opt_call_eq in E. destruct (a_shape g) as [|len shp]; [congruence|]. cbn [hd] in Hl.
    destruct (Nat.ltb_spec len 1) as [?|_]; [lia|]. cbv zeta in E.
    set (nr := nr_of st k + 1) in *. set (s1 := with_nr st (dset k nr (o_nr st))) in *.
    assert (N1 : dget k (o_nr s1) = Some nr) by (unfold s1; cbn [with_nr o_nr]; apply dget_dset_same).
    clearbody s1. set (G := eff_grad hp st k (a_data w) (a_data g)) in *. clearbody G nr.
    assert (U : forall p, update_of hp s1 k (a_data w) G sc nr = Ok p -> o_nr (fst p) = o_nr s1).
    { intros p. unfold update_of. destruct (h_radam hp).
      - intros Ep. injection Ep as <-. unfold opt_radam. destruct (radam_lookup _ _ _ _) as [b [n z]]. reflexivity.
      - assert (A : o_nr (fst (opt_adam adam hp s1 (a_data w) G sc k nr)) = o_nr s1).
        { unfold opt_adam. destruct (adam _ _ _ _ _ _ _ _) as [[[w' g'] m1] m2]. reflexivity. }
        destruct (nZ 0 <? h_b1 hp _ k _)%num, (nZ 0 <? h_b2 hp _ k _)%num; cbn [andb]; intros Ep; try discriminate Ep.
        + replace p with (opt_adam adam hp s1 (a_data w) G sc k nr) by congruence. exact A.
        + injection Ep as <-. reflexivity.
        + injection Ep as <-. reflexivity. }
    destruct (update_of hp s1 _ _ _ _ _) as [[s2 [ws gs]]|e]; cbn beta iota in E; injection E as <- <-; unfold nr_of.
    - unfold average_of. specialize (U _ eq_refl). cbn [fst] in U.
      destruct (o_avg s2); cbn [with_avg o_nr]; rewrite U, N1; reflexivity.
    - now rewrite N1.
  Qed.

  Lemma call_gradient hp st k w g sc st' w' g' :
    (forall x : T, (x * nZ 0)%num = nZ 0) ->
    opt_call adam hp st k w g sc = (st', Ok (w', g')) ->
    1 <= hd 0 (a_shape g) ->
    (forall x, In x (a_data g') -> x = nZ 0) /\ a_shape g' = a_shape g /\ a_shape w' = a_shape w.
  Proof.
    intros Hz E Hl. rewrite opt_call_eq in E. destruct (a_shape g) as [|len shp]; [discriminate|]. cbn [hd] in Hl.
    destruct (Nat.ltb_spec len 1) as [?|_]; [lia|]. cbv zeta in E.
    destruct (update_of hp _ _ _ _ _ _) as [[s2 [ws gs]]|e]; [|discriminate].
    injection E as _ <- <-. cbn [a_data a_shape]. repeat split.
    intros x Hx. apply in_map_iff in Hx as (y & <- & _). apply Hz.
  Qed.

  Lemma call_empty hp st k w g sc rest : a_shape g = 0 :: rest -> opt_call adam hp st k w g sc = (st, Ok (w, g)).
  Proof. intros E. unfold opt_call. rewrite E. reflexivity. Qed.

  (** *** SGD *)
  Lemma call_sgd hp st k w g sc :
    h_radam hp = false -> 1 <= hd 0 (a_shape g) -> 
    (nZ 0 <? h_b2 hp (o_step st) k (o_last st))%num = false ->
    exists st', opt_call adam hp st k w g sc =
    (st', Ok (mkArr (a_shape w)
       (let L2 := h_L2 hp (o_step st) k (o_last st) in
        let lr := h_lr hp (o_step st) k (o_last st) in
        let w1 := vmap2 (fun w g => (w - sc * lr * g)%num) (a_data w) (eff_grad hp st k (a_data w) (a_data g)) in
        if (negb (L2 =? nZ 0)%num && h_decay hp)%bool then map (fun x => (x - sc * lr * L2 * x)%num) w1 else w1),
       mkArr (a_shape g) (map (fun x => (x * nZ 0)%num) (eff_grad hp st k (a_data w) (a_data g))))).
  Proof.
    intros Er Hl Hb. rewrite opt_call_eq. destruct (a_shape g) as [|len shp]; [cbn in Hl; lia|]. cbn [hd] in Hl.
    destruct (Nat.ltb_spec len 1) as [?|_]; [lia|]. cbv zeta. unfold update_of. rewrite Er. cbn [with_nr o_step o_last].
    rewrite Hb, Bool.andb_false_r. eexists. reflexivity.
  Qed.

  Lemma call_momentum_only hp st k w g sc :
    h_radam hp = false -> 1 <= hd 0 (a_shape g) ->
    (nZ 0 <? h_b2 hp (o_step st) k (o_last st))%num = true -> (nZ 0 <? h_b1 hp (o_step st) k (o_last st))%num = false ->
    snd (opt_call adam hp st k w g sc) = Err NotImplementedError.
  Proof.
    intros Er Hl Hb2 Hb1. rewrite opt_call_eq. destruct (a_shape g) as [|len shp]; [cbn in Hl; lia|]. cbn [hd] in Hl.
    destruct (Nat.ltb_spec len 1) as [?|_]; [lia|]. cbv zeta. unfold update_of. rewrite Er. cbn [with_nr o_step o_last].
    rewrite Hb1, Hb2. reflexivity.
  Qed.

  Lemma radam_ignores_lr_scale hp st k w g sc sc' : h_radam hp = true -> h_decay hp = false ->
    opt_call adam hp st k w g sc = opt_call adam hp st k w g sc'.
  Proof.
    intros Er Ed. rewrite !opt_call_eq. unfold update_of. rewrite Er, Ed, Bool.andb_false_r. reflexivity.
  Qed.
End P.

(** *** The blocked loop *)
Section Blocks.
  Context {T : Type} `{Num T}.
  Implicit Types g m v : list T.

  Lemma combine_app {A B} (a a' : list A) (c c' : list B) : length a = length c ->
    combine (a ++ a') (c ++ c') = combine a c ++ combine a' c'.
  Proof.
    revert c. induction a as [|x a IH]; intros [|y c] E; cbn in E; try lia; [reflexivity|].
    cbn. now rewrite IH by lia.
  Qed.

  Lemma vmap2_app (f : T -> T -> T) a a' c c' : length a = length c ->
    vmap2 f (a ++ a') (c ++ c') = vmap2 f a c ++ vmap2 f a' c'.
  Proof. intros E. unfold vmap2. now rewrite combine_app, map_app. Qed.

  Lemma vmap2_length (f : T -> T -> T) a c : length a = length c -> length (vmap2 f a c) = length a.
  Proof. intros E. unfold vmap2. rewrite map_length, combine_length. lia. Qed.

  Lemma vmap2_nth (f : T -> T -> T) a c i x y : nth_error a i = Some x -> nth_error c i = Some y ->
    nth_error (vmap2 f a c) i = Some (f x y).
  Proof.
    unfold vmap2. revert c i. induction a as [|x' a IH]; intros [|y' c] [|i] Hx Hy; cbn in *; try discriminate.
    - congruence.
    - now apply IH.
  Qed.

  Lemma block_app g g' m m' v v' b1 b2 e : length m = length g -> length v = length g ->
    adam_block (g ++ g') (m ++ m') (v ++ v') b1 b2 e =
    let '(x, y, z) := adam_block g m v b1 b2 e in
    let '(x', y', z') := adam_block g' m' v' b1 b2 e in (x ++ x', y ++ y', z ++ z').
  Proof.
    intros Em Ev. unfold adam_block. cbv zeta. rewrite !map_app.
    rewrite (vmap2_app _ (map (fun m0 : T => (b1 * m0)%num) m)) by (rewrite map_length; lia).
    rewrite (vmap2_app _ (map (fun m0 : T => (b2 * m0)%num) v)) by (rewrite map_length; lia).
    rewrite !map_app. rewrite vmap2_app; [reflexivity|].
    rewrite !map_length, !vmap2_length; rewrite !map_length; lia.
  Qed.

  Lemma blocks_eq n : forall g m v b1 b2 e, length g <= 64 * n -> length m = length g -> length v = length g ->
    adam_blocks n g m v b1 b2 e = adam_block g m v b1 b2 e.
  Proof.
    induction n as [|n IH]; intros g m v b1 b2 e Hl Em Ev.
    - destruct g, m, v; cbn in *; try lia. reflexivity.
    - cbn [adam_blocks]. rewrite IH by (rewrite !skipn_length; lia).
      replace (adam_block g m v b1 b2 e) with (adam_block (firstn 64 g ++ skipn 64 g) (firstn 64 m ++ skipn 64 m) (firstn 64 v ++ skipn 64 v) b1 b2 e)
        by (now rewrite !firstn_skipn).
      rewrite block_app by (rewrite !firstn_length; lia). reflexivity.
  Qed.

  Lemma momentum_eq g m v b1 b2 e : length m = length g -> length v = length g ->
    adam_momentum g m v b1 b2 e = adam_block g m v b1 b2 e.
  Proof.
    intros Em Ev. unfold adam_momentum. cbv zeta. apply blocks_eq; [|exact Em|exact Ev].
    pose proof (Nat.div_mod (length g) 64 ltac:(lia)) as D. pose proof (Nat.mod_upper_bound (length g) 64 ltac:(lia)) as M.
    destruct (Nat.ltb_spec (length g / 64 * 64) (length g)); lia.
  Qed.

  Lemma momentum_elementwise g m v b1 b2 e : length m = length g -> length v = length g ->
    let '(g', m', v') := adam_momentum g m v b1 b2 e in
    length g' = length g /\ length m' = length g /\ length v' = length g /\
    forall i gi mi vi, nth_error g i = Some gi -> nth_error m i = Some mi -> nth_error v i = Some vi ->
      let mi' := ((nZ 1 - b1) * gi + b1 * mi)%num in
      let vi' := (b2 * vi + (nZ 1 - b2) * (gi * (gi * nZ 1)))%num in
      nth_error m' i = Some mi' /\ nth_error v' i = Some vi' /\ nth_error g' i = Some (mi' / (nsqrt vi' + e))%num.
  Proof.
    intros Em Ev. rewrite momentum_eq by assumption. unfold adam_block. cbv zeta.
    rewrite !vmap2_length; rewrite ?map_length; try lia; rewrite ?vmap2_length; rewrite ?map_length; try lia.
    repeat split; try assumption.
    - rewrite (vmap2_nth _ _ _ i (b1 * mi)%num gi); [reflexivity| |assumption].
      now apply map_nth_error.
    - rewrite (vmap2_nth _ _ _ i (b2 * vi)%num gi); [reflexivity| |assumption].
      now apply map_nth_error.
    - erewrite vmap2_nth; [reflexivity| |].
      + rewrite (vmap2_nth _ _ _ i (b1 * mi)%num gi); [reflexivity| |assumption]. now apply map_nth_error.
      + apply (map_nth_error (fun b => (b + e)%num)). apply (map_nth_error nsqrt).
        rewrite (vmap2_nth _ _ _ i (b2 * vi)%num gi); [reflexivity| |assumption]. now apply map_nth_error.
  Qed.
End Blocks.
