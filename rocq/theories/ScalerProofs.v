(** Proofs about the gradient scaler and the PyTorch shim. *)
From Coq Require Import String Reals Lra Lia.
From Verif Require Import NumR.
From Verif Require Export ScalerSpec.
Set Default Goal Selector "!".
Local Open Scope nat_scope.

Section Scale.
  Context {T : Type} `{Num T} (finite : T -> bool).
  Lemma step_overflow : forall s, sc_enabled s = true -> sc_scale (step finite s true) = nmul (sc_scale s) (sc_backoff s) /\ sc_tracker (step finite s true) = 0.
  Proof. intros s E. unfold step, update. cbn. rewrite E. cbn. split; reflexivity. Qed.
  Lemma step_fields : forall s b, sc_enabled (step finite s b) = sc_enabled s /\ sc_growth (step finite s b) = sc_growth s /\ sc_backoff (step finite s b) = sc_backoff s /\ sc_interval (step finite s b) = sc_interval s.
  Proof. intros s b. unfold step, update. cbn. destruct (sc_enabled s) eqn:E; cbn; [|repeat split; assumption || reflexivity]. destruct (amp_update_scale _ _ _ _ _ _ _). cbn. repeat split; assumption || reflexivity. Qed.
  Lemma history_fields : forall h s, sc_enabled (history finite s h) = sc_enabled s /\ sc_growth (history finite s h) = sc_growth s /\ sc_backoff (history finite s h) = sc_backoff s /\ sc_interval (history finite s h) = sc_interval s.
  Proof.
    induction h as [|b h IH]; intro s; [repeat split|]. cbn. destruct (IH (step finite s b)) as [A [B [C D]]]. destruct (step_fields s b) as [A' [B' [C' D']]]. unfold history in *. rewrite A, B, C, D. repeat split; assumption.
  Qed.
  Lemma history_app : forall h1 h2 s, history finite s (h1 ++ h2) = history finite (history finite s h1) h2.
  Proof. intros. unfold history. apply fold_left_app. Qed.
  Lemma overflow_step : forall s h, sc_enabled s = true -> sc_scale (history finite s (h ++ [true])) = nmul (sc_scale (history finite s h)) (sc_backoff s) /\ sc_tracker (history finite s (h ++ [true])) = 0.
  Proof.
    intros s h E. rewrite history_app. destruct (history_fields h s) as [A [_ [C _]]]. rewrite <- C. apply step_overflow. rewrite A. exact E.
  Qed.
  Lemma iter_shift : forall A (f : A -> A) n x, Nat.iter n f (f x) = f (Nat.iter n f x).
  Proof. induction n as [|n IH]; intro x; [reflexivity|]. cbn. f_equal. apply IH. Qed.
  Lemma step_finite : forall s, sc_enabled s = true ->
    (S (sc_tracker s) = sc_interval s -> sc_scale (step finite s false) = grow finite (sc_growth s) (sc_scale s) /\ sc_tracker (step finite s false) = 0) /\
    (S (sc_tracker s) <> sc_interval s -> sc_scale (step finite s false) = sc_scale s /\ sc_tracker (step finite s false) = S (sc_tracker s)).
  Proof.
    intros s E. unfold step, update. cbn [sc_enabled sc_scale sc_tracker sc_found sc_growth sc_backoff sc_interval]. rewrite E. cbn [negb]. unfold amp_update_scale.
    destruct (Nat.eqb_spec (S (sc_tracker s)) (sc_interval s)); (split; intro; [|try contradiction]); try contradiction; split; reflexivity.
  Qed.
  Lemma finite_step : forall s, sc_enabled s = true -> 0 < sc_interval s -> forall k, sc_tracker s < sc_interval s ->
    sc_scale (history finite s (repeat false k)) = Nat.iter ((sc_tracker s + k) / sc_interval s) (grow finite (sc_growth s)) (sc_scale s) /\
    sc_tracker (history finite s (repeat false k)) = (sc_tracker s + k) mod sc_interval s.
  Proof.
    intros s E HI k. revert s E HI. induction k as [|k IH]; intros s E HI Ht.
    - rewrite Nat.add_0_r, Nat.div_small, Nat.mod_small by exact Ht. split; reflexivity.
    - cbn [repeat]. change (history finite s (false :: repeat false k)) with (history finite (step finite s false) (repeat false k)).
      destruct (step_fields s false) as [F1 [F2 [_ F4]]].
      destruct (Nat.eqb_spec (S (sc_tracker s)) (sc_interval s)) as [Eq|Ne].
      + pose proof (proj1 (step_finite s E) Eq) as S1.
        destruct S1 as [S1 S2]. destruct (IH (step finite s false)) as [I1 I2]; [congruence | congruence | rewrite S2, F4; exact HI|]. rewrite I1, I2, S1, S2, F2, F4. cbn [plus].
        replace (sc_tracker s + S k) with (k + 1 * sc_interval s) by lia. rewrite Nat.div_add, Nat.mod_add by lia. rewrite Nat.add_1_r. cbn [Nat.iter]. split; [apply iter_shift | reflexivity].
      + pose proof (proj2 (step_finite s E) Ne) as S1.
        destruct S1 as [S1 S2]. destruct (IH (step finite s false)) as [I1 I2]; [congruence | congruence | rewrite S2, F4; lia|]. rewrite I1, I2, S1, S2, F2, F4. replace (S (sc_tracker s) + k) with (sc_tracker s + S k) by lia. split; reflexivity.
  Qed.
  Lemma finite_run : forall s h k, sc_enabled s = true -> 0 < sc_interval s -> sc_tracker (history finite s h) = 0 ->
    sc_scale (history finite s (h ++ repeat false k)) = Nat.iter (k / sc_interval s) (grow finite (sc_growth s)) (sc_scale (history finite s h)) /\
    sc_tracker (history finite s (h ++ repeat false k)) = k mod sc_interval s.
  Proof.
    intros s h k E HI Ht. rewrite history_app. destruct (history_fields h s) as [A [B [_ D]]]. destruct (finite_step (history finite s h)) with (k := k) as [F1 F2]; [congruence | congruence | rewrite Ht, D; exact HI|]. rewrite F1, F2, Ht, B, D. split; reflexivity.
  Qed.
  Lemma disabled_history : forall s h, sc_enabled s = false -> sc_scale (history finite s h) = sc_scale s /\ sc_tracker (history finite s h) = sc_tracker s.
  Proof.
    intros s h. revert s. induction h as [|b h IH]; intros s E; [split; reflexivity|]. cbn. destruct (IH (step finite s b)) as [I1 I2]; [rewrite (proj1 (step_fields s b)); exact E|]. unfold history in *. rewrite I1, I2. unfold step, update. cbn. rewrite E. split; reflexivity.
  Qed.

  (** ** Gradients *)
  Lemma present_length : forall (ps : list (tparam T)) gs, length gs = length (present ps) -> present (put_grads ps gs) = gs /\ Forall2 same_data ps (put_grads ps gs).
  Proof.
    induction ps as [|p ps IH]; intros gs Hl.
    - destruct gs; [split; [reflexivity | constructor] | discriminate].
    - cbn [put_grads present flat_map] in *. destruct (tp_grad p) as [g0|] eqn:E.
      + destruct gs as [|g gs]; [discriminate|]. cbn in Hl. destruct (IH gs) as [I1 I2]; [unfold present; lia|]. cbn [flat_map tp_grad app]. change (flat_map (fun p => match tp_grad p with Some g => [g] | None => [] end) (put_grads ps gs)) with (present (put_grads ps gs)). rewrite I1. split; [reflexivity | constructor; [split; reflexivity | exact I2]].
      + destruct (IH gs Hl) as [I1 I2]. cbn [flat_map]. rewrite E. split; [exact I1 | constructor; [split; reflexivity | exact I2]].
  Qed.
  Lemma put_length : forall (ps : list (tparam T)) gs, length (put_grads ps gs) = length ps.
  Proof. induction ps as [|p ps IH]; intro gs; [reflexivity|]. cbn. destruct (tp_grad p); [destruct gs|]; cbn; rewrite IH; reflexivity. Qed.
  Lemma put_app : forall (ps qs : list (tparam T)) gs hs, length gs = length (present ps) -> put_grads (ps ++ qs) (gs ++ hs) = put_grads ps gs ++ put_grads qs hs.
  Proof.
    induction ps as [|p ps IH]; intros qs gs hs Hl; [destruct gs; [reflexivity | discriminate]|]. cbn [app put_grads present flat_map] in *. destruct (tp_grad p) as [g0|].
    - destruct gs as [|g gs]; [discriminate|]. cbn in Hl. cbn [app]. rewrite IH by (unfold present; lia). reflexivity.
    - rewrite IH by exact Hl. reflexivity.
  Qed.
  Lemma present_app : forall ps qs : list (tparam T), present (ps ++ qs) = present ps ++ present qs.
  Proof. intros. unfold present. apply flat_map_app. Qed.
  (** Unscaling multiplies each gradient *)
  Definition times (c : T) (p : tparam T) : tparam T := mkTP (tp_name p) (tp_data p) (option_map (map (fun x => nmul x c)) (tp_grad p)).
  Lemma put_times : forall c ps, put_grads ps (map (map (fun x => nmul x c)) (present ps)) = map (times c) ps.
  Proof.
    intros c. induction ps as [|[n d [g|]] ps IH]; [reflexivity| |]; cbn [present flat_map tp_grad app map put_grads].
    - change (flat_map (fun p => match tp_grad p with Some g => [g] | None => [] end) ps) with (present ps). rewrite IH. reflexivity.
    - change (flat_map (fun p => match tp_grad p with Some g => [g] | None => [] end) ps) with (present ps). rewrite IH. reflexivity.
  Qed.
  Lemma put_self : forall ps : list (tparam T), put_grads ps (present ps) = ps.
  Proof.
    induction ps as [|[n d [g|]] ps IH]; [reflexivity| |]; cbn [present flat_map tp_grad app put_grads]; change (flat_map (fun p => match tp_grad p with Some g => [g] | None => [] end) ps) with (present ps); rewrite IH; reflexivity.
  Qed.
  Lemma cut_front : forall {A} n (a b : list A), length a = n -> firstn n (a ++ b) = a.
  Proof. intros A n a b <-. rewrite firstn_app, Nat.sub_diag, firstn_all. apply app_nil_r. Qed.
  Lemma cut_back : forall {A} n (a b : list A), length a = n -> skipn n (a ++ b) = b.
  Proof. intros A n a b <-. rewrite skipn_app, Nat.sub_diag, skipn_all. reflexivity. Qed.
  (** The result of the callback, unfolded *)
  Lemma backprop_is : forall amp autograd inputs grads sh sg, scale amp (sh_scaler sh) grads = Ok sg ->
    let ps := add_grads (sh_params sh) (fst (autograd sg)) in
    let ins := add_grads inputs (snd (autograd sg)) in
    let found := (sc_enabled (sh_scaler sh) && (sc_found (sh_scaler sh) || existsb (fun g => existsb (fun x => negb (finite x)) g) (present (ps ++ ins))))%bool in
    let f := if sc_enabled (sh_scaler sh) then times (ndiv (nZ 1) (sc_scale (sh_scaler sh))) else fun p => p in
    exists sh', backprop finite amp autograd inputs grads sh = Ok (map tp_grad (if found then map zero_grad (map f ins) else map f ins), sh') /\
      sh_params sh' = map f ps /\ sh_id sh' = sh_id sh /\ sh_cfg sh' = sh_cfg sh /\
      sh_scaler sh' = let s := sh_scaler sh in mkScaler (sc_enabled s) (sc_growth s) (sc_backoff s) (sc_interval s) (sc_tracker s) (sc_scale s) (if sc_enabled s then found else sc_found s).
  Proof.
    intros amp autograd inputs grads sh sg Hs. unfold backprop. rewrite Hs. cbn [bind]. destruct (autograd sg) as [gp gi]. cbn [fst snd]. set (ps := add_grads (sh_params sh) gp). set (ins := add_grads inputs gi). unfold unscale, check_and_unscale.
    destruct (sc_enabled (sh_scaler sh)) eqn:E; cbn [negb andb].
    - rewrite put_times, map_app. rewrite (cut_front (length ps)) by apply map_length. rewrite (cut_back (length (map (times _) ps))) by reflexivity.
      eexists. split; [reflexivity|]. cbn. repeat split.
    - rewrite put_self. rewrite (cut_front (length ps)) by reflexivity. rewrite (cut_back (length ps)) by reflexivity. rewrite !map_id. eexists. split; [reflexivity|]. cbn. repeat split. rewrite <- E. destruct (sh_scaler sh); reflexivity.
  Qed.
  Lemma bad_iff : forall ps, existsb (fun g => existsb (fun x => negb (finite x)) g) (present ps) = true <-> overflowed finite ps.
  Proof.
    intro ps. rewrite existsb_exists. split.
    - intros [g [Hg Hx]]. apply existsb_exists in Hx as [x [Hx Hf]]. unfold present in Hg. apply in_flat_map in Hg as [p [Hp Hg]]. exists p, g, x. destruct (tp_grad p) as [g'|] eqn:E; [|destruct Hg]. destruct Hg as [->|[]]. repeat split; try assumption; try reflexivity. destruct (finite x); [discriminate | reflexivity].
    - intros (p & g & x & Hp & Hg & Hx & Hf). exists g. split; [unfold present; apply in_flat_map; exists p; split; [exact Hp | rewrite Hg; left; reflexivity]|]. apply existsb_exists. exists x. rewrite Hf. split; [exact Hx | reflexivity].
  Qed.
  Lemma zero_zeroed : forall p : tparam T, zeroed (zero_grad p).
  Proof. intros [n d [g|]] g'; cbn; [|discriminate]. intro E. injection E as <-. apply Forall_forall. intros x Hx. apply in_map_iff in Hx as [y [<- _]]. reflexivity. Qed.
  Lemma add_same : forall (p : tparam T) g, same_data p (add_grad p g).
  Proof. intros [n d [a|]] [g|]; split; reflexivity. Qed.
  Lemma adds_same : forall (ps : list (tparam T)) gs, length gs = length ps -> Forall2 same_data ps (add_grads ps gs).
  Proof. induction ps as [|p ps IH]; intros [|g gs] Hl; try discriminate; [constructor|]. cbn. constructor; [apply add_same|]. apply IH. injection Hl as Hl. exact Hl. Qed.
  Lemma same_map : forall (f : tparam T -> tparam T) ps qs, (forall q, same_data q (f q)) -> Forall2 same_data ps qs -> Forall2 same_data ps (map f qs).
  Proof. intros f ps qs Hf Hq. induction Hq as [|p q ps qs Hp Hq IH]; [constructor|]. constructor; [|exact IH]. destruct Hp as [E1 E2]. destruct (Hf q) as [E3 E4]. split; congruence. Qed.

  Lemma backprop_found : forall amp autograd inputs grads sh sg ds sh', sc_enabled (sh_scaler sh) = true -> length (fst (autograd sg)) = length (sh_params sh) -> scale amp (sh_scaler sh) grads = Ok sg -> backprop finite amp autograd inputs grads sh = Ok (ds, sh') ->
    (sc_found (sh_scaler sh') = true <-> sc_found (sh_scaler sh) = true \/ overflowed finite (add_grads (sh_params sh) (fst (autograd sg)) ++ add_grads inputs (snd (autograd sg)))) /\
    (sc_found (sh_scaler sh') = true -> Forall (fun o => forall g, o = Some g -> zeros g) ds) /\ Forall2 same_data (sh_params sh) (sh_params sh').
  Proof.
    intros amp autograd inputs grads sh sg ds sh' E HL Hs Hb. destruct (backprop_is amp autograd inputs grads sh sg Hs) as (sh2 & B1 & B2 & _ & _ & B5). rewrite Hb in B1. injection B1 as B1 <-. rewrite B5. cbn. rewrite E. cbn [andb]. split; [|split].
    - rewrite Bool.orb_true_iff, bad_iff. reflexivity.
    - intro Hf. rewrite E in B1. cbn [andb] in B1. rewrite Hf in B1. subst ds. rewrite map_map. apply Forall_forall. intros o Ho. apply in_map_iff in Ho as [p [<- _]]. intros g Hg. exact (zero_zeroed _ _ Hg).
    - rewrite B2, E. apply same_map; [intro q; split; reflexivity|]. apply adds_same. exact HL.
  Qed.
  Lemma backprop_total : forall amp autograd inputs grads sh, (forall e, scale amp (sh_scaler sh) grads = Err e -> backprop finite amp autograd inputs grads sh = Err e) /\ (forall sg, scale amp (sh_scaler sh) grads = Ok sg -> exists r, backprop finite amp autograd inputs grads sh = Ok r).
  Proof.
    intros amp autograd inputs grads sh. split; [intros e He; unfold backprop; rewrite He; reflexivity|]. intros sg Hs. destruct (backprop_is amp autograd inputs grads sh sg Hs) as (sh2 & B1 & _). eexists. exact B1.
  Qed.

  (** ** finish_update *)
  Section Finish.
    Context {O : Type} (optimizer : nat * string -> list T -> list T -> O -> list T * list T * O).
    Lemma finish_zeroed : forall id found ps o, Forall zeroed (fst (finish_params optimizer id found ps o)).
    Proof.
      intros id found ps. induction ps as [|p ps IH]; intro o; [constructor|]. cbn [finish_params]. destruct (tp_grad p) as [g|] eqn:E.
      - assert (HZ : zeros (map (fun _ => nZ 0) g)) by (apply Forall_forall; intros x Hx; apply in_map_iff in Hx as [y [<- _]]; reflexivity).
        destruct found; cbn [negb].
        + specialize (IH o). destruct (finish_params _ _ _ ps o) as [ps' o']. constructor; [intros g' Hg; injection Hg as <-; exact HZ | exact IH].
        + destruct (optimizer _ _ _ _) as [[d g'] o1]. specialize (IH o1). destruct (finish_params _ _ _ ps o1) as [ps' o']. constructor; [intros g2 Hg; injection Hg as <-; exact HZ | exact IH].
      - specialize (IH o). destruct (finish_params _ _ _ ps o) as [ps' o']. constructor; [intros g' Hg; congruence | exact IH].
    Qed.
    Lemma finish_skip : forall id ps o, snd (finish_params optimizer id true ps o) = o /\ Forall2 same_data ps (fst (finish_params optimizer id true ps o)).
    Proof.
      intros id ps. induction ps as [|p ps IH]; intro o; [split; [reflexivity | constructor]|]. cbn [finish_params negb]. specialize (IH o). destruct (finish_params _ _ _ ps o) as [ps' o']. cbn [fst snd] in IH. destruct IH as [-> IH].
      destruct (tp_grad p); (split; [reflexivity | constructor; [split; reflexivity | exact IH]]).
    Qed.
    Lemma finish_apply : forall id ps o, updates optimizer id ps o (fst (finish_params optimizer id false ps o)) (snd (finish_params optimizer id false ps o)).
    Proof.
      intros id ps. induction ps as [|p ps IH]; intro o; [constructor|]. cbn [finish_params negb]. destruct (tp_grad p) as [g|] eqn:E.
      - destruct (optimizer _ _ _ _) as [[d g'] o1] eqn:Eo. specialize (IH o1). destruct (finish_params _ _ _ ps o1) as [ps' o']. cbn [fst snd] in *. eapply upd_some; try eassumption; [|apply map_length].
        apply Forall_forall. intros x Hx. apply in_map_iff in Hx as [y [<- _]]. reflexivity.
      - specialize (IH o). destruct (finish_params _ _ _ ps o) as [ps' o']. cbn [fst snd] in *. apply upd_none; assumption.
    Qed.
    Lemma finish_update_zeroed : forall sh o, Forall zeroed (sh_params (fst (finish_update finite optimizer sh o))).
    Proof. intros sh o. unfold finish_update. pose proof (finish_zeroed (sh_id sh) (sc_found (sh_scaler sh)) (sh_params sh) o) as Hz. destruct (finish_params _ _ _ _ _). exact Hz. Qed.
    Lemma finish_update_skip : forall sh o, sc_found (sh_scaler sh) = true -> snd (finish_update finite optimizer sh o) = o /\ Forall2 same_data (sh_params sh) (sh_params (fst (finish_update finite optimizer sh o))).
    Proof. intros sh o Hf. unfold finish_update. rewrite Hf. pose proof (finish_skip (sh_id sh) (sh_params sh) o) as Hz. destruct (finish_params _ _ _ _ _). exact Hz. Qed.
    Lemma finish_update_apply : forall sh o, sc_found (sh_scaler sh) = false -> updates optimizer (sh_id sh) (sh_params sh) o (sh_params (fst (finish_update finite optimizer sh o))) (snd (finish_update finite optimizer sh o)).
    Proof. intros sh o Hf. unfold finish_update. rewrite Hf. pose proof (finish_apply (sh_id sh) (sh_params sh) o) as Hz. destruct (finish_params _ _ _ _ _). exact Hz. Qed.
    Lemma finish_update_scaler : forall sh o, sh_scaler (fst (finish_update finite optimizer sh o)) = step finite (sh_scaler sh) (sc_found (sh_scaler sh)).
    Proof. intros sh o. unfold finish_update. destruct (finish_params _ _ _ _ _). cbn. unfold step. destruct (sh_scaler sh). reflexivity. Qed.

    (** *** From the callbacks to the optimizer *)
    Lemma calls_found : forall l sh sh', sc_enabled (sh_scaler sh) = true -> Forall (fits sh) l -> calls finite l sh = Ok sh' -> sc_found (sh_scaler sh) = true -> sc_found (sh_scaler sh') = true /\ Forall2 same_data (sh_params sh) (sh_params sh').
    Proof.
      induction l as [|c l IH]; intros sh sh' E HF Hc Hf.
      - injection Hc as <-. split; [exact Hf|]. induction (sh_params sh); constructor; [split; reflexivity | assumption].
      - cbn in Hc. destruct (backprop _ _ _ _ _ sh) as [[ds sh1]|] eqn:Eb; [|discriminate]. cbn [bind] in Hc. inversion HF as [|? ? F1 F2]; subst.
        destruct (scale (c_amp c) (sh_scaler sh) (c_grads c)) as [sg|e] eqn:Es; [|rewrite (proj1 (backprop_total _ _ _ _ _) e Es) in Eb; discriminate].
        destruct (backprop_found _ _ _ _ _ _ _ _ E (proj1 (F1 sg)) Es Eb) as [B1 [_ B3]].
        assert (E1 : sc_enabled (sh_scaler sh1) = true). { destruct (backprop_is _ (c_autograd c) (c_inputs c) _ sh sg Es) as (sh2 & R1 & _ & _ & _ & R5). rewrite Eb in R1. injection R1 as _ <-. rewrite R5. exact E. }
        assert (F2' : Forall (fits sh1) l). { apply Forall_forall. intros c' Hc' x. rewrite Forall_forall in F2. specialize (F2 c' Hc' x). assert (EL : length (sh_params sh1) = length (sh_params sh)) by (clear - B3; induction B3; cbn; congruence). rewrite EL. exact F2. }
        destruct (IH sh1 sh' E1 F2' Hc) as [I1 I2]; [apply B1; left; exact Hf|]. split; [exact I1|].
        clear - B3 I2. revert I2. generalize (sh_params sh'). induction B3 as [|p q ps qs Hp H IH]; intros l I2; inversion I2 as [|? r ? rs Hr Hrs]; subst; [constructor|]. constructor; [|apply IH; exact Hrs]. destruct Hp, Hr. split; congruence.
    Qed.
    Lemma overflow_never : forall l1 c l2 sh sh1 sg sh' o, sc_enabled (sh_scaler sh) = true -> Forall (fits sh) (l1 ++ c :: l2) -> calls finite l1 sh = Ok sh1 -> scale (c_amp c) (sh_scaler sh1) (c_grads c) = Ok sg ->
      overflowed finite (add_grads (sh_params sh1) (fst (c_autograd c sg)) ++ add_grads (c_inputs c) (snd (c_autograd c sg))) -> calls finite (l1 ++ c :: l2) sh = Ok sh' ->
      snd (finish_update finite optimizer sh' o) = o /\ Forall2 same_data (sh_params sh1) (sh_params (fst (finish_update finite optimizer sh' o))).
    Proof.
      intros l1 c l2 sh sh1 sg sh' o E HF H1 Hs Ho Hc.
      assert (K : forall l sh sh1, Forall (fits sh) l -> calls finite l sh = Ok sh1 -> sc_enabled (sh_scaler sh1) = sc_enabled (sh_scaler sh) /\ length (sh_params sh1) = length (sh_params sh)).
      { clear. induction l as [|c l IH]; intros sh sh1 HF Hc; [injection Hc as <-; split; reflexivity|]. cbn in Hc. destruct (backprop _ _ _ _ _ sh) as [[ds sh2]|] eqn:Eb; [|discriminate]. cbn [bind] in Hc. inversion HF as [|? ? F1 F2]; subst.
        destruct (scale (c_amp c) (sh_scaler sh) (c_grads c)) as [sg|e] eqn:Es; [|rewrite (proj1 (backprop_total _ _ _ _ _) e Es) in Eb; discriminate].
        destruct (backprop_is _ (c_autograd c) (c_inputs c) _ sh sg Es) as (sh3 & R1 & R2 & _ & _ & R5). rewrite Eb in R1. injection R1 as _ <-.
        assert (EL : length (sh_params sh2) = length (sh_params sh)). { rewrite R2, map_length. unfold add_grads. rewrite map_length, combine_length, (proj1 (F1 sg)). lia. }
        destruct (IH sh2 sh1) as [I1 I2]; [|exact Hc|]; [apply Forall_forall; intros c' Hc' x; rewrite Forall_forall in F2; rewrite EL; exact (F2 c' Hc' x)|]. rewrite I1, I2, R5, EL. split; reflexivity. }
      apply Forall_app in HF as [HF1 HF2]. inversion HF2 as [|? ? HFc HF3]; subst. destruct (K l1 sh sh1 HF1 H1) as [K1 K2].
      assert (EA : forall l1 l2 sh, calls finite (l1 ++ l2) sh = let* s := calls finite l1 sh in calls finite l2 s).
      { clear. induction l1 as [|c l1 IH]; intros l2 sh; [reflexivity|]. cbn. destruct (backprop _ _ _ _ _ sh) as [[ds sh2]|]; [|reflexivity]. cbn [bind]. apply IH. }
      rewrite EA, H1 in Hc. cbn [bind] in Hc. cbn in Hc. destruct (backprop _ _ _ _ _ sh1) as [[ds sh2]|] eqn:Eb; [|discriminate]. cbn [bind] in Hc.
      destruct (backprop_found _ _ _ _ _ _ _ _ (eq_trans K1 E) (eq_trans (proj1 (HFc sg)) (eq_sym K2)) Hs Eb) as [B1 [_ B3]].
      assert (Hf : sc_found (sh_scaler sh2) = true) by (apply B1; right; exact Ho).
      assert (EL : length (sh_params sh2) = length (sh_params sh1)) by (clear - B3; induction B3; cbn; congruence).
      assert (E2 : sc_enabled (sh_scaler sh2) = true). { destruct (backprop_is _ (c_autograd c) (c_inputs c) _ sh1 sg Hs) as (sh3 & R1 & _ & _ & _ & R5). rewrite Eb in R1. injection R1 as _ <-. rewrite R5. exact (eq_trans K1 E). }
      assert (TR : forall a b d : list (tparam T), Forall2 same_data a b -> Forall2 same_data b d -> Forall2 same_data a d).
      { clear. intros a b d Hab. revert d. induction Hab as [|p q ps qs Hp H IH]; intros l I2; inversion I2 as [|? r ? rs Hr Hrs]; subst; [constructor|]. constructor; [|apply IH; exact Hrs]. destruct Hp, Hr. split; congruence. }
      destruct (calls_found l2 sh2 sh' E2) as [C1 C2]; [|exact Hc | exact Hf|].
      { apply Forall_forall. intros c' Hc' x. rewrite Forall_forall in HF3. rewrite EL, K2. exact (HF3 c' Hc' x). }
      destruct (finish_update_skip sh' o C1) as [S1 S2]. split; [exact S1|]. exact (TR _ _ _ B3 (TR _ _ _ C2 S2)).
    Qed.
  End Finish.
End Scale.

(** ** Over the real numbers *)
Local Open Scope R_scope.
Lemma growths_more : forall interval h run, (0 < interval)%nat -> growths interval (interval + run) h = S (growths interval run h).
Proof.
  intros interval h. induction h as [|b h IH]; intros run HI.
  - cbn [growths]. replace (interval + run)%nat with (run + 1 * interval)%nat by lia. rewrite Nat.div_add by lia. lia.
  - destruct b; cbn [growths]; [replace (interval + run)%nat with (run + 1 * interval)%nat by lia; rewrite Nat.div_add by lia; lia|]. rewrite <- Nat.add_succ_r. apply IH. exact HI.
Qed.
Lemma closed_form : forall init backoff growth interval h, (0 < interval)%nat ->
  sc_scale (history always (new_scaler true init backoff growth interval) h) = init * growth ^ growths interval 0 h * backoff ^ count_occ Bool.bool_dec h true.
Proof.
  intros init backoff growth interval h HI.
  assert (G : forall h s, sc_enabled s = true -> sc_interval s = interval -> sc_growth s = growth -> sc_backoff s = backoff -> (sc_tracker s < interval)%nat ->
    sc_scale (history always s h) = sc_scale s * growth ^ growths interval (sc_tracker s) h * backoff ^ count_occ Bool.bool_dec h true).
  { clear h. induction h as [|b h IH]; intros s E1 E2 E3 E4 E5; [cbn [growths count_occ pow history fold_left]; rewrite Nat.div_small by exact E5; cbn [pow]; ring|]. change (history always s (b :: h)) with (history always (step always s b) h).
    destruct (step_fields always s b) as [F1 [F2 [F3 F4]]]. rewrite E1 in F1. rewrite E2 in F4. rewrite E3 in F2. rewrite E4 in F3. destruct b; cbn [growths count_occ].
    - destruct (step_overflow always s E1) as [S1 S2]. rewrite IH by (assumption || rewrite S2; exact HI). rewrite S1, S2, E4, Nat.div_small by exact E5. destruct (Bool.bool_dec true true); [|congruence]. cbn [pow nmul num_R plus]. ring.
    - destruct (Bool.bool_dec false true); [discriminate|]. destruct (Nat.eq_dec (S (sc_tracker s)) interval) as [Eq|Ne].
      + destruct (proj1 (step_finite always s E1)) as [S1 S2]; [congruence|]. rewrite IH by (assumption || rewrite S2; exact HI). pose proof (growths_more interval h 0 HI) as GM. rewrite Nat.add_0_r in GM. rewrite S1, S2, E3, Eq, GM. unfold grow, always. cbn [pow nmul num_R]. ring.
      + destruct (proj2 (step_finite always s E1)) as [S1 S2]; [congruence|]. rewrite IH by (assumption || rewrite S2; lia). rewrite S1, S2. reflexivity. }
  exact (G h (new_scaler true init backoff growth interval) eq_refl eq_refl eq_refl eq_refl HI).
Qed.

(** *** Scaling and unscaling *)
Lemma scale_gpu : forall s x, sc_enabled s = true -> on_gpu x -> scale true s x = Ok (scaled (sc_scale s) x).
Proof.
  intros s x E Hx. unfold scale. rewrite E. cbn [negb]. destruct x as [t|l|]; [| |destruct Hx].
  - cbn in Hx. unfold scale_tensor. rewrite Hx. cbn [negb bind]. unfold scaled. rewrite Hx. reflexivity.
  - cbn in Hx. assert (M : mapM (fun o => match o with Some t => let* t := scale_tensor true s t in Ok (Some t) | None => Err ValueError end) l = Ok (map (option_map (fun t => mkT (t_cuda t) (map (fun x => x * sc_scale s) (t_data t)))) l)).
    { induction Hx as [|o l [t [-> Ht]] Hx IH]; [reflexivity|]. cbn [mapM map option_map]. unfold scale_tensor at 1. rewrite Ht. cbn [negb bind]. rewrite IH. reflexivity. }
    rewrite M. reflexivity.
Qed.
Definition scale_all (c : R) (gs : list (option (list R))) : list (option (list R)) := map (option_map (map (fun x => x * c))) gs.
Lemma unscale_one : forall c x, c <> 0 -> x * c * (1 / c) = x.
Proof. intros c x Hc. field. exact Hc. Qed.
Lemma backprop_gpu : forall autograd inputs grads sh c gp gi, sc_enabled (sh_scaler sh) = true -> sc_scale (sh_scaler sh) = c -> on_gpu grads -> autograd (scaled c grads) = (gp, gi) -> sc_found (sh_scaler sh) = false ->
  exists sh', backprop always true autograd inputs grads sh = Ok (map tp_grad (map (times (1 / c)) (add_grads inputs gi)), sh') /\ sh_params sh' = map (times (1 / c)) (add_grads (sh_params sh) gp) /\ sc_found (sh_scaler sh') = false.
Proof.
  intros autograd inputs grads sh c gp gi E Ec Hg Ha Hf. destruct (backprop_is always true autograd inputs grads sh (scaled c grads)) as (sh' & B1 & B2 & _ & _ & B5); [rewrite <- Ec; apply scale_gpu; assumption|].
  assert (NB : forall l : list (list R), existsb (fun g => existsb (fun x => negb (always x)) g) l = false).
  { induction l as [|g l IH]; [reflexivity|]. cbn [existsb]. rewrite IH, Bool.orb_false_r. induction g; [reflexivity | assumption]. }
  rewrite E, Hf, NB in *. cbn [andb orb] in *. rewrite Ha in *. cbn [fst snd] in *. rewrite Ec in *. exists sh'. split; [exact B1|]. split; [exact B2|]. rewrite B5. cbn [sc_found]. rewrite E. reflexivity.
Qed.
Lemma vmap_len : forall (f : R -> R -> R) a b, length a = length b -> map (fun p => f (fst p) (snd p)) (combine a b) = vmap2 f a b.
Proof. reflexivity. Qed.
Lemma unscaled_ok : forall autograd inputs grads sh gs gi, sc_enabled (sh_scaler sh) = true -> sc_scale (sh_scaler sh) <> 0 -> sc_found (sh_scaler sh) = false -> on_gpu grads ->
  autograd grads = (map Some gs, map Some gi) -> (forall c, autograd (scaled c grads) = (map (fun g => Some (map (fun x => x * c) g)) gs, map (fun g => Some (map (fun x => x * c) g)) gi)) ->
  Forall2 (fun p g => tp_grad p = None \/ tp_grad p = Some (map (fun _ => 0) g)) (sh_params sh) gs -> Forall2 (fun p g => tp_grad p = None) inputs gi ->
  exists sh', backprop always true autograd inputs grads sh = Ok (map Some gi, sh') /\ map tp_grad (sh_params sh') = map Some gs /\ sc_found (sh_scaler sh') = false.
Proof.
  intros autograd inputs grads sh gs gi E Hc Hf Hg _ Ha Hp Hi. destruct (backprop_gpu autograd inputs grads sh _ _ _ E eq_refl Hg (Ha _) Hf) as (sh' & B1 & B2 & B3). exists sh'. split; [|split; [|exact B3]].
  - rewrite B1. f_equal. f_equal. clear - Hi Hc. induction Hi as [|p g ps gs Hp Hi IH]; [reflexivity|]. cbn [map add_grads combine]. unfold add_grads in IH. rewrite IH. f_equal. unfold add_grad. rewrite Hp. cbn. f_equal. rewrite map_map. rewrite <- (map_id g) at 2. apply map_ext. intro x. apply unscale_one. exact Hc.
  - rewrite B2. clear - Hp Hc. induction Hp as [|p g ps gs Hp Hi IH]; [reflexivity|]. cbn [map add_grads combine]. unfold add_grads in IH. rewrite IH. f_equal. unfold add_grad. destruct Hp as [-> | ->]; cbn; f_equal.
    + rewrite map_map. rewrite <- (map_id g) at 2. apply map_ext. intro x. apply unscale_one. exact Hc.
    + induction g as [|x g IHg]; [reflexivity|]. cbn. unfold vmap2 in IHg. rewrite IHg. f_equal. rewrite Rplus_0_l. apply unscale_one. exact Hc.
Qed.
Lemma accumulated : forall autograd inputs grads sh olds gs gi, sc_enabled (sh_scaler sh) = true -> sc_scale (sh_scaler sh) <> 0 -> sc_found (sh_scaler sh) = false -> on_gpu grads ->
  (forall c, autograd (scaled c grads) = (map (fun g => Some (map (fun x => x * c) g)) gs, gi)) -> map tp_grad (sh_params sh) = map Some olds -> Forall2 (fun a g => length a = length g) olds gs ->
  exists ds sh', backprop always true autograd inputs grads sh = Ok (ds, sh') /\ map tp_grad (sh_params sh') = map (fun '(a, g) => Some (vmap2 (fun x y => x / sc_scale (sh_scaler sh) + y) a g)) (combine olds gs).
Proof.
  intros autograd inputs grads sh olds gs gi E Hc Hf Hg Ha Hp Hl. destruct (backprop_gpu autograd inputs grads sh _ _ _ E eq_refl Hg (Ha _) Hf) as (sh' & B1 & B2 & _). do 2 eexists. split; [exact B1|]. rewrite B2. clear - Hp Hl Hc. revert Hp. generalize (sh_params sh) as ps. revert Hc. generalize (sc_scale (sh_scaler sh)) as c. intros c Hc ps. revert ps.
  induction Hl as [|a g olds gs Hag Hl IH]; intros [|p ps] Hp; try discriminate; [reflexivity|]. cbn [map add_grads combine] in *. injection Hp as Hp1 Hp2. unfold add_grads in IH. rewrite (IH ps Hp2). f_equal. unfold add_grad. rewrite Hp1. cbn. f_equal.
  clear - Hag Hc. revert g Hag. induction a as [|x a IH]; intros [|y g] H; try discriminate; [reflexivity|]. cbn. unfold vmap2 in IH. rewrite IH by (injection H as H; exact H). f_equal. field. exact Hc.
Qed.

(** ** use_params *)
Local Open Scope string_scope.
Lemma prefix_app : forall a s, String.prefix a (a ++ s) = true.
Proof. induction a as [|c a IH]; intro s; [destruct s; reflexivity|]. cbn. destruct (Ascii.ascii_dec c c); [apply IH | congruence]. Qed.
Lemma prefix_split : forall a s, String.prefix a s = true -> s = a ++ drop (String.length a) s.
Proof. induction a as [|c a IH]; intros s Hs; [reflexivity|]. destruct s as [|d s]; [discriminate|]. cbn in Hs. destruct (Ascii.ascii_dec c d) as [->|]; [|discriminate]. cbn. f_equal. apply IH. exact Hs. Qed.
Lemma drop_app : forall a s, drop (String.length a) (a ++ s) = s.
Proof. induction a as [|c a IH]; intro s; [reflexivity|]. cbn. apply IH. Qed.
Lemma remove_none : forall f old s, ~ contains s old -> remove_all f old s = s.
Proof.
  induction f as [|f IH]; intros old s Hn; [reflexivity|]. cbn. destruct (String.prefix old s) eqn:E; [exfalso; apply Hn; exists "", (drop (String.length old) s); cbn; apply prefix_split; exact E|].
  destruct s as [|c s]; [reflexivity|]. f_equal. apply IH. intros [a [b Hab]]. apply Hn. exists (String c a), b. cbn. f_equal. exact Hab.
Qed.
Lemma remove_key : forall old s, ~ contains s old -> remove_all (S (String.length (old ++ s))) old (old ++ s) = s.
Proof. intros old s Hn. cbn [remove_all]. rewrite prefix_app, drop_app. apply remove_none. exact Hn. Qed.
Section Use.
  Context {T : Type} `{Num T}.
  Local Open Scope nat_scope.
  Lemma dict_set_new : forall k (v : list T) d, ~ In k (map fst d) -> dict_set k v d = (d ++ [(k, v)])%list.
  Proof. intros k v. induction d as [|[k' v'] d IH]; intro Hn; [reflexivity|]. cbn. destruct (String.eqb_spec k k') as [->|]; [exfalso; apply Hn; left; reflexivity|]. rewrite IH by (intro Hi; apply Hn; right; exact Hi). reflexivity. Qed.
  Lemma select_all : forall prefix (v : string -> list T) (names : list string), NoDup names -> Forall (fun n => ~ contains n prefix) names ->
    select_params prefix (map (fun n => (KString (prefix ++ n)%string, v n)) names) = map (fun n => (n, v n)) names.
  Proof.
    intros prefix v names HN HC. unfold select_params.
    assert (G : forall acc, (forall n, In n names -> ~ In n (map fst acc)) -> fold_left (fun sd '(k, v) => match k with KString s => if String.prefix prefix s then dict_set (remove_all (S (String.length s)) prefix s) v sd else sd | KPair _ _ => sd end) (map (fun n => (KString (prefix ++ n)%string, v n)) names) acc = (acc ++ map (fun n => (n, v n)) names)%list).
    { revert HC. induction HN as [|n names Hn HN IH]; intros HC acc Ha; [cbn; rewrite app_nil_r; reflexivity|]. inversion HC as [|? ? C1 C2]; subst. cbn [map fold_left]. rewrite prefix_app, remove_key by exact C1. rewrite dict_set_new by (apply Ha; left; reflexivity).
      rewrite (IH C2); [rewrite <- app_assoc; reflexivity|]. intros m Hm. rewrite map_app, in_app_iff. cbn. intros [Hi|[Hi|[]]]; [exact (Ha m (or_intror Hm) Hi) | subst; contradiction]. }
    rewrite G by (intros n _ []). reflexivity.
  Qed.
  Lemma find_named : forall (v : string -> list T) names n, In n names -> find (fun e => String.eqb (fst e) n) (map (fun n => (n, v n)) names) = Some (n, v n).
  Proof. intros v. induction names as [|m names IH]; intros n Hn; [destruct Hn|]. cbn. destruct (String.eqb_spec m n) as [->|]; [reflexivity|]. apply IH. destruct Hn as [->|Hn]; [congruence | exact Hn]. Qed.
  Lemma load_named : forall (v : string -> list T) (ps : list (tparam T)), load_state_dict (map (fun n => (n, v n)) (map tp_name ps)) ps = (map (fun p => mkTP (tp_name p) (v (tp_name p)) (tp_grad p)) ps, None).
  Proof.
    intros v ps. unfold load_state_dict. f_equal.
    - apply map_ext_in. intros p Hp. unfold load_param. rewrite find_named by (apply in_map; exact Hp). reflexivity.
    - replace (forallb _ ps) with true; [replace (forallb _ _) with true; [reflexivity|]|].
      + symmetry. apply forallb_forall. intros e He. apply in_map_iff in He as [n [<- Hn]]. apply existsb_exists. apply in_map_iff in Hn as [p [<- Hp]]. exists p. split; [exact Hp | apply String.eqb_refl].
      + symmetry. apply forallb_forall. intros p Hp. apply existsb_exists. exists (tp_name p, v (tp_name p)). split; [apply in_map_iff; exists (tp_name p); split; [reflexivity | apply in_map; exact Hp] | apply String.eqb_refl].
  Qed.
  Lemma state_named : forall ps : list (tparam T), NoDup (map tp_name ps) -> exists v, state_dict ps = map (fun n => (n, v n)) (map tp_name ps) /\ forall p, In p ps -> v (tp_name p) = tp_data p.
  Proof.
    intros ps HN. exists (fun n => match find (fun p => String.eqb (tp_name p) n) ps with Some p => tp_data p | None => [] end).
    assert (F : forall p, In p ps -> match find (fun q => String.eqb (tp_name q) (tp_name p)) ps with Some p => tp_data p | None => [] end = tp_data p).
    { intros p Hp. destruct (find _ ps) as [q|] eqn:E.
      - apply find_some in E as [Hq E]. apply String.eqb_eq in E. f_equal. clear - HN Hp Hq E. induction ps as [|r ps IH]; [destruct Hp|]. cbn in HN. inversion HN as [|? ? N1 N2]; subst. destruct Hp as [->|Hp], Hq as [->|Hq]; [reflexivity | | | apply IH; assumption]; exfalso; apply N1; [rewrite <- E | rewrite E]; apply in_map; assumption.
      - apply (find_none _ _ E) in Hp. rewrite String.eqb_refl in Hp. discriminate. }
    split; [|exact F]. unfold state_dict. rewrite map_map. apply map_ext_in. intros p Hp. rewrite F by exact Hp. reflexivity.
  Qed.
  Lemma use_params_ok : forall A prefix (v : string -> list T) (body : list (tparam T) -> list (tparam T) * result A) ps ps2 a, ps <> [] -> NoDup (map tp_name ps) -> Forall (fun p => ~ contains (tp_name p) prefix) ps ->
    body (map (fun p => mkTP (tp_name p) (v (tp_name p)) (tp_grad p)) ps) = (ps2, Ok a) -> map tp_name ps2 = map tp_name ps ->
    exists ps3, use_params prefix (map (fun p => (KString (prefix ++ tp_name p)%string, v (tp_name p))) ps) body ps = (ps3, Ok a) /\ Forall2 same_data ps ps3 /\ map tp_grad ps3 = map tp_grad ps2.
  Proof.
    intros A prefix v body ps ps2 a Hne HN HC Hb Hn. unfold use_params. replace (map (fun p => (KString (prefix ++ tp_name p)%string, v (tp_name p))) ps) with (map (fun n => (KString (prefix ++ n)%string, v n)) (map tp_name ps)) by (rewrite map_map; reflexivity).
    rewrite select_all by (exact HN || (rewrite Forall_map; exact HC)). destruct (state_named ps HN) as [w [Es Hw]]. destruct (map (fun n => (n, v n)) (map tp_name ps)) as [|e sd] eqn:Esd; [destruct ps; [congruence | discriminate]|]. rewrite <- Esd, load_named, Hb, Es, <- Hn, load_named.
    eexists. split; [reflexivity|]. split; [|rewrite map_map; reflexivity].
    clear - Hn Hw. revert ps2 Hn. induction ps as [|p ps IH]; intros [|q qs] Hn; try discriminate; [constructor|]. injection Hn as E1 E2. cbn [map]. constructor; [|apply IH; [intros r Hr; apply Hw; right; exact Hr | exact E2]]. split; cbn; [congruence|]. rewrite E1. symmetry. apply Hw. left. reflexivity.
  Qed.
  Lemma use_params_pairs : forall A prefix (params : list (pkey * list T)) (body : list (tparam T) -> list (tparam T) * result A) ps, Forall (fun e => exists id name, fst e = KPair id name) params -> use_params prefix params body ps = body ps.
  Proof.
    intros A prefix params body ps HP. unfold use_params. replace (select_params prefix params) with (@nil (string * list T)); [reflexivity|]. unfold select_params.
    induction HP as [|[k v] params [id [n E]] HP IH]; [reflexivity|]. cbn in E. subst k. exact IH.
  Qed.
  Lemma deserialize_keeps : forall B (save : list (string * list T) -> B) load sh1 sh2, (forall sd, load (save sd) = Some sd) ->
    exists sh, from_bytes (default_deserialize load) sh2 (to_bytes (default_serialize save) sh1) = Ok sh /\ sh_params sh = sh_params sh2 /\ sh_cfg sh = sh_cfg sh1.
  Proof. intros B save load sh1 sh2 HL. unfold from_bytes, to_bytes, default_deserialize, default_serialize. rewrite HL. cbn. eexists. repeat split. Qed.
End Use.

(** ** Witnesses *)
From Coq Require Import QArith.
From Verif Require Import NumQ.
Local Open Scope nat_scope.
Lemma partial_load : exists (ps : list (tparam Q)) params (body : list (tparam Q) -> list (tparam Q) * result unit) ps',
  use_params "pytorch_1_" params body ps = (ps', Err RuntimeError) /\ map tp_data ps = [[1%Q]; [2%Q]] /\ map tp_data ps' = [[5%Q]; [2%Q]].
Proof. exists [mkTP "a" [1%Q] None; mkTP "b" [2%Q] None], [(KString "pytorch_1_a", [5%Q])], (fun ps => (ps, Ok tt)). eexists. repeat split; reflexivity. Qed.
Lemma body_raises : exists (ps : list (tparam Q)) params (body : list (tparam Q) -> list (tparam Q) * result unit) ps',
  use_params "pytorch_1_" params body ps = (ps', Err KeyError) /\ map tp_data ps = [[1%Q]] /\ map tp_data ps' = [[5%Q]].
Proof. exists [mkTP "a" [1%Q] None], [(KString "pytorch_1_a", [5%Q])], (fun ps => (ps, Err KeyError)). eexists. repeat split; reflexivity. Qed.
Lemma scale_errors : forall T (N : Num T) (amp : bool) (s : scaler T) x, sc_enabled s = true ->
  x = Other \/ (exists l, x = Iter l /\ l <> [] /\ (In None l \/ amp = false \/ exists t, In (Some t) l /\ t_cuda t = false)) \/ (exists t, x = OneTensor t /\ (amp = false \/ t_cuda t = false)) -> scale amp s x = Err ValueError.
Proof.
  intros T N amp s x E H. assert (EQ : forall t, amp = false \/ t_cuda t = false -> scale_tensor amp s t = Err ValueError) by (intros t [Ha | Ht]; unfold scale_tensor; [now rewrite Ha|rewrite Ht; now destruct amp]).
  unfold scale. rewrite E. cbn [negb]. destruct H as [-> | [(l & -> & Hl & H)|(t & -> & H)]].
  - reflexivity.
  - match goal with |- context [mapM ?g l] => set (f := g) end. assert (Hf : forall o e, f o = Err e -> e = ValueError).
    { intros [t|] e; unfold f; [|congruence]. unfold scale_tensor. destruct (negb amp); cbn [bind]; [congruence|]. destruct (negb (t_cuda t)); cbn [bind]; congruence. }
    assert (HE : exists o, In o l /\ f o = Err ValueError).
    { destruct H as [H|[H|(t & H & Ht)]].
      - exists None. now split.
      - destruct l as [|[t|] l]; [congruence| |]; eexists; (split; [now left|]); unfold f; [now rewrite EQ by auto|reflexivity].
      - exists (Some t). split; [exact H|]. unfold f. now rewrite EQ by auto. }
    assert (HM : mapM f l = Err ValueError); [|now rewrite HM]. clear H Hl. induction l as [|o l IH]; [destruct HE as (? & [] & _)|]. cbn [mapM]. destruct (f o) as [y|e] eqn:Eo; cbn [bind].
    + rewrite IH; [reflexivity|]. destruct HE as (o' & [<-|Ho] & Eo'); [congruence|]. eauto.
    + f_equal. eapply Hf. exact Eo.
  - now rewrite EQ by exact H.
Qed.
