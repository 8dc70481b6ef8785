(** Instrumented layers do what the layers do, keep their ranges in order, and act on the original after copying. *)
From Coq Require Import String Lia.
From Verif Require Import Base BaseFacts InstrModel InstrSpec.
Set Default Goal Selector "!".

Section Instr.
  Context {V P : Type}.
  Notation bcode := (bcode (V := V)).
  Notation onode := (onode (P := P)).
  Notation world := (world (V := V) (P := P)).
  Variable fwd : nat -> addr -> V -> bool -> prog (V := V) (P := P) (V * bcode).
  Variable bwd : nat -> addr -> list V -> list bcode -> V -> prog (V := V) (P := P) V.
  Variable ini : nat -> addr -> option V -> option V -> prog (V := V) (P := P) unit.
  Variable hook : event (V := V) -> result unit.
  Variable has_cupy : bool.
  Notation engine := (engine (V := V) (P := P)).
  Notation engine_of := (engine_of fwd bwd ini hook has_cupy).
  Notation apply_f := (apply_f fwd hook has_cupy).
  Notation apply_b := (apply_b bwd hook has_cupy).
  Notation apply_i := (apply_i ini hook).

  (** ** Transparency *)
  Inductive wraps (a : addr) (c : fcode) : fcode -> Prop :=
  | w_same : wraps a c c
  | w_debug h c' : wraps a c c' -> wraps a c (FDebug a h c')
  | w_range s c' : wraps a c c' -> wraps a c (FRange s c')
  | w_sign s c' : wraps a c c' -> wraps a c (FSignpost s c').
  Inductive wraps_i (a : addr) (c : option icode) : option icode -> Prop :=
  | wi_same : wraps_i a c c
  | wi_debug h c' : wraps_i a c c' -> wraps_i a c (Some (IDebug a h c'))
  | wi_range c' : wraps_i a c c' -> wraps_i a c (Some (IRange a c'))
  | wi_sign s c' : wraps_i a c c' -> wraps_i a c (Some (ISignpost a s c')).
  Definition nsim (a : addr) (n1 n2 : onode) : Prop :=
    o_name n1 = o_name n2 /\ o_layers n1 = o_layers n2 /\ o_data n1 = o_data n2 /\ wraps a (o_func n1) (o_func n2) /\ wraps_i a (o_init n1) (o_init n2).
  Definition osim {A} (R : A -> A -> Prop) (x y : option A) : Prop := match x, y with Some x, Some y => R x y | None, None => True | _, _ => False end.
  Definition wsim (w1 w2 : world) : Prop := forall a, osim (nsim a) (nth_error (w_heap w1) a) (nth_error (w_heap w2) a).
  Lemma wsim_refl w : wsim w w.
  Proof. intros a. destruct (nth_error (w_heap w) a); cbn; repeat split; constructor. Qed.
  Lemma wsim_heap (w1 w2 w1' w2' : world) : wsim w1 w2 -> w_heap w1' = w_heap w1 -> w_heap w2' = w_heap w2 -> wsim w1' w2'.
  Proof. intros S E1 E2 a. rewrite E1, E2. apply S. Qed.
  Lemma nth_set {A} (l : list A) a b x : nth_error (set_nth a x l) b = if Nat.eqb a b then option_map (fun _ => x) (nth_error l b) else nth_error l b.
  Proof.
    destruct (Nat.eqb_spec a b) as [<-|N].
    - destruct (nth_error l a) as [y|] eqn:E; cbn; [apply nth_error_set_nth_eq, nth_error_Some; congruence|].
      apply nth_error_None. rewrite set_nth_length. now apply nth_error_None.
    - now apply nth_error_set_nth_neq.
  Qed.
  Lemma wsim_store a p (w1 w2 : world) : wsim w1 w2 -> wsim (store a p w1) (store a p w2).
  Proof.
    intros S. unfold store. pose proof (S a) as Sa. destruct (nth_error (w_heap w1) a) as [n1|] eqn:E1, (nth_error (w_heap w2) a) as [n2|] eqn:E2; cbn in Sa; try tauto.
    intros b. cbn [w_heap]. rewrite !nth_set. specialize (S b). destruct (Nat.eqb_spec a b) as [<-|N]; [|exact S].
    rewrite E1, E2. destruct Sa as (X1 & X2 & X3 & X4 & X5). now repeat split.
  Qed.

  Definition res_sim {A} (R : A -> A -> Prop) (x y : world * result A) : Prop := wsim (fst x) (fst y) /\ rsim R (snd x) (snd y).
  Definition esim (e : engine) : Prop :=
    (forall a X t w1 w2, wsim w1 w2 -> res_sim ysim (e_call e a X t w1) (e_call e a X t w2)) /\
    (forall b1 b2 d w1 w2, bsim b1 b2 -> wsim w1 w2 -> res_sim eq (e_back e b1 d w1) (e_back e b2 d w2)) /\
    (forall a X Y w1 w2, wsim w1 w2 -> res_sim eq (e_init e a X Y w1) (e_init e a X Y w2)).
  Lemma rsim_eq {A} (r1 r2 : result A) : rsim eq r1 r2 -> r1 = r2.
  Proof. destruct r1, r2; cbn; intros E; now subst. Qed.
  Lemma run_sim {A} (R : A -> A -> Prop) e (p1 p2 : prog A) : esim e -> psim R p1 p2 -> forall w1 w2, wsim w1 w2 -> res_sim R (run e p1 w1) (run e p2 w2).
  Proof.
    intros (EC & EB & EI) S. induction S as [r1 r2 Hr|a k1 k2 _ IH|a p k1 k2 _ IH|a X t k1 k2 _ IH|b1 b2 d k1 k2 Hb _ IH|a X Y k1 k2 _ IH]; intros w1 w2 Hw; cbn [run].
    - now split.
    - pose proof (Hw a) as Sa. destruct (nth_error (w_heap w1) a) as [n1|], (nth_error (w_heap w2) a) as [n2|]; cbn in Sa; try tauto; cbn [option_map].
      + destruct Sa as (_ & -> & -> & _). now apply IH.
      + now apply IH.
    - apply IH. now apply wsim_store.
    - destruct (EC a X t w1 w2 Hw) as [Hw' Hr]. destruct (e_call e a X t w1), (e_call e a X t w2). now apply IH.
    - destruct (EB b1 b2 d w1 w2 Hb Hw) as [Hw' Hr]. destruct (e_back e b1 d w1), (e_back e b2 d w2). apply rsim_eq in Hr. cbn in Hw', Hr. subst. now apply IH.
    - destruct (EI a X Y w1 w2 Hw) as [Hw' Hr]. destruct (e_init e a X Y w1), (e_init e a X Y w2). apply rsim_eq in Hr. cbn in Hw', Hr. subst. now apply IH.
  Qed.

  Hypothesis Hop : opaque fwd bwd ini.
  Hypothesis Hhook : forall ev, hook ev = Ok tt.

  Lemma in_range_sim {A} (R : A -> A -> Prop) s (f g : world -> world * result A) :
    (forall w1 w2, wsim w1 w2 -> res_sim R (f w1) (g w2)) -> forall w1 w2, wsim w1 w2 -> res_sim R (in_range has_cupy s f w1) (in_range has_cupy s g w2).
  Proof.
    intros Hf w1 w2 Hw. unfold in_range. destruct has_cupy; [|now apply Hf].
    assert (Hw' : wsim (with_open w1 (s :: w_open w1)) (with_open w2 (s :: w_open w2))) by (eapply wsim_heap; [exact Hw|reflexivity|reflexivity]).
    destruct (Hf _ _ Hw') as [S R']. destruct (f _) as [w1' [x1|]], (g _) as [w2' [x2|]]; cbn in S, R'; try tauto; split; cbn; auto.
  Qed.
  Lemma in_range_right {A} (R : A -> A -> Prop) s (f g : world -> world * result A) :
    (forall w1 w2, wsim w1 w2 -> res_sim R (f w1) (g w2)) -> forall w1 w2, wsim w1 w2 -> res_sim R (f w1) (in_range has_cupy s g w2).
  Proof.
    intros Hf w1 w2 Hw. unfold in_range. destruct has_cupy; [|now apply Hf].
    assert (Hw' : wsim w1 (with_open w2 (s :: w_open w2))) by (eapply wsim_heap; [exact Hw|reflexivity|reflexivity]).
    destruct (Hf _ _ Hw') as [S R']. destruct (f _) as [w1' [x1|]], (g _) as [w2' [x2|]]; cbn in S, R'; try tauto; split; cbn; auto.
  Qed.
  Lemma observed ev (w1 w2 : world) : wsim w1 w2 -> wsim w1 (fst (observe hook ev w2)) /\ wsim (fst (observe hook ev w1)) (fst (observe hook ev w2)).
  Proof. intros Hw. split; (eapply wsim_heap; [exact Hw|reflexivity|reflexivity]). Qed.

  Lemma f_same e c : esim e -> forall m X t w1 w2, wsim w1 w2 -> res_sim ysim (apply_f e c m X t w1) (apply_f e c m X t w2).
  Proof.
    intros He. induction c as [k|l h c IH|s c IH|s c IH]; intros m X t w1 w2 Hw; cbn [InstrModel.apply_f].
    - apply run_sim; [assumption|apply (proj1 Hop)|assumption].
    - unfold observe. rewrite Hhook. assert (Hw' := proj2 (observed (OnForward h m X t) w1 w2 Hw)). unfold observe in Hw'. cbn [fst] in Hw'.
      destruct (IH l X t _ _ Hw') as [S R]. destruct (apply_f e c l X t _) as [w1' [[Y1 b1]|]], (apply_f e c l X t _) as [w2' [[Y2 b2]|]]; cbn in S, R; try tauto; split; cbn; auto.
      destruct R. split; [assumption|now constructor].
    - destruct (in_range_sim ysim (s ++ " forward") _ _ (IH m X t) w1 w2 Hw) as [S R].
      destruct (in_range _ _ _ w1) as [w1' [[Y1 b1]|]], (in_range _ _ _ w2) as [w2' [[Y2 b2]|]]; cbn in S, R; try tauto; split; cbn; auto. destruct R. split; [assumption|now constructor].
    - destruct (IH m X t _ _ Hw) as [S R]. destruct (apply_f e c m X t w1) as [w1' [[Y1 b1]|]], (apply_f e c m X t w2) as [w2' [[Y2 b2]|]]; cbn in S, R; try tauto; split; cbn; auto.
      destruct R. split; [assumption|now constructor].
  Qed.
  Lemma f_sim e a c1 c2 : esim e -> wraps a c1 c2 -> forall X t w1 w2, wsim w1 w2 -> res_sim ysim (apply_f e c1 a X t w1) (apply_f e c2 a X t w2).
  Proof.
    intros He Hc. induction Hc as [|h c' _ IH|s c' _ IH|s c' _ IH]; intros X t w1 w2 Hw.
    - now apply f_same.
    - cbn [InstrModel.apply_f]. unfold observe. rewrite Hhook. assert (Hw' := proj1 (observed (OnForward h a X t) w1 w2 Hw)). unfold observe in Hw'. cbn [fst] in Hw'.
      destruct (IH X t _ _ Hw') as [S R]. destruct (apply_f e c1 a X t w1) as [w1' [[Y1 b1]|]], (apply_f e c' a X t _) as [w2' [[Y2 b2]|]]; cbn in S, R; try tauto; split; cbn; auto.
      destruct R. split; [assumption|now constructor].
    - cbn [InstrModel.apply_f]. destruct (in_range_right ysim (s ++ " forward") _ _ (IH X t) w1 w2 Hw) as [S R].
      destruct (apply_f e c1 a X t w1) as [w1' [[Y1 b1]|]], (in_range _ _ _ w2) as [w2' [[Y2 b2]|]]; cbn in S, R; try tauto; split; cbn; auto. destruct R. split; [assumption|now constructor].
    - cbn [InstrModel.apply_f]. destruct (IH X t _ _ Hw) as [S R]. destruct (apply_f e c1 a X t w1) as [w1' [[Y1 b1]|]], (apply_f e c' a X t w2) as [w2' [[Y2 b2]|]]; cbn in S, R; try tauto; split; cbn; auto.
      destruct R. split; [assumption|now constructor].
  Qed.
  Lemma b_sim e b1 b2 : esim e -> bsim b1 b2 -> forall d w1 w2, wsim w1 w2 -> res_sim eq (apply_b e b1 d w1) (apply_b e b2 d w2).
  Proof.
    intros He Hb. induction Hb as [k m saved l1 l2 Hl|h b1 b2 _ IH|s b1 b2 _ IH|s b1 b2 _ IH|h b1 b2 _ IH|s b1 b2 _ IH|s b1 b2 _ IH]; intros d w1 w2 Hw; cbn [InstrModel.apply_b].
    - apply run_sim; [assumption|now apply (proj1 (proj2 Hop))|assumption].
    - unfold observe. rewrite Hhook. apply IH. exact (proj2 (observed (OnBackprop h d) w1 w2 Hw)).
    - apply in_range_sim; [apply IH|assumption].
    - now apply IH.
    - unfold observe. rewrite Hhook. apply IH. exact (proj1 (observed (OnBackprop h d) w1 w2 Hw)).
    - apply (in_range_right eq (s ++ " backprop") (apply_b e b1 d) (apply_b e b2 d)); [apply IH|assumption].
    - now apply IH.
  Qed.
  Fixpoint icode_size (c : icode) : nat :=
    match c with IPlain _ => 0 | IDebug _ _ o | IRange _ o | ISignpost _ _ o => S (match o with Some c => icode_size c | None => 0 end) end.
  Definition apply_o (e : engine) (o : option icode) (m : addr) (X Y : option V) (w : world) : world * result unit :=
    match o with Some c => apply_i e c m X Y w | None => (w, Ok tt) end.
  Lemma i_same e o : esim e -> forall m X Y w1 w2, wsim w1 w2 -> res_sim eq (apply_o e o m X Y w1) (apply_o e o m X Y w2).
  Proof.
    intros He. assert (N : forall n o, match o with Some c => icode_size c < n | None => True end ->
      forall m X Y w1 w2, wsim w1 w2 -> res_sim eq (apply_o e o m X Y w1) (apply_o e o m X Y w2)).
    { induction n as [|n IH]; intros [c|] Hn m X Y w1 w2 Hw; try lia; try (split; [exact Hw|reflexivity]).
      destruct c as [k|l h o'|l o'|l s o']; cbn [apply_o InstrModel.apply_i].
      - apply run_sim; [assumption|apply (proj2 (proj2 Hop))|assumption].
      - unfold observe. rewrite Hhook. apply (IH o'); [cbn in Hn; destruct o'; [lia|exact I]|]. exact (proj2 (observed (OnInit h m X Y) w1 w2 Hw)).
      - apply (IH o'); [cbn in Hn; destruct o'; [lia|exact I]|assumption].
      - apply (IH o'); [cbn in Hn; destruct o'; [lia|exact I]|assumption]. }
    intros. apply (N (match o with Some c => S (icode_size c) | None => 0 end)); [destruct o; [lia|exact I]|assumption].
  Qed.
  Lemma i_sim e a o1 o2 : esim e -> wraps_i a o1 o2 -> forall X Y w1 w2, wsim w1 w2 -> res_sim eq (apply_o e o1 a X Y w1) (apply_o e o2 a X Y w2).
  Proof.
    intros He Ho. induction Ho as [|h c' _ IH|c' _ IH|s c' _ IH]; intros X Y w1 w2 Hw.
    - now apply i_same.
    - cbn [apply_o InstrModel.apply_i]. unfold observe. rewrite Hhook. apply IH. exact (proj1 (observed (OnInit h a X Y) w1 w2 Hw)).
    - cbn [apply_o InstrModel.apply_i]. now apply IH.
    - cbn [apply_o InstrModel.apply_i]. now apply IH.
  Qed.
  Lemma engine_sim fuel : esim (engine_of fuel).
  Proof.
    induction fuel as [|fuel IH]; cbn [InstrModel.engine_of].
    - repeat split; cbn; auto.
    - split; [|split]; cbn.
      + intros a X t w1 w2 Hw. pose proof (Hw a) as Sa. destruct (nth_error (w_heap w1) a) as [n1|], (nth_error (w_heap w2) a) as [n2|]; cbn in Sa; try tauto; [|now split].
        destruct Sa as (_ & _ & _ & Sf & _). now apply f_sim.
      + intros. now apply b_sim.
      + intros a X Y w1 w2 Hw. pose proof (Hw a) as Sa. destruct (nth_error (w_heap w1) a) as [n1|], (nth_error (w_heap w2) a) as [n2|]; cbn in Sa; try tauto; [|now split].
        destruct Sa as (_ & _ & _ & _ & Si). now apply (i_sim _ a (o_init n1) (o_init n2)).
  Qed.

  (** ** The wrappers *)
  Lemma wraps_trans a c1 c2 c3 : wraps a c1 c2 -> wraps a c2 c3 -> wraps a c1 c3.
  Proof. intros H1 H2. induction H2; [assumption|now constructor..]. Qed.
  Lemma wraps_i_trans a c1 c2 c3 : wraps_i a c1 c2 -> wraps_i a c2 c3 -> wraps_i a c1 c3.
  Proof. intros H1 H2. induction H2; [assumption|now constructor..]. Qed.
  Lemma wsim_trans (w1 w2 w3 : world) : wsim w1 w2 -> wsim w2 w3 -> wsim w1 w3.
  Proof.
    intros S1 S2 a. specialize (S1 a). specialize (S2 a). destruct (nth_error (w_heap w1) a), (nth_error (w_heap w2) a), (nth_error (w_heap w3) a); cbn in *; try tauto.
    destruct S1 as (X1 & X2 & X3 & A1 & B1), S2 as (Y1 & Y2 & Y3 & A2 & B2). split; [congruence|split; [congruence|split; [congruence|split; [eapply wraps_trans|eapply wraps_i_trans]; eauto]]].
  Qed.
  Lemma replaced a f i (w : world) n : nth_error (w_heap w) a = Some n -> wraps a (o_func n) f -> wraps_i a (o_init n) i -> wsim w (replace_callbacks a f i w).
  Proof.
    intros E Hf Hi b. unfold replace_callbacks. rewrite E. cbn [w_heap]. rewrite nth_set. destruct (Nat.eqb_spec a b) as [<-|N]; [|apply wsim_refl].
    rewrite E. repeat split; assumption.
  Qed.
  Lemma wrapped_sim sp w1 w2 : wrapped sp w1 w2 -> wsim w1 w2.
  Proof.
    induction 1 as [w|w w1 w2 a h r _ IH E|w w1 w2 a s r _ IH E|w w1 w2 a s r _ IH E]; [apply wsim_refl|..].
    - apply (wsim_trans _ w1); [assumption|]. unfold with_debug in E. destruct (nth_error (w_heap w1) a) as [n|] eqn:En; injection E as <- _; [|apply wsim_refl].
      apply (replaced a _ _ w1 n En); repeat constructor.
    - apply (wsim_trans _ w1); [assumption|]. unfold with_nvtx_range in E. destruct (nth_error (w_heap w1) a) as [n|] eqn:En; injection E as <- _; [|apply wsim_refl].
      apply (replaced a _ _ w1 n En); repeat constructor.
    - apply (wsim_trans _ w1); [assumption|]. unfold with_signpost_interval in E. destruct sp; [|injection E as <- _; apply wsim_refl].
      destruct (nth_error (w_heap w1) a) as [n|] eqn:En; injection E as <- _; [|apply wsim_refl]. apply (replaced a _ _ w1 n En); repeat constructor.
  Qed.
  Lemma nth_ext_map {A B} (f : A -> B) (l1 l2 : list A) : (forall a, option_map f (nth_error l1 a) = option_map f (nth_error l2 a)) -> map f l1 = map f l2.
  Proof.
    revert l2. induction l1 as [|x l1 IH]; intros [|y l2] E; [reflexivity|discriminate (E 0)|discriminate (E 0)|].
    specialize (E 0) as E0. cbn in E0. injection E0 as E0. cbn. rewrite E0. f_equal. apply IH. intros a. exact (E (S a)).
  Qed.
  Lemma wsim_data w1 w2 : wsim w1 w2 -> same_data w1 w2.
  Proof.
    intros S. apply nth_ext_map. intros a. specialize (S a). destruct (nth_error (w_heap w1) a), (nth_error (w_heap w2) a); cbn in *; try tauto.
    destruct S as (-> & -> & -> & _). reflexivity.
  Qed.

  Lemma transparent_call sp fuel a X t w1 w2 w1' r1 w2' r2 : wrapped sp w1 w2 ->
    e_call (engine_of fuel) a X t w1 = (w1', r1) -> e_call (engine_of fuel) a X t w2 = (w2', r2) ->
    same_data w1' w2' /\ rsim (fun y1 y2 => fst y1 = fst y2 /\ bsim (snd y1) (snd y2)) r1 r2 /\
    forall y1 b1 y2 b2, r1 = Ok (y1, b1) -> r2 = Ok (y2, b2) -> forall d v1 s1 v2 s2,
      e_back (engine_of fuel) b1 d w1' = (v1, s1) -> e_back (engine_of fuel) b2 d w2' = (v2, s2) -> same_data v1 v2 /\ s1 = s2.
  Proof.
    intros Hw E1 E2. apply wrapped_sim in Hw. destruct (engine_sim fuel) as (EC & EB & _). destruct (EC a X t w1 w2 Hw) as [S R]. rewrite E1, E2 in S, R. cbn in S, R.
    split; [now apply wsim_data|]. split; [exact R|]. intros y1 b1 y2 b2 -> -> d v1 s1 v2 s2 F1 F2. destruct R as [_ Hb].
    destruct (EB b1 b2 d w1' w2' Hb S) as [S' R']. rewrite F1, F2 in S', R'. split; [now apply wsim_data|now apply rsim_eq].
  Qed.
  Lemma transparent_init sp fuel a X Y w1 w2 w1' r1 w2' r2 : wrapped sp w1 w2 ->
    e_init (engine_of fuel) a X Y w1 = (w1', r1) -> e_init (engine_of fuel) a X Y w2 = (w2', r2) -> same_data w1' w2' /\ r1 = r2.
  Proof.
    intros Hw E1 E2. apply wrapped_sim in Hw. destruct (engine_sim fuel) as (_ & _ & EI). destruct (EI a X Y w1 w2 Hw) as [S R]. rewrite E1, E2 in S, R.
    split; [now apply wsim_data|now apply rsim_eq].
  Qed.
End Instr.

(** ** Ranges *)
Section Ranges.
  Context {V P : Type}.
  Notation bcode := (bcode (V := V)).
  Notation world := (world (V := V) (P := P)).
  Variable fwd : nat -> addr -> V -> bool -> prog (V := V) (P := P) (V * bcode).
  Variable bwd : nat -> addr -> list V -> list bcode -> V -> prog (V := V) (P := P) V.
  Variable ini : nat -> addr -> option V -> option V -> prog (V := V) (P := P) unit.
  Variable hook : event (V := V) -> result unit.
  Variable has_cupy : bool.
  Notation engine := (engine (V := V) (P := P)).
  Notation engine_of := (engine_of fwd bwd ini hook has_cupy).
  Hypothesis Hst : all_strict fwd bwd ini.

  Definition tidy {A} (m : world -> world * result A) : Prop :=
    forall w, match m w with (w', Ok _) => w_open w' = w_open w | (w', Err _) => exists o, w_open w' = o ++ w_open w end.
  Definition etidy (e : engine) : Prop := (forall a X t, tidy (e_call e a X t)) /\ (forall b d, tidy (e_back e b d)) /\ (forall a X Y, tidy (e_init e a X Y)).
  Lemma store_open a p (w : world) : w_open (store a p w) = w_open w.
  Proof. unfold store. now destruct (nth_error (w_heap w) a). Qed.
  Lemma tidy_run {A} e (p : prog A) : etidy e -> strict p -> tidy (run e p).
  Proof.
    intros (EC & EB & EI). induction p as [r|a k IH|a p k IH|a X t k IH|b d k IH|a X Y k IH]; cbn [strict]; intros S w; cbn [run].
    - destruct r; [reflexivity|now exists []].
    - apply IH. apply S.
    - specialize (IH S (store a p w)). now rewrite store_open in IH.
    - destruct S as [S1 S2]. specialize (EC a X t w). destruct (e_call e a X t w) as [w1 [x|er]]; [rewrite <- EC; apply IH; auto|]. rewrite S2. exact EC.
    - destruct S as [S1 S2]. specialize (EB b d w). destruct (e_back e b d w) as [w1 [x|er]]; [rewrite <- EB; apply IH; auto|]. rewrite S2. exact EB.
    - destruct S as [S1 S2]. specialize (EI a X Y w). destruct (e_init e a X Y w) as [w1 [x|er]]; [rewrite <- EI; apply IH; auto|]. rewrite S2. exact EI.
  Qed.
  Lemma tidy_range {A} s (m : world -> world * result A) : tidy m -> tidy (in_range has_cupy s m).
  Proof.
    intros Hm w. unfold in_range. destruct has_cupy; [|apply Hm]. specialize (Hm (with_open w (s :: w_open w))). destruct (m _) as [w' [x|e]]; cbn in *.
    - now rewrite Hm.
    - destruct Hm as [o ->]. exists (o ++ [s])%list. now rewrite <- app_assoc.
  Qed.
  Lemma tidy_f e c : etidy e -> forall m X t, tidy (apply_f fwd hook has_cupy e c m X t).
  Proof.
    intros He. induction c as [k|l h c IH|s c IH|s c IH]; intros m X t.
    - apply tidy_run; [assumption|apply (proj1 Hst)].
    - intros w. cbn [apply_f]. unfold observe. destruct (hook _); [|now exists []].
      specialize (IH l X t {| w_heap := w_heap w; w_open := w_open w; w_log := OnForward h m X t :: w_log w |}). destruct (apply_f _ _ _ e c l X t _) as [w' [[Y b]|]]; exact IH.
    - intros w. cbn [apply_f]. pose proof (tidy_range (s ++ " forward") _ (IH m X t) w) as Hr. destruct (in_range _ _ _ w) as [w' [[Y b]|]]; exact Hr.
    - intros w. cbn [apply_f]. specialize (IH m X t w). destruct (apply_f _ _ _ e c m X t _) as [w' [[Y b]|]]; exact IH.
  Qed.
  Lemma tidy_b e b : etidy e -> forall d, tidy (apply_b bwd hook has_cupy e b d).
  Proof.
    intros He. induction b as [k m saved subs|h b IH|s b IH|s b IH]; intros d.
    - apply tidy_run; [assumption|apply (proj1 (proj2 Hst))].
    - intros w. cbn [apply_b]. unfold observe. destruct (hook _); [|now exists []]. exact (IH d (mkW (w_heap w) (w_open w) (_ :: w_log w))).
    - apply tidy_range, IH.
    - apply IH.
  Qed.
  Lemma tidy_i e n : etidy e -> forall c, icode_size c < n -> forall m X Y, tidy (apply_i ini hook e c m X Y).
  Proof.
    intros He. induction n as [|n IH]; intros c Hn m X Y; [lia|]. destruct c as [k|l h o|l o|l s o].
    - apply tidy_run; [assumption|apply (proj2 (proj2 Hst))].
    - intros w. cbn [apply_i]. unfold observe. destruct (hook _); [|now exists []]. destruct o as [c|]; [|reflexivity]. cbn in Hn.
      exact (IH c ltac:(lia) l X Y (mkW (w_heap w) (w_open w) (_ :: w_log w))).
    - intros w. cbn [apply_i]. destruct o as [c|]; [|reflexivity]. cbn in Hn. apply IH. lia.
    - intros w. cbn [apply_i]. destruct o as [c|]; [|reflexivity]. cbn in Hn. apply IH. lia.
  Qed.
  Lemma tidy_engine fuel : etidy (engine_of fuel).
  Proof.
    induction fuel as [|fuel IH]; cbn [InstrModel.engine_of].
    - repeat split; intros; intros w; now exists [].
    - split; [|split]; cbn.
      + intros a X t w. destruct (nth_error (w_heap w) a); [now apply tidy_f|now exists []].
      + intros. now apply tidy_b.
      + intros a X Y w. destruct (nth_error (w_heap w) a) as [n|]; [|now exists []]. destruct (o_init n) as [c|]; [|reflexivity]. apply (tidy_i _ (S (icode_size c)) IH). lia.
  Qed.
  Lemma ranges_call fuel a X t w w' r : e_call (engine_of fuel) a X t w = (w', r) ->
    (exists o, w_open w' = o ++ w_open w) /\ (forall y, r = Ok y -> w_open w' = w_open w).
  Proof.
    intros E. pose proof (proj1 (tidy_engine fuel) a X t w) as R. rewrite E in R. destruct r; split; intros; try discriminate; auto. now exists [].
  Qed.
  Lemma ranges_back fuel b d w w' r : e_back (engine_of fuel) b d w = (w', r) ->
    (exists o, w_open w' = o ++ w_open w) /\ (forall y, r = Ok y -> w_open w' = w_open w).
  Proof.
    intros E. pose proof (proj1 (proj2 (tidy_engine fuel)) b d w) as R. rewrite E in R. destruct r; split; intros; try discriminate; auto. now exists [].
  Qed.
End Ranges.

(** ** Copies *)
Lemma copied {V P} a layers (w w1 : world (V := V) (P := P)) c n : nth_error (w_heap w) a = Some n -> copy_node a layers w = (w1, Ok c) ->
  nth_error (w_heap w1) a = Some n /\ nth_error (w_heap w1) c = Some (mkO (o_name n) (o_func n) (o_init n) layers (o_data n)).
Proof.
  intros E. unfold copy_node. rewrite E. intros [= <- <-]. cbn [w_heap]. split.
  - rewrite nth_error_app1; [exact E|]. apply nth_error_Some. congruence.
  - rewrite nth_error_app2 by lia. now rewrite Nat.sub_diag.
Qed.
Section Copies.
  Context {V P : Type}.
  Notation bcode := (bcode (V := V)).
  Notation world := (world (V := V) (P := P)).
  Variable fwd : nat -> addr -> V -> bool -> prog (V := V) (P := P) (V * bcode).
  Variable bwd : nat -> addr -> list V -> list bcode -> V -> prog (V := V) (P := P) V.
  Variable ini : nat -> addr -> option V -> option V -> prog (V := V) (P := P) unit.
  Variable hook : event (V := V) -> result unit.
  Variable has_cupy : bool.
  Notation engine := (engine (V := V) (P := P)).
  Notation engine_of := (engine_of fwd bwd ini hook has_cupy).
  Notation apply_f := (apply_f fwd hook has_cupy).
  Notation apply_b := (apply_b bwd hook has_cupy).
  Notation apply_i := (apply_i ini hook).

  Definition eqw (w1 w2 : world) : Prop := w_heap w1 = w_heap w2 /\ w_open w1 = w_open w2.
  Definition logless {A} (m : world -> world * result A) : Prop :=
    forall w1 w2, eqw w1 w2 -> eqw (fst (m w1)) (fst (m w2)) /\ snd (m w1) = snd (m w2).
  Definition elogless (e : engine) : Prop := (forall a X t, logless (e_call e a X t)) /\ (forall b d, logless (e_back e b d)) /\ (forall a X Y, logless (e_init e a X Y)).
  Lemma logless_run {A} e (p : prog A) : elogless e -> logless (run e p).
  Proof.
    intros (EC & EB & EI). induction p as [r|a k IH|a p k IH|a X t k IH|b d k IH|a X Y k IH]; intros w1 w2 Hw; cbn [run].
    - now split.
    - rewrite (proj1 Hw). now apply IH.
    - apply IH. destruct Hw as [H1 H2]. unfold store. rewrite <- H1. destruct (nth_error (w_heap w1) a); split; cbn; congruence.
    - destruct (EC a X t w1 w2 Hw) as [S R]. destruct (e_call e a X t w1), (e_call e a X t w2). cbn in S, R. subst. now apply IH.
    - destruct (EB b d w1 w2 Hw) as [S R]. destruct (e_back e b d w1), (e_back e b d w2). cbn in S, R. subst. now apply IH.
    - destruct (EI a X Y w1 w2 Hw) as [S R]. destruct (e_init e a X Y w1), (e_init e a X Y w2). cbn in S, R. subst. now apply IH.
  Qed.
  Lemma logless_range {A} s (m : world -> world * result A) : logless m -> logless (in_range has_cupy s m).
  Proof.
    intros Hm w1 w2 [H1 H2]. unfold in_range. destruct has_cupy; [|now apply Hm].
    assert (Hw : eqw (with_open w1 (s :: w_open w1)) (with_open w2 (s :: w_open w2))) by (split; cbn; congruence).
    destruct (Hm _ _ Hw) as [[S1 S2] R]. destruct (m _) as [w1' [x1|]], (m _) as [w2' [x2|]]; cbn in *; try discriminate; repeat split; cbn; congruence.
  Qed.
  Lemma eqw_observe ev w1 w2 : eqw w1 w2 -> eqw (fst (observe hook ev w1)) (fst (observe hook ev w2)).
  Proof. intros H. exact H. Qed.
  Lemma logless_f e c : elogless e -> forall m X t, logless (apply_f e c m X t).
  Proof.
    intros He. induction c as [k|l h c IH|s c IH|s c IH]; intros m X t.
    - now apply logless_run.
    - intros w1 w2 Hw. cbn [InstrModel.apply_f]. unfold observe. destruct (hook _); [|now split].
      destruct (IH l X t _ _ (eqw_observe (OnForward h m X t) _ _ Hw)) as [S R]. unfold observe in S, R. cbn [fst] in S, R.
      destruct (apply_f e c l X t _) as [w1' [[Y1 b1]|]], (apply_f e c l X t _) as [w2' [[Y2 b2]|]]; cbn in *; try discriminate; split; auto; congruence.
    - intros w1 w2 Hw. cbn [InstrModel.apply_f]. destruct (logless_range (s ++ " forward") _ (IH m X t) w1 w2 Hw) as [S R].
      destruct (in_range _ _ _ w1) as [w1' [[Y1 b1]|]], (in_range _ _ _ w2) as [w2' [[Y2 b2]|]]; cbn in *; try discriminate; split; auto; congruence.
    - intros w1 w2 Hw. cbn [InstrModel.apply_f]. destruct (IH m X t w1 w2 Hw) as [S R].
      destruct (apply_f e c m X t w1) as [w1' [[Y1 b1]|]], (apply_f e c m X t w2) as [w2' [[Y2 b2]|]]; cbn in *; try discriminate; split; auto; congruence.
  Qed.
  Lemma logless_b e b : elogless e -> forall d, logless (apply_b e b d).
  Proof.
    intros He. induction b as [k m saved subs|h b IH|s b IH|s b IH]; intros d.
    - now apply logless_run.
    - intros w1 w2 Hw. cbn [InstrModel.apply_b]. unfold observe. destruct (hook _); [|now split]. exact (IH d _ _ (eqw_observe (OnBackprop h d) _ _ Hw)).
    - apply logless_range, IH.
    - apply IH.
  Qed.
  Lemma logless_i e n : elogless e -> forall c, icode_size c < n -> forall m X Y, logless (apply_i e c m X Y).
  Proof.
    intros He. induction n as [|n IH]; intros c Hn m X Y; [lia|]. destruct c as [k|l h o|l o|l s o].
    - now apply logless_run.
    - intros w1 w2 Hw. cbn [InstrModel.apply_i]. unfold observe. destruct (hook _); [|now split]. destruct o as [c|]; [|now split]. cbn in Hn.
      exact (IH c ltac:(lia) l X Y _ _ (eqw_observe (OnInit h m X Y) _ _ Hw)).
    - intros w1 w2 Hw. cbn [InstrModel.apply_i]. destruct o as [c|]; [|now split]. cbn in Hn. apply IH; [lia|assumption].
    - intros w1 w2 Hw. cbn [InstrModel.apply_i]. destruct o as [c|]; [|now split]. cbn in Hn. apply IH; [lia|assumption].
  Qed.
  Lemma logless_engine fuel : elogless (engine_of fuel).
  Proof.
    induction fuel as [|fuel IH]; cbn [InstrModel.engine_of].
    - repeat split; cbn; apply H.
    - split; [|split]; cbn.
      + intros a X t w1 w2 Hw. cbn beta. rewrite (proj1 Hw). destruct (nth_error (w_heap w2) a); [now apply logless_f|now split].
      + intros. now apply logless_b.
      + intros a X Y w1 w2 Hw. cbn beta. rewrite (proj1 Hw). destruct (nth_error (w_heap w2) a) as [n|]; [|now split]. destruct (o_init n) as [c|]; [|now split].
        apply (logless_i _ (S (icode_size c)) IH); [lia|assumption].
  Qed.

  Hypothesis Hhook : forall ev, hook ev = Ok tt.
  (** whatever has happened since: [w] is any later world in which the functions of the two nodes are still those *)
  Lemma copy_calls_original fuel a c h f na nc X t (w : world) : nth_error (w_heap w) a = Some na -> nth_error (w_heap w) c = Some nc ->
    o_func na = FDebug a h f -> o_func nc = FDebug a h f ->
    w_heap (fst (e_call (engine_of fuel) c X t w)) = w_heap (fst (e_call (engine_of fuel) a X t w)) /\ snd (e_call (engine_of fuel) c X t w) = snd (e_call (engine_of fuel) a X t w).
  Proof.
    intros Ea Ec Fa Fc. destruct fuel as [|fuel]; [now split|]. cbn. rewrite Ea, Ec, Fa, Fc. cbn [InstrModel.apply_f]. unfold observe. rewrite !Hhook.
    assert (Hw : eqw (mkW (w_heap w) (w_open w) (OnForward h c X t :: w_log w)) (mkW (w_heap w) (w_open w) (OnForward h a X t :: w_log w))) by now split.
    destruct (logless_f _ f (logless_engine fuel) a X t _ _ Hw) as [[S _] R].
    destruct (apply_f _ f a X t _) as [w1' [[Y1 b1]|]], (apply_f _ f a X t _) as [w2' [[Y2 b2]|]]; cbn in *; try discriminate; split; auto; congruence.
  Qed.
  Lemma copy_inits_original fuel a c i na nc X Y (w : world) : nth_error (w_heap w) a = Some na -> nth_error (w_heap w) c = Some nc ->
    o_init na = Some i -> o_init nc = Some i -> made_for a i ->
    w_heap (fst (e_init (engine_of fuel) c X Y w)) = w_heap (fst (e_init (engine_of fuel) a X Y w)) /\ snd (e_init (engine_of fuel) c X Y w) = snd (e_init (engine_of fuel) a X Y w).
  Proof.
    intros Ea Ec Fa Fc Hi. destruct fuel as [|fuel]; [now split|]. cbn. rewrite Ea, Ec, Fa, Fc. destruct i as [k|l h o|l o|l s o]; cbn in Hi; [destruct Hi|subst l..].
    - cbn [InstrModel.apply_i]. unfold observe. rewrite !Hhook. destruct o as [o|]; [|now split].
      assert (Hw : eqw (mkW (w_heap w) (w_open w) (OnInit h c X Y :: w_log w)) (mkW (w_heap w) (w_open w) (OnInit h a X Y :: w_log w))) by now split.
      destruct (logless_i _ (S (icode_size o)) (logless_engine fuel) o ltac:(lia) a X Y _ _ Hw) as [[S _] R]. now split.
    - now split.
    - now split.
  Qed.
End Copies.

(** ** Hooks that raise *)
Section Hooks.
  Context {V P : Type}.
  Notation bcode := (bcode (V := V)).
  Notation world := (world (V := V) (P := P)).
  Variable fwd : nat -> addr -> V -> bool -> prog (V := V) (P := P) (V * bcode).
  Variable bwd : nat -> addr -> list V -> list bcode -> V -> prog (V := V) (P := P) V.
  Variable ini : nat -> addr -> option V -> option V -> prog (V := V) (P := P) unit.
  Variable hook : event (V := V) -> result unit.
  Variable has_cupy : bool.
  Notation engine_of := (engine_of fwd bwd ini hook has_cupy).
  Lemma hook_raises fuel a h X t (w w1 : world) e : with_debug a h w = (w1, Ok a) -> hook (OnForward h a X t) = Err e ->
    e_call (engine_of (S fuel)) a X t w1 = (mkW (w_heap w1) (w_open w1) (OnForward h a X t :: w_log w1), Err e).
  Proof.
    unfold with_debug, replace_callbacks. destruct (nth_error (w_heap w) a) as [n|] eqn:E; [|discriminate]. intros [= <-] Hh. cbn.
    rewrite nth_error_set_nth_eq by (apply nth_error_Some; congruence). cbn. now rewrite Hh.
  Qed.
  Lemma hook_first fuel a h X t (w w1 : world) w2 r : with_debug a h w = (w1, Ok a) -> hook (OnForward h a X t) = Ok tt ->
    e_call (engine_of (S fuel)) a X t w1 = (w2, Ok r) -> exists b, snd r = BDebug h b /\
      forall fuel d w3, e_back (engine_of (S fuel)) (snd r) d w3 =
        match hook (OnBackprop h d) with
        | Ok _ => e_back (engine_of (S fuel)) b d (mkW (w_heap w3) (w_open w3) (OnBackprop h d :: w_log w3))
        | Err e => (mkW (w_heap w3) (w_open w3) (OnBackprop h d :: w_log w3), Err e)
        end.
  Proof.
    unfold with_debug, replace_callbacks. destruct (nth_error (w_heap w) a) as [n|] eqn:E; [|discriminate]. intros [= <-] Hh. cbn.
    rewrite nth_error_set_nth_eq by (apply nth_error_Some; congruence). cbn. rewrite Hh. destruct (apply_f _ _ _ _ _ _ _ _ _) as [w3 [[Y b]|]]; intros [= <- <-].
    exists b. split; [reflexivity|]. intros fuel' d w4. cbn. now destruct (hook (OnBackprop h d)).
  Qed.
End Hooks.

(** ** Counterexamples *)
Local Notation toy := (engine_of toy_fwd toy_bwd toy_ini no_hook true).
Lemma copy_refuted : exists w w1 w2 : world (V := Z) (P := Z * Z),
  with_debug 1 0 toy_world = (w, Ok 1) /\ copy_node 1 [] w = (w1, Ok 3) /\ w2 = store 3 (5, 0)%Z w1 /\
  snd (predict toy_fwd toy_bwd toy_ini no_hook true 1 3 10%Z w2) = Ok 20%Z /\
  exists w3 b, e_call (toy 1) 3 10%Z true w2 = (w3, Ok (20%Z, b)) /\
    option_map o_data (nth_error (w_heap (fst (e_back (toy 1) b 1%Z w3))) 1) = Some (2, 10)%Z /\ option_map o_data (nth_error (w_heap (fst (e_back (toy 1) b 1%Z w3))) 3) = Some (5, 0)%Z.
Proof. eexists. eexists. eexists. split; [reflexivity|]. split; [reflexivity|]. split; [reflexivity|]. split; [reflexivity|]. eexists. eexists. split; [reflexivity|]. split; reflexivity. Qed.
Lemma copy_init_refuted : exists w w1 : world (V := Z) (P := Z * Z),
  with_nvtx_range 1 None toy_world = (w, Ok 1) /\ copy_node 1 [] w = (w1, Ok 3) /\
  exists w2, e_init (toy 1) 3 None None w1 = (w2, Ok tt) /\
    option_map o_data (nth_error (w_heap w2) 3) = Some (2, 0)%Z /\ option_map o_data (nth_error (w_heap w2) 1) = Some (7, 0)%Z.
Proof. eexists. eexists. split; [reflexivity|]. split; [reflexivity|]. eexists. split; [reflexivity|]. split; reflexivity. Qed.
Lemma range_left_open : exists (w w' : world (V := Z) (P := Z * Z)) e,
  with_nvtx_range 0 None (mkW [mkO "layer" (FPlain 9) None [] (0, 0)%Z] [] []) = (w, Ok 0) /\ w_open w = [] /\
  e_call (toy 1) 0 10%Z true w = (w', Err e) /\ w_open w' = ["layer forward"%string].
Proof. eexists. eexists. eexists. split; [reflexivity|]. split; [reflexivity|]. split; reflexivity. Qed.

Lemma toy_opaque : opaque toy_fwd toy_bwd toy_ini.
Proof.
  split; [|split].
  - intros [|[|k]] a X t; cbn; constructor.
    + intros [[ls [w g]]|]; constructor; cbn; [|reflexivity]. split; [reflexivity|]. repeat constructor.
    + intros [[[|l1 [|l2 [|l3 ls]]] p]|]; try (constructor; reflexivity). constructor. intros [[Y b1]|e] [[Y2 b1']|e']; cbn; try tauto; [|intros <-; constructor; reflexivity].
      intros [HY Hb]. cbn in HY, Hb. subst Y2. constructor. intros [[Z b2]|e] [[Z2 b2']|e']; cbn; try tauto; [|intros <-; constructor; reflexivity].
      intros [HZ Hb2]. cbn in HZ, Hb2. subst. constructor. split; [reflexivity|]. repeat (constructor; try assumption).
    + reflexivity.
  - intros k a saved l1 l2 d Hl. destruct k as [|[|k]]; cbn.
    + destruct saved as [|x [|]]; try (constructor; reflexivity). constructor. intros [[ls [w g]]|]; repeat constructor.
    + destruct Hl as [|b1 b1' l1 l2 Hb Hl]; [constructor; reflexivity|]. destruct Hl as [|b2 b2' l1 l2 Hb2 Hl]; [constructor; reflexivity|].
      destruct Hl as [|b3 b3' l1 l2 Hb3 Hl]; [|constructor; reflexivity]. constructor; [assumption|]. intros [x|e]; [|constructor; reflexivity]. constructor; [assumption|]. intros [y|e]; constructor; reflexivity.
    + constructor; reflexivity.
  - intros [|k] a X Y; cbn; constructor; [constructor; reflexivity|].
    intros [[[|l1 [|l2 [|l3 ls]]] p]|]; try (constructor; reflexivity). constructor. intros [x|e]; [|constructor; reflexivity]. constructor. intros [y|e]; constructor; reflexivity.
Qed.
Lemma toy_strict : all_strict toy_fwd toy_bwd toy_ini.
Proof.
  split; [|split].
  - intros [|[|k]] a X t; cbn; [| |exact I]; intros [[[|l1 [|l2 [|l3 ls]]] [w g]]|]; try exact I. cbn. split; [|reflexivity]. intros [Y b]. cbn. split; [|reflexivity]. intros [Z b2]. exact I.
  - intros k a saved l d. destruct k as [|[|k]]; cbn; [| |exact I].
    + destruct saved as [|x [|]]; cbn; try exact I. intros [[ls [w g]]|]; exact I.
    + destruct l as [|b1 [|b2 [|]]]; try (destruct saved as [|x [|]]; exact I). assert (S : strict (Back b2 d (fun r => match r with Ok d => Back b1 d (fun r => Done r) | Err e => Done (Err e) end) : prog (V := Z) (P := Z * Z) Z)).
      { cbn. split; [|reflexivity]. intros x. cbn. now split. }
      destruct saved as [|x [|]]; exact S.
  - intros [|k] a X Y; cbn; [exact I|]. intros [[[|l1 [|l2 [|l3 ls]]] p]|]; try exact I. cbn. split; [|reflexivity]. intros x. cbn. now split.
Qed.

(** ** What the wrappers change, and when they refuse *)
Lemma wrapper_changes V P a name w w1 n : nth_error (w_heap (V := V) (P := P) w) a = Some n ->
  (with_nvtx_range a name w = (w1, Ok a) \/ with_signpost_interval true a name w = (w1, Ok a) \/ (exists h, with_debug a h w = (w1, Ok a))) ->
  length (w_heap w1) = length (w_heap w) /\ w_open w1 = w_open w /\ w_log w1 = w_log w /\
  (forall b, b <> a -> nth_error (w_heap w1) b = nth_error (w_heap w) b) /\
  exists f i, nth_error (w_heap w1) a = Some (mkO (o_name n) f (Some i) (o_layers n) (o_data n)).
Proof.
  intros Hn H.
  assert (L : a < length (w_heap w)) by (apply nth_error_Some; rewrite Hn; discriminate).
  assert (G : forall f i, w1 = mkW (set_nth a (mkO (o_name n) f (Some i) (o_layers n) (o_data n)) (w_heap w)) (w_open w) (w_log w) ->
    length (w_heap w1) = length (w_heap w) /\ w_open w1 = w_open w /\ w_log w1 = w_log w /\
    (forall b, b <> a -> nth_error (w_heap w1) b = nth_error (w_heap w) b) /\
    exists f i, nth_error (w_heap w1) a = Some (mkO (o_name n) f (Some i) (o_layers n) (o_data n))).
  { intros f i ->. cbn [w_heap w_open w_log]. rewrite set_nth_length. do 3 (split; [reflexivity|]). split.
    - intros b Hb. apply nth_error_set_nth_neq. congruence.
    - exists f, i. apply nth_error_set_nth_eq. exact L. }
  destruct H as [H|[H|[h H]]]; unfold with_nvtx_range, with_signpost_interval, with_debug, replace_callbacks in H; rewrite Hn in H; injection H as H; eapply G; symmetry; exact H.
Qed.
Lemma no_signpost V P a name (w : world (V := V) (P := P)) : with_signpost_interval false a name w = (w, Err ValueError).
Proof. reflexivity. Qed.
