(** Proofs about the construction of wrapped PyTorch models. *)
From Coq Require Import String ZArith List Bool Permutation Lia.
From Verif Require Import DictFacts DeviceModel TorchBuildModel TorchBuildSpec.
Import ListNotations.
Local Open Scope string_scope.
Set Default Goal Selector "!".

Section P.
  Context {V B : Type} (k : machine).
  Implicit Types s : tst V.
  Lemma andthen_ok : forall A C (m : @tact V A) (f : A -> @tact V C) s s' y, andthen m f s = (s', Ok y) -> exists s1 x, m s = (s1, Ok x) /\ f x s1 = (s', Ok y).
  Proof. intros A C m f s s' y H. unfold andthen in H. destruct (m s) as [s1 [x|e]]; [exists s1, x; split; [reflexivity | exact H] | discriminate H]. Qed.
  Lemma andthen_err : forall A C (m : @tact V A) (f : A -> @tact V C) s s' e, m s = (s', Err e) -> andthen m f s = (s', Err e).
  Proof. intros A C m f s s' e H. unfold andthen. rewrite H. reflexivity. Qed.
  Lemma andthen_step : forall A C (m : @tact V A) (f : A -> @tact V C) s s' x, m s = (s', Ok x) -> andthen m f s = f x s'.
  Proof. intros A C m f s s' e H. unfold andthen. rewrite H. reflexivity. Qed.

  Lemma set_at_same : forall A (l : list A) i x, i < length l -> nth_error (set_at l i x) i = Some x.
  Proof. intros A l. induction l as [|y l IH]; intros [|i] x H; cbn in *; try lia; [reflexivity | apply IH; lia]. Qed.
  Lemma set_at_other : forall A (l : list A) i j x, i <> j -> nth_error (set_at l i x) j = nth_error l j.
  Proof. intros A l. induction l as [|y l IH]; intros [|i] [|j] x H; cbn; try reflexivity; [lia | apply IH; lia]. Qed.
  Lemma set_at_length : forall A (l : list A) i x, length (set_at l i x) = length l.
  Proof. intros A l. induction l as [|y l IH]; intros [|i] x; cbn; try reflexivity. rewrite IH. reflexivity. Qed.
  Lemma set_at_changed : forall A (l : list A) i f x, nth_error l i = Some x -> changed_at (Some i) f l (set_at l i (f x)).
  Proof.
    intros A l i f x H. split; [apply set_at_length|]. intros j y Hj. destruct (Nat.eqb_spec i j) as [<-|Hne].
    - rewrite set_at_same; [congruence|]. apply nth_error_Some. congruence.
    - rewrite set_at_other by exact Hne. exact Hj.
  Qed.
  Lemma changed_none : forall A (f : A -> A) l, changed_at None f l l.
  Proof. intros A f l. split; [reflexivity | intros j x H; exact H]. Qed.
  Lemma set_at_end : forall A (l : list A) x y, set_at (l ++ [x]) (length l) y = (l ++ [y])%list.
  Proof. intros A l. induction l as [|z l IH]; intros x y; cbn; [reflexivity | rewrite IH; reflexivity]. Qed.

  (** Only the frameworks' state changes *)
  Definition same_objects (s s' : tst V) : Prop := t_id s' = t_id s /\ t_modules s' = t_modules s /\ t_scalers s' = t_scalers s /\ t_shims s' = t_shims s.
  Lemma same_refl : forall s, same_objects s s.
  Proof. intro s. repeat split. Qed.
  Lemma on_sys_same : forall A (f : sys -> sys * result A) s s' r, on_sys f s = (s', r) -> same_objects s s' /\ f (t_sys s) = (t_sys s', r).
  Proof. intros A f s s' r H. unfold on_sys in H. destruct (f (t_sys s)) as [y x] eqn:E. injection H as <- <-. split; [repeat split | reflexivity]. Qed.
  Lemma memory_same : forall s s' r, pytorch_memory k s = (s', r) -> same_objects s s'.
  Proof.
    intros s s' r H. unfold pytorch_memory in H. destruct (has_cupy k); [|injection H as <- <-; apply same_refl]. unfold andthen in H.
    destruct (on_sys _ s) as [s1 [o|e]] eqn:E; apply on_sys_same in E; destruct E as [E1 _].
    - destruct (Nat.eqb o cupy_ops); [|injection H as <- <-; exact E1]. destruct (dmem _ _); [injection H as <- <-; exact E1|].
      apply on_sys_same in H. destruct H as [[H1 [H2 [H3 H4]]] _]. destruct E1 as [E1 [E2 [E3 E4]]]. repeat split; congruence.
    - injection H as <- <-. exact E1.
  Qed.
  Lemma device_same : forall s device s' r, match device with Some d => ret d | None => default_device k end s = (s', r) ->
    same_objects s s' /\ match r with Ok d => device_of k s device d | Err _ => True end.
  Proof.
    intros s device s' r H. destruct device as [d|].
    - injection H as <- <-. split; [apply same_refl | left; reflexivity].
    - apply on_sys_same in H. destruct H as [H1 H2]. split; [exact H1|]. destruct r as [d|e]; [|exact I]. right. split; [reflexivity|]. rewrite H2. reflexivity.
  Qed.

  Lemma move_module_cases : forall a d s s' r, move_module k a d s = (s', r) ->
    (exists m, nth_error (t_modules s) a = Some m /\ r = Ok tt /\ m_class m <> NotModule /\ (m_params m <> [] -> there k d = true) /\ t_id s' = t_id s /\ t_scalers s' = t_scalers s /\ t_shims s' = t_shims s /\ t_sys s' = t_sys s /\ changed_at (Some a) (placed d) (t_modules s) (t_modules s')) \/
    (s' = s /\ exists e, r = Err e).
  Proof.
    intros a d s s' r H. unfold move_module, andthen, module_at in H. destruct (nth_error (t_modules s) a) as [m|] eqn:E; [|right; injection H as <- <-; split; [reflexivity | eexists; reflexivity]].
    destruct m as [c ps]. cbn [m_class m_params] in H. destruct c.
    - right. injection H as <- <-. split; [reflexivity | eexists; reflexivity].
    - destruct ps as [|p ps].
      + left. injection H as <- <-. exists (mkMod NnModule []). repeat split; try exact E; try discriminate; [intro F; destruct (F eq_refl)|]. intros j x Hj. destruct (Nat.eqb_spec a j) as [<-|]; [|exact Hj]. rewrite Hj in E. injection E as ->. exact Hj.
      + destruct (there k d) eqn:Et.
        * left. injection H as <- <-. exists (mkMod NnModule (p :: ps)). split; [reflexivity|]. split; [reflexivity|]. split; [discriminate|]. split; [reflexivity|]. cbn. repeat split; try (apply set_at_length). exact (proj2 (set_at_changed _ _ _ (placed d) _ E)).
        * right. injection H as <- <-. split; [reflexivity | eexists; reflexivity].
    - destruct ps as [|p ps].
      + left. injection H as <- <-. exists (mkMod ScriptModule []). repeat split; try exact E; try discriminate; [intro F; destruct (F eq_refl)|]. intros j x Hj. destruct (Nat.eqb_spec a j) as [<-|]; [|exact Hj]. rewrite Hj in E. injection E as ->. exact Hj.
      + destruct (there k d) eqn:Et.
        * left. injection H as <- <-. exists (mkMod ScriptModule (p :: ps)). split; [reflexivity|]. split; [reflexivity|]. split; [discriminate|]. split; [reflexivity|]. cbn. repeat split; try (apply set_at_length). exact (proj2 (set_at_changed _ _ _ (placed d) _ E)).
        * right. injection H as <- <-. split; [reflexivity | eexists; reflexivity].
  Qed.
  Lemma move_scaler_cases : forall g d s s' r, move_scaler k g d s = (s', r) ->
    (exists x, nth_error (t_scalers s) g = Some x /\ r = Ok tt /\ there k d = true /\ s' = mkTst (t_sys s) (t_id s) (t_modules s) (set_at (t_scalers s) g (mkGs (gs_enabled x) (gs_config x) d)) (t_shims s)) \/ (s' = s /\ exists e, r = Err e).
  Proof.
    intros g d s s' r H. unfold move_scaler, andthen, scaler_at in H. destruct (nth_error (t_scalers s) g) as [x|] eqn:E; [|right; injection H as <- <-; split; [reflexivity | eexists; reflexivity]].
    destruct (there k d) eqn:Et; [left; exists x; injection H as <- <-; repeat split | right; injection H as <- <-; split; [reflexivity | eexists; reflexivity]].
  Qed.

  Lemma shim_built : forall script model config optimizer mixed grad_scaler device ser deser s s' a,
    pytorch_shim k script model config optimizer mixed grad_scaler device ser deser s = (s', Ok a) ->
    built k s s' a script model match config with Some c => c | None => [] end optimizer mixed grad_scaler device match ser with Some f => f | None => DefaultFn end match deser with Some f => f | None => DefaultFn end.
  Proof.
    intros script model config optimizer mixed grad_scaler device ser deser s s' a H. unfold pytorch_shim in H.
    apply andthen_ok in H. destruct H as [s1 [id [H1 H]]]. injection H1 as <- <-.
    apply andthen_ok in H. destruct H as [s2 [d [H2 H]]]. apply device_same in H2. destruct H2 as [[A1 [A2 [A3 A4]]] Hd]. cbn in A1, A2, A3, A4.
    assert (Hd' : device_of k s device d). { destruct Hd as [->|[-> Hd]]; [left; reflexivity | right; split; [reflexivity | exact Hd]]. }
    apply andthen_ok in H. destruct H as [s3 [u [H3 H]]].
    assert (M : t_id s3 = S (t_id s) /\ t_scalers s3 = t_scalers s /\ t_shims s3 = t_shims s /\ changed_at model (placed d) (t_modules s) (t_modules s3)).
    { destruct model as [i|].
      - apply move_module_cases in H3. destruct H3 as [[m [_ [_ [_ [_ [E1 [E2 [E3 [_ E4]]]]]]]]]|[_ [e He]]]; [|discriminate He]. rewrite A2 in E4. repeat split; try congruence; apply E4.
      - injection H3 as <- <-. rewrite A2. repeat split; try congruence; try tauto. }
    destruct M as [M1 [M2 [M3 M4]]]. clear H3.
    apply andthen_ok in H. destruct H as [s4 [g [H4 H]]]. apply andthen_ok in H. destruct H as [s5 [u' [H5 H]]]. apply andthen_ok in H. destruct H as [s6 [u'' [H6 H]]].
    apply memory_same in H6. destruct H6 as [C1 [C2 [C3 C4]]]. injection H as <- <-.
    apply move_scaler_cases in H5. destruct H5 as [[x [X1 [_ [X2 X3]]]]|[_ [e He]]]; [|discriminate He]. subst s5. cbn [t_id t_modules t_scalers t_shims t_sys] in *.
    exists d. eexists. split; [exact Hd'|]. destruct grad_scaler as [g0|].
    - injection H4 as <- <-. cbn. rewrite C1, C2, C3, C4, M1, M3. repeat split; try (apply M4); rewrite ?M2; try apply set_at_length.
      rewrite M2 in X1. exact (proj2 (set_at_changed _ _ _ (fun x => mkGs (gs_enabled x) (gs_config x) d) _ X1)).
    - injection H4 as <- <-. cbn in *. rewrite C1, C2, C3, C4, M1, M3, M2. rewrite M2 in X1. rewrite nth_error_app2, Nat.sub_diag in X1 by lia. injection X1 as <-. rewrite set_at_end. repeat split; apply M4.
  Qed.

  Lemma memory_quiet : forall s, no_cupy k s -> pytorch_memory k s = (s, Ok tt).
  Proof.
    intros s H. unfold pytorch_memory. destruct H as [H|[o [H1 H2]]]; [rewrite H; reflexivity|]. destruct (has_cupy k); [|reflexivity].
    unfold andthen, on_sys, get_current_ops. rewrite H1. destruct (Nat.eqb_spec o cupy_ops) as [->|_]; [destruct (H2 eq_refl)|].
    destruct s as [[c cu t p ma ml] i m g h]. destruct c. reflexivity.
  Qed.
  Lemma shim_succeeds : forall script model config optimizer mixed grad_scaler d ser deser s, no_cupy k s -> there k d = true ->
    (forall i, model = Some i -> exists m, nth_error (t_modules s) i = Some m /\ m_class m <> NotModule) -> (forall g, grad_scaler = Some g -> g < length (t_scalers s)) ->
    exists s' a, pytorch_shim k script model config optimizer mixed grad_scaler (Some d) ser deser s = (s', Ok a).
  Proof.
    intros script model config optimizer mixed grad_scaler d ser deser s Hc Hd Hm Hg. unfold pytorch_shim. erewrite andthen_step by reflexivity. erewrite andthen_step by reflexivity.
    set (s1 := mkTst (t_sys s) (S (t_id s)) (t_modules s) (t_scalers s) (t_shims s)).
    assert (M : exists s2, match model with Some a => move_module k a d | None => ret tt end s1 = (s2, Ok tt) /\ t_scalers s2 = t_scalers s /\ t_sys s2 = t_sys s).
    { destruct model as [i|]; [|exists s1; repeat split]. destruct (Hm i eq_refl) as [m [E1 E2]]. destruct (move_module k i d s1) as [s2 r] eqn:E. assert (E' := E). apply move_module_cases in E'.
      destruct E' as [[m' [_ [-> [_ [_ [_ [F1 [_ [F2 _]]]]]]]]]|[_ [e ->]]].
      - exists s2. repeat split; assumption.
      - exfalso. unfold move_module, andthen, module_at in E. cbn in E. rewrite E1 in E. destruct m as [[] ps]; cbn in E, E2; try (destruct (E2 eq_refl)); destruct ps; try discriminate; rewrite Hd in E; discriminate. }
    destruct M as [s2 [M1 [M2 M3]]]. erewrite andthen_step by exact M1.
    assert (G : forall s3 g, no_cupy k s3 -> g < length (t_scalers s3) -> forall f, exists s' a, andthen (move_scaler k g d) (fun _ => andthen (pytorch_memory k) (fun _ => new_shim f)) s3 = (s', Ok a)).
    { intros s3 g Hc3 Hg3 f. destruct (nth_error (t_scalers s3) g) as [x|] eqn:E; [|apply nth_error_None in E; lia]. erewrite andthen_step.
      2:{ unfold move_scaler. erewrite andthen_step. 2:{ unfold scaler_at. rewrite E. reflexivity. } rewrite Hd. reflexivity. }
      erewrite andthen_step by (apply memory_quiet; exact Hc3). eexists _, _. reflexivity. }
    destruct grad_scaler as [g|].
    - erewrite andthen_step by reflexivity. apply G; [unfold no_cupy in *; rewrite M3; exact Hc | rewrite M2; apply Hg; reflexivity].
    - erewrite andthen_step by reflexivity. cbn. apply G; [unfold no_cupy in *; cbn; rewrite M3; exact Hc | cbn; rewrite app_length; cbn; lia].
  Qed.
  Lemma shim_not_module : forall script i m config optimizer mixed grad_scaler d ser deser s, nth_error (t_modules s) i = Some m -> m_class m = NotModule ->
    pytorch_shim k script (Some i) config optimizer mixed grad_scaler (Some d) ser deser s = (mkTst (t_sys s) (S (t_id s)) (t_modules s) (t_scalers s) (t_shims s), Err AttributeError).
  Proof.
    intros script i m config optimizer mixed grad_scaler d ser deser s E1 E2. unfold pytorch_shim. erewrite andthen_step by reflexivity. erewrite andthen_step by reflexivity.
    apply andthen_err. unfold move_module. erewrite andthen_step. 2:{ unfold module_at. cbn. rewrite E1. reflexivity. } rewrite E2. reflexivity.
  Qed.
  Lemma shim_no_device : forall script i m config optimizer mixed grad_scaler d ser deser s, nth_error (t_modules s) i = Some m -> m_class m <> NotModule -> m_params m <> [] -> there k d = false ->
    pytorch_shim k script (Some i) config optimizer mixed grad_scaler (Some d) ser deser s = (mkTst (t_sys s) (S (t_id s)) (t_modules s) (t_scalers s) (t_shims s), Err RuntimeError).
  Proof.
    intros script i m config optimizer mixed grad_scaler d ser deser s E1 E2 E3 Hd. unfold pytorch_shim. erewrite andthen_step by reflexivity. erewrite andthen_step by reflexivity.
    apply andthen_err. unfold move_module. erewrite andthen_step. 2:{ unfold module_at. cbn. rewrite E1. reflexivity. } destruct m as [[] [|p ps]]; cbn in *; try (destruct (E2 eq_refl); fail); try (destruct (E3 eq_refl); fail); rewrite Hd; reflexivity.
  Qed.
  Lemma script_class : forall i m config optimizer mixed grad_scaler device s, nth_error (t_modules s) i = Some m -> m_class m <> ScriptModule ->
    torchscript_shim k (Some i) config optimizer mixed grad_scaler device s = (s, Err ValueError).
  Proof.
    intros i m config optimizer mixed grad_scaler device s E1 E2. unfold torchscript_shim. apply andthen_err. erewrite andthen_step. 2:{ unfold module_at. rewrite E1. reflexivity. }
    destruct (m_class m); try reflexivity. destruct (E2 eq_refl).
  Qed.
  Lemma script_shim_is : forall model config optimizer mixed grad_scaler device s s' a, torchscript_shim k model config optimizer mixed grad_scaler device s = (s', Ok a) ->
    pytorch_shim k true model config optimizer mixed grad_scaler device None None s = (s', Ok a) /\ (forall i, model = Some i -> exists m, nth_error (t_modules s) i = Some m /\ m_class m = ScriptModule).
  Proof.
    intros model config optimizer mixed grad_scaler device s s' a H. unfold torchscript_shim in H. apply andthen_ok in H. destruct H as [s1 [u [H1 H]]]. destruct model as [i|].
    - apply andthen_ok in H1. destruct H1 as [s2 [m [H1 H2]]]. unfold module_at in H1. destruct (nth_error (t_modules s) i) as [m'|] eqn:E; [|discriminate H1]. injection H1 as <- <-.
      destruct (m_class m') eqn:Ec; try discriminate H2. injection H2 as <- <-. split; [exact H|]. intros j Hj. injection Hj as <-. exists m'. split; [exact E | exact Ec].
    - injection H1 as <- <-. split; [exact H | discriminate].
  Qed.

  (** ** What stays *)
  Lemma kept_refl : forall s, kept s s.
  Proof. intro s. split; [exists []; rewrite app_nil_r; reflexivity|]. split; [lia|]. split; [intros i m H; exists m; repeat split; exact H | intros i x H; exists x; repeat split; exact H]. Qed.
  Lemma kept_trans : forall s1 s2 s3, kept s1 s2 -> kept s2 s3 -> kept s1 s3.
  Proof.
    intros s1 s2 s3 [[l1 A1] [A2 [A3 A4]]] [[l2 B1] [B2 [B3 B4]]]. split; [exists (l1 ++ l2)%list; rewrite B1, A1, app_assoc; reflexivity|]. split; [lia|]. split.
    - intros i m H. destruct (A3 i m H) as [m1 [H1 [H2 H3]]]. destruct (B3 i m1 H1) as [m2 [H4 [H5 H6]]]. exists m2. repeat split; congruence.
    - intros i m H. destruct (A4 i m H) as [m1 [H1 [H2 H3]]]. destruct (B4 i m1 H1) as [m2 [H4 [H5 H6]]]. exists m2. repeat split; congruence.
  Qed.
  Lemma kept_same : forall s s', same_objects s s' -> kept s s'.
  Proof. intros s s' [E1 [E2 [E3 E4]]]. unfold kept. rewrite E1, E2, E3, E4. apply (kept_refl s). Qed.
  Lemma kept_modules : forall s s' i d, t_id s <= t_id s' -> t_scalers s' = t_scalers s -> t_shims s' = t_shims s -> changed_at i (placed d) (t_modules s) (t_modules s') -> kept s s'.
  Proof.
    intros s s' i d E1 E2 E3 [_ E4]. unfold kept. rewrite E2, E3. split; [exists []; rewrite app_nil_r; reflexivity|]. split; [lia|]. split; [|intros j x H; exists x; repeat split; exact H].
    intros j m H. specialize (E4 j m H). destruct i as [i|]; [|exists m; repeat split; exact E4]. destruct (Nat.eqb i j); [|exists m; repeat split; exact E4].
    exists (placed d m). split; [exact E4|]. split; [reflexivity|]. unfold placed. cbn. rewrite map_map. reflexivity.
  Qed.
  Lemma kept_scalers : forall s s' i d, t_id s <= t_id s' -> t_modules s' = t_modules s -> t_shims s' = t_shims s -> changed_at i (fun x => mkGs (gs_enabled x) (gs_config x) d) (t_scalers s) (t_scalers s') -> kept s s'.
  Proof.
    intros s s' i d E1 E2 E3 [_ E4]. unfold kept. rewrite E2, E3. split; [exists []; rewrite app_nil_r; reflexivity|]. split; [lia|]. split; [intros j m H; exists m; repeat split; exact H|].
    intros j m H. specialize (E4 j m H). destruct i as [i|]; [|exists m; repeat split; exact E4]. destruct (Nat.eqb i j); [|exists m; repeat split; exact E4].
    eexists. split; [exact E4|]. split; reflexivity.
  Qed.
  Lemma kept_more : forall s lm ls, kept s (mkTst (t_sys s) (t_id s) (t_modules s ++ lm) (t_scalers s ++ ls) (t_shims s)).
  Proof.
    intros s lm ls. split; [exists []; rewrite app_nil_r; reflexivity|]. split; [cbn; lia|]. cbn. split; intros i m H; exists m; (split; [|split; reflexivity]); rewrite nth_error_app1; try exact H; apply nth_error_Some; congruence.
  Qed.
  (** Actions that keep everything and give out no shim *)
  Definition keeps {A} (m : @tact V A) : Prop := forall s s' r, m s = (s', r) -> kept s s' /\ t_shims s' = t_shims s.
  Lemma keeps_ret : forall A (x : A), keeps (ret x).
  Proof. intros A x s s' r H. injection H as <- <-. split; [apply kept_refl | reflexivity]. Qed.
  Lemma keeps_lift : forall A (x : result A), keeps (lift x).
  Proof. intros A x s s' r H. injection H as <- <-. split; [apply kept_refl | reflexivity]. Qed.
  Lemma keeps_fail : forall A e, keeps (@fail V A e).
  Proof. intros A x s s' r H. injection H as <- <-. split; [apply kept_refl | reflexivity]. Qed.
  Lemma keeps_module : forall a, keeps (module_at a).
  Proof. intros a s s' r H. injection H as <- _. split; [apply kept_refl | reflexivity]. Qed.
  Lemma keeps_shim_at : forall a, keeps (shim_at a).
  Proof. intros a s s' r H. injection H as <- _. split; [apply kept_refl | reflexivity]. Qed.
  Lemma keeps_then : forall A C (m : @tact V A) (f : A -> @tact V C), keeps m -> (forall x, keeps (f x)) -> keeps (andthen m f).
  Proof.
    intros A C m f Hm Hf s s' r H. unfold andthen in H. destruct (m s) as [s1 [x|e]] eqn:E; destruct (Hm _ _ _ E) as [K1 K2].
    - destruct (Hf x _ _ _ H) as [K3 K4]. split; [exact (kept_trans _ _ _ K1 K3) | congruence].
    - injection H as <- <-. split; assumption.
  Qed.
  Lemma keeps_sys : forall A (f : sys -> sys * result A), keeps (on_sys f).
  Proof. intros A f s s' r H. apply on_sys_same in H. destruct H as [H _]. split; [apply kept_same; exact H | apply H]. Qed.
  Lemma keeps_move : forall a d, keeps (move_module k a d).
  Proof.
    intros a d s s' r H. apply move_module_cases in H. destruct H as [[m [_ [_ [_ [_ [E1 [E2 [E3 [_ E4]]]]]]]]]|[-> _]]; [|split; [apply kept_refl | reflexivity]].
    split; [eapply kept_modules; [lia | exact E2 | exact E3 | exact E4] | exact E3].
  Qed.
  Lemma keeps_move_scaler : forall g d, keeps (move_scaler k g d).
  Proof.
    intros g d s s' r H. apply move_scaler_cases in H. destruct H as [[x [E1 [_ [_ ->]]]]|[-> _]]; [|split; [apply kept_refl | reflexivity]].
    split; [|reflexivity]. apply (kept_scalers _ _ (Some g) d); cbn; try reflexivity. exact (set_at_changed _ _ _ (fun x => mkGs (gs_enabled x) (gs_config x) d) _ E1).
  Qed.
  Lemma keeps_new_scaler : forall x, keeps (new_scaler x).
  Proof. intros x s s' r H. injection H as <- <-. split; [|reflexivity]. pose proof (kept_more s [] [x]) as K. rewrite app_nil_r in K. exact K. Qed.
  Lemma keeps_new_module : forall x, keeps (new_module x).
  Proof. intros x s s' r H. injection H as <- <-. split; [|reflexivity]. pose proof (kept_more s [x] []) as K. rewrite app_nil_r in K. exact K. Qed.
  Lemma keeps_memory : keeps (pytorch_memory k).
  Proof. intros s s' r H. apply memory_same in H. split; [apply kept_same; exact H | apply H]. Qed.

  (** Constructions *)
  Definition constructs {A} (m : @tact V A) : Prop := forall s s' r, m s = (s', r) -> kept s s' /\ (ids_ok s -> ids_ok s').
  Lemma keeps_constructs : forall A (m : @tact V A), keeps m -> constructs m.
  Proof.
    intros A m Hm s s' r H. destruct (Hm _ _ _ H) as [K1 K2]. split; [exact K1|]. intros [I1 I2]. split; rewrite K2; [exact I1|]. intros sh Hin. specialize (I2 sh Hin). destruct K1 as [_ [K1 _]]. lia.
  Qed.
  Lemma constructs_then : forall A C (m : @tact V A) (f : A -> @tact V C), constructs m -> (forall x, constructs (f x)) -> constructs (andthen m f).
  Proof.
    intros A C m f Hm Hf s s' r H. unfold andthen in H. destruct (m s) as [s1 [x|e]] eqn:E; destruct (Hm _ _ _ E) as [K1 K2].
    - destruct (Hf x _ _ _ H) as [K3 K4]. split; [exact (kept_trans _ _ _ K1 K3) | tauto].
    - injection H as <- <-. split; assumption.
  Qed.
  Lemma constructs_shim : forall script model config optimizer mixed grad_scaler device ser deser, constructs (pytorch_shim k script model config optimizer mixed grad_scaler device ser deser).
  Proof.
    intros script model config optimizer mixed grad_scaler device ser deser s s' r H. unfold pytorch_shim in H. erewrite andthen_step in H by reflexivity.
    set (s1 := mkTst (t_sys s) (S (t_id s)) (t_modules s) (t_scalers s) (t_shims s)) in *.
    assert (K0 : kept s s1). { split; [exists []; rewrite app_nil_r; reflexivity|]. split; [cbn; lia|]. split; [intros i m Hm; exists m; repeat split; exact Hm | intros i x Hx; exists x; repeat split; exact Hx]. }
    match type of H with andthen ?m _ _ = _ => assert (Hk : keeps m) by (destruct device; [apply keeps_ret | apply keeps_sys]); unfold andthen at 1 in H; destruct (m s1) as [s2 [d|e]] eqn:E2 end; destruct (Hk _ _ _ E2) as [K1 F1]; clear Hk E2.
    2:{ injection H as <- <-. split; [exact (kept_trans _ _ _ K0 K1)|]. intros [I1 I2]. split; rewrite F1; [exact I1|]. intros sh Hin. specialize (I2 sh Hin). destruct (kept_trans _ _ _ K0 K1) as [_ [L _]]. lia. }
    match type of H with andthen ?m _ _ = _ => assert (Hk : keeps m) by (destruct model; [apply keeps_move | apply keeps_ret]); unfold andthen at 1 in H; destruct (m s2) as [s3 [u|e]] eqn:E2 end; destruct (Hk _ _ _ E2) as [K2 F2]; clear Hk E2.
    2:{ injection H as <- <-. pose proof (kept_trans _ _ _ (kept_trans _ _ _ K0 K1) K2) as K. split; [exact K|]. intros [I1 I2]. split; rewrite F2, F1; [exact I1|]. intros sh Hin. specialize (I2 sh Hin). destruct K as [_ [L _]]. lia. }
    match type of H with andthen ?m _ _ = _ => assert (Hk : keeps m) by (destruct grad_scaler; [apply keeps_ret | apply keeps_new_scaler]); unfold andthen at 1 in H; destruct (m s3) as [s4 [g|e]] eqn:E2 end; destruct (Hk _ _ _ E2) as [K3 F3]; clear Hk E2.
    2:{ injection H as <- <-. pose proof (kept_trans _ _ _ (kept_trans _ _ _ (kept_trans _ _ _ K0 K1) K2) K3) as K. split; [exact K|]. intros [I1 I2]. split; rewrite F3, F2, F1; [exact I1|]. intros sh Hin. specialize (I2 sh Hin). destruct K as [_ [L _]]. lia. }
    match type of H with andthen ?m _ _ = _ => assert (Hk : keeps m) by (apply keeps_move_scaler); unfold andthen at 1 in H; destruct (m s4) as [s5 [u'|e]] eqn:E2 end; destruct (Hk _ _ _ E2) as [K4 F4]; clear Hk E2.
    2:{ injection H as <- <-. pose proof (kept_trans _ _ _ (kept_trans _ _ _ (kept_trans _ _ _ (kept_trans _ _ _ K0 K1) K2) K3) K4) as K. split; [exact K|]. intros [I1 I2]. split; rewrite F4, F3, F2, F1; [exact I1|]. intros sh Hin. specialize (I2 sh Hin). destruct K as [_ [L _]]. lia. }
    match type of H with andthen ?m _ _ = _ => assert (Hk : keeps m) by (apply keeps_memory); unfold andthen at 1 in H; destruct (m s5) as [s6 [u''|e]] eqn:E2 end; destruct (Hk _ _ _ E2) as [K5 F5]; clear Hk E2.
    2:{ injection H as <- <-. pose proof (kept_trans _ _ _ (kept_trans _ _ _ (kept_trans _ _ _ (kept_trans _ _ _ (kept_trans _ _ _ K0 K1) K2) K3) K4) K5) as K. split; [exact K|]. intros [I1 I2]. split; rewrite F5, F4, F3, F2, F1; [exact I1|]. intros sh Hin. specialize (I2 sh Hin). destruct K as [_ [L _]]. lia. }
    injection H as <- <-. pose proof (kept_trans _ _ _ (kept_trans _ _ _ (kept_trans _ _ _ (kept_trans _ _ _ K1 K2) K3) K4) K5) as K'. pose proof (kept_trans _ _ _ K0 K') as K. split.
    - apply (kept_trans _ _ _ K). split; [eexists; reflexivity|]. split; [cbn; lia|]. split; [intros i m Hm; exists m; repeat split; exact Hm | intros i x Hx; exists x; repeat split; exact Hx].
    - intros [I1 I2]. destruct K' as [_ [L _]]. cbn in L. unfold ids_ok. cbn. rewrite F5, F4, F3, F2, F1. cbn. rewrite map_app. split.
      + apply (Permutation_NoDup (Permutation_app_comm [S (t_id s)] (map ts_id (t_shims s)))). cbn. constructor; [|exact I1]. rewrite in_map_iff. intros [sh [Hs Hin]]. specialize (I2 sh Hin). lia.
      + intros sh Hin. apply in_app_or in Hin. destruct Hin as [Hin|[<-|[]]]; [specialize (I2 sh Hin); lia | cbn; lia].
  Qed.
  Lemma constructs_script : forall model config optimizer mixed grad_scaler device, constructs (torchscript_shim k model config optimizer mixed grad_scaler device).
  Proof.
    intros. apply constructs_then; [|intro; apply constructs_shim]. apply keeps_constructs. destruct model as [i|]; [|apply keeps_ret]. apply keeps_then; [apply keeps_module|]. intro m. destruct (m_class m); [apply keeps_fail | apply keeps_fail | apply keeps_ret].
  Qed.
  Lemma constructs_ret : forall A (x : A), constructs (ret x).
  Proof. intros. apply keeps_constructs, keeps_ret. Qed.
  Lemma constructs_convert : forall jit_script w, constructs (to_torchscript k jit_script w).
  Proof.
    intros js w. unfold to_torchscript. destruct (w_shims w) as [|[a|] l]; try (apply keeps_constructs, keeps_fail).
    apply constructs_then; [apply keeps_constructs, keeps_shim_at|]. intro sh. apply constructs_then; [apply keeps_constructs, keeps_lift|]. intro ci. apply constructs_then; [apply keeps_constructs, keeps_lift|]. intro co.
    destruct (ts_model sh) as [i|] eqn:Em; [|apply keeps_constructs, keeps_fail]. apply constructs_then; [apply keeps_constructs, keeps_module|]. intro m.
    assert (D : keeps (shim_device k sh)). { unfold shim_device. rewrite Em. apply keeps_then; [apply keeps_module|]. intro m'. destruct (m_class m'); [apply keeps_fail | |]; (destruct (m_params m'); [apply keeps_sys | apply keeps_ret]). }
    assert (W : forall j d, constructs (torchscript_wrapper k (Some j) (Some ci) (Some co) (ts_mixed sh) (Some (ts_scaler sh)) (Some d))). { intros j d. apply constructs_then; [apply constructs_script | intro; apply constructs_ret]. }
    destruct (m_class m).
    - apply keeps_constructs, keeps_fail.
    - apply constructs_then; [apply keeps_constructs, keeps_then; [apply keeps_lift | intro; apply keeps_new_module]|]. intro j. apply constructs_then; [apply keeps_constructs, D | intro; apply W].
    - apply constructs_then; [apply constructs_ret|]. intro j. apply constructs_then; [apply keeps_constructs, D | intro; apply W].
  Qed.

  (** ** The layers *)
  Lemma v1_is : forall model ci co s, pytorch_wrapper_v1 k model ci co s = pytorch_wrapper_v2 k model ci co false None None s.
  Proof. reflexivity. Qed.
  Lemma v2_is : forall model ci co mixed g d s, pytorch_wrapper_v2 k model ci co mixed g d s = pytorch_wrapper_v3 k model ci co mixed g d None None s.
  Proof. reflexivity. Qed.
  Lemma v3_built : forall model ci co mixed g d ser deser s s' w, pytorch_wrapper_v3 k model ci co mixed g d ser deser s = (s', Ok w) ->
    exists a, w = mkWr "pytorch" [("convert_inputs", match ci with Some f => f | None => DefaultInputs end); ("convert_outputs", match co with Some f => f | None => DefaultOutputs end)] [TorchShim a] [("nI", None); ("nO", None)] /\
      built k s s' a false model [] None mixed g d match ser with Some f => f | None => DefaultFn end match deser with Some f => f | None => DefaultFn end.
  Proof.
    intros model ci co mixed g d ser deser s s' w H. unfold pytorch_wrapper_v3 in H. apply andthen_ok in H. destruct H as [s1 [a [H1 H2]]]. injection H2 as <- <-. exists a. split; [reflexivity|]. exact (shim_built _ _ None _ _ _ _ _ _ _ _ _ H1).
  Qed.
  Lemma rnn_built : forall model ci co s s' w, pytorch_rnn_wrapper k model ci co s = (s', Ok w) ->
    exists a, w = mkWr "pytorch" [("convert_inputs", match ci with Some f => f | None => RnnInputs end); ("convert_outputs", match co with Some f => f | None => RnnOutputs end)] [TorchShim a] [("nI", None); ("nO", None)] /\
      built k s s' a false model [] None false None None DefaultFn DefaultFn.
  Proof.
    intros model ci co s s' w H. unfold pytorch_rnn_wrapper in H. rewrite v1_is, v2_is in H. apply v3_built in H. exact H.
  Qed.
  Lemma script_built : forall model ci co mixed g d s s' w, torchscript_wrapper k model ci co mixed g d s = (s', Ok w) ->
    exists a, w = mkWr "pytorch_script" [("convert_inputs", match ci with Some f => f | None => DefaultInputs end); ("convert_outputs", match co with Some f => f | None => DefaultOutputs end)] [TorchShim a] [("nI", None); ("nO", None)] /\
      built k s s' a true model [] None mixed g d DefaultFn DefaultFn /\ (forall i, model = Some i -> exists m, nth_error (t_modules s) i = Some m /\ m_class m = ScriptModule).
  Proof.
    intros model ci co mixed g d s s' w H. unfold torchscript_wrapper in H. apply andthen_ok in H. destruct H as [s1 [a [H1 H2]]]. injection H2 as <- <-. exists a. split; [reflexivity|].
    apply script_shim_is in H1. destruct H1 as [H1 H2]. split; [exact (shim_built _ _ None _ _ _ _ None None _ _ _ H1) | exact H2].
  Qed.

  (** ** Conversion *)
  Lemma convert_result : forall jit_script w s s' w', to_torchscript k jit_script w s = (s', Ok w') ->
    exists a rest sh ci co i m m' d a' sh',
      w_shims w = TorchShim a :: rest /\ nth_error (t_shims s) a = Some sh /\ dget "convert_inputs" (w_attrs w) = Some ci /\ dget "convert_outputs" (w_attrs w) = Some co /\
      ts_model sh = Some i /\ nth_error (t_modules s) i = Some m /\
      match m_class m with NotModule => False | NnModule => jit_script m = Ok m' | ScriptModule => m' = m end /\ m_class m' = ScriptModule /\
      match m_params m with p :: _ => d = fst p | [] => snd (get_torch_default_device k (t_sys s)) = Ok d end /\
      w' = mkWr "pytorch_script" [("convert_inputs", ci); ("convert_outputs", co)] [TorchShim a'] [("nI", None); ("nO", None)] /\
      nth_error (t_shims s') a' = Some sh' /\
      (let j := match m_class m with ScriptModule => i | _ => length (t_modules s) end in
       sh' = mkTs (S (t_id s)) true (Some j) [] None (ts_scaler sh) (ts_mixed sh) DefaultFn DefaultFn /\ nth_error (t_modules s') j = Some (placed d m')).
  Proof.
    intros js w s s' w' H. unfold to_torchscript in H. destruct (w_shims w) as [|[a|] rest] eqn:Ew; try discriminate H.
    apply andthen_ok in H. destruct H as [s1 [sh [H1 H]]]. unfold shim_at in H1. destruct (nth_error (t_shims s) a) as [sh0|] eqn:Es; [|discriminate H1]. injection H1 as <- <-.
    apply andthen_ok in H. destruct H as [s1 [ci [H1 H]]]. unfold lift, lookup_conv in H1. destruct (dget "convert_inputs" (w_attrs w)) as [ci'|] eqn:Eci; [|discriminate H1]. injection H1 as <- <-.
    apply andthen_ok in H. destruct H as [s1 [co [H1 H]]]. unfold lift, lookup_conv in H1. destruct (dget "convert_outputs" (w_attrs w)) as [co'|] eqn:Eco; [|discriminate H1]. injection H1 as <- <-.
    destruct (ts_model sh0) as [i|] eqn:Ei; [|discriminate H]. apply andthen_ok in H. destruct H as [s1 [m [H1 H]]]. unfold module_at in H1. destruct (nth_error (t_modules s) i) as [m0|] eqn:Em; [|discriminate H1]. injection H1 as <- <-.
    assert (Dev : forall s1 s2 d j rest', nth_error (t_modules s1) i = Some m0 -> t_sys s1 = t_sys s -> t_shims s1 = t_shims s -> t_id s1 = t_id s -> m_class m0 <> NotModule -> nth_error (t_modules s1) j = Some rest' ->
      shim_device k sh0 s1 = (s2, Ok d) -> torchscript_wrapper k (Some j) (Some ci') (Some co') (ts_mixed sh0) (Some (ts_scaler sh0)) (Some d) s2 = (s', Ok w') ->
      match m_params m0 with p :: _ => d = fst p | [] => snd (get_torch_default_device k (t_sys s)) = Ok d end /\ m_class rest' = ScriptModule /\
      exists a' sh', w' = mkWr "pytorch_script" [("convert_inputs", ci'); ("convert_outputs", co')] [TorchShim a'] [("nI", None); ("nO", None)] /\ nth_error (t_shims s') a' = Some sh' /\
        sh' = mkTs (S (t_id s)) true (Some j) [] None (ts_scaler sh0) (ts_mixed sh0) DefaultFn DefaultFn /\ nth_error (t_modules s') j = Some (placed d rest')).
    { intros s1 s2 d j r N1 N2 N3 N4 Nc N5 Hd Hw. unfold shim_device in Hd. rewrite Ei in Hd. apply andthen_ok in Hd. destruct Hd as [s3 [m1 [Hm Hd]]]. unfold module_at in Hm. rewrite N1 in Hm. injection Hm as <- <-.
      assert (Q : same_objects s1 s2 /\ match m_params m0 with p :: _ => d = fst p | [] => snd (get_torch_default_device k (t_sys s)) = Ok d end).
      { destruct (m_class m0); [destruct (Nc eq_refl) | |]; (destruct (m_params m0) as [|p ps]; [apply on_sys_same in Hd; destruct Hd as [Hd1 Hd2]; split; [exact Hd1 | rewrite <- N2, Hd2; reflexivity] | injection Hd as <- <-; split; [apply same_refl | reflexivity]]). }
      destruct Q as [[Q1 [Q2 [Q3 Q4]]] Q5]. split; [exact Q5|]. apply script_built in Hw. destruct Hw as [a' [-> [Hb Hs]]]. destruct (Hs j eq_refl) as [mj [Hj Hc]]. rewrite Q2, N5 in Hj. injection Hj as <-. split; [exact Hc|].
      destruct Hb as [d' [sh' [[Hd'|[Hd' _]] [-> [B1 [B2 [B3 [B4 B5]]]]]]]]; [|discriminate Hd']. injection Hd' as <-. exists (length (t_shims s2)), sh'. split; [reflexivity|]. split; [rewrite B1, nth_error_app2, Nat.sub_diag by lia; reflexivity|].
      split; [cbv zeta in B3; rewrite B3, Q1, N4; reflexivity|]. destruct B4 as [_ B4]. rewrite <- Q2 in N5. specialize (B4 j r N5). rewrite Nat.eqb_refl in B4. exact B4. }
    destruct (m_class m0) eqn:Ec; [discriminate H | |].
    - apply andthen_ok in H. destruct H as [s1 [j [H1 H]]]. apply andthen_ok in H1. destruct H1 as [s2 [m' [H1 H2]]]. unfold lift in H1. injection H1 as <- Hjs. injection H2 as <- <-.
      apply andthen_ok in H. destruct H as [s3 [d [H2 H]]].
      set (st := mkTst (t_sys s) (t_id s) (t_modules s ++ [m'])%list (t_scalers s) (t_shims s)) in *.
      destruct (Dev st s3 d (length (t_modules s)) m' ltac:(cbn; rewrite nth_error_app1 by (apply nth_error_Some; congruence); exact Em) eq_refl eq_refl eq_refl ltac:(discriminate) ltac:(cbn; rewrite nth_error_app2, Nat.sub_diag by lia; reflexivity) H2 H) as [D1 [D2 [a' [sh' [D3 [D4 [D5 D6]]]]]]].
      exists a, rest, sh0, ci', co', i, m0, m', d, a', sh'. rewrite Ec. repeat split; assumption.
    - apply andthen_ok in H. destruct H as [s1 [j [H1 H]]]. injection H1 as <- <-. apply andthen_ok in H. destruct H as [s3 [d [H2 H]]].
      destruct (Dev _ _ _ _ m0 Em eq_refl eq_refl eq_refl ltac:(discriminate) Em H2 H) as [D1 [D2 [a' [sh' [D3 [D4 [D5 D6]]]]]]].
      exists a, rest, sh0, ci', co', i, m0, m0, d, a', sh'. rewrite Ec. repeat split; assumption.
  Qed.
  Lemma convert_errors : forall jit_script w s,
    (w_shims w = [] -> to_torchscript k jit_script w s = (s, Err IndexError)) /\
    (forall l, w_shims w = OtherShim :: l -> to_torchscript k jit_script w s = (s, Err ValueError)) /\
    (forall a l sh, w_shims w = TorchShim a :: l -> nth_error (t_shims s) a = Some sh ->
      (dget "convert_inputs" (w_attrs w) = None \/ dget "convert_outputs" (w_attrs w) = None -> to_torchscript k jit_script w s = (s, Err KeyError)) /\
      (dget "convert_inputs" (w_attrs w) <> None -> dget "convert_outputs" (w_attrs w) <> None ->
        (ts_model sh = None \/ (exists i m, ts_model sh = Some i /\ nth_error (t_modules s) i = Some m /\ m_class m = NotModule) -> to_torchscript k jit_script w s = (s, Err ValueError)) /\
        (forall i m e, ts_model sh = Some i -> nth_error (t_modules s) i = Some m -> m_class m = NnModule -> jit_script m = Err e -> to_torchscript k jit_script w s = (s, Err e)))).
  Proof.
    intros js w s. split; [intro E; unfold to_torchscript; rewrite E; reflexivity|]. split; [intros l E; unfold to_torchscript; rewrite E; reflexivity|].
    intros a l sh E Es. unfold to_torchscript. rewrite E. erewrite andthen_step by (unfold shim_at; rewrite Es; reflexivity). split.
    - intro H. unfold lookup_conv, lift, andthen. destruct (dget "convert_inputs" (w_attrs w)); [|reflexivity]. destruct (dget "convert_outputs" (w_attrs w)); [|reflexivity]. destruct H; discriminate.
    - intros H1 H2. unfold lookup_conv. destruct (dget "convert_inputs" (w_attrs w)); [|destruct (H1 eq_refl)]. destruct (dget "convert_outputs" (w_attrs w)); [|destruct (H2 eq_refl)]. erewrite andthen_step by reflexivity. erewrite andthen_step by reflexivity. split.
      + intros [F|[i [m [F1 [F2 F3]]]]]; [rewrite F; reflexivity|]. rewrite F1. erewrite andthen_step by (unfold module_at; rewrite F2; reflexivity). rewrite F3. reflexivity.
      + intros i m e F1 F2 F3 F4. rewrite F1. erewrite andthen_step by (unfold module_at; rewrite F2; reflexivity). rewrite F3. apply andthen_err. unfold lift. rewrite F4. reflexivity.
  Qed.

  (** ** Serialization *)
  Lemma script_round : forall (jit_save : tmodule V -> B) jit_load a s sh i m b s2 sh2 d,
    nth_error (t_shims s) a = Some sh -> ts_model sh = Some i -> nth_error (t_modules s) i = Some m -> m_class m = ScriptModule ->
    nth_error (t_shims s2) b = Some sh2 -> ts_scaler sh2 < length (t_scalers s2) -> snd (get_torch_default_device k (t_sys s2)) = Ok d -> there k d = true -> (forall d', jit_load (jit_save m) d' = Ok (placed d' m)) ->
    exists msg s3, script_to_bytes jit_save a s = (s, Ok msg) /\ script_from_bytes k jit_load b msg s2 = (s3, Ok tt) /\
      nth_error (t_shims s3) b = Some (mkTs (ts_id sh2) (ts_script sh2) (Some (length (t_modules s2))) (ts_cfg sh) (ts_optimizer sh2) (ts_scaler sh2) (ts_mixed sh2) (ts_ser sh2) (ts_deser sh2)) /\
      nth_error (t_modules s3) (length (t_modules s2)) = Some (placed d m) /\ (forall j x, nth_error (t_modules s2) j = Some x -> nth_error (t_modules s3) j = Some x) /\
      changed_at (Some (ts_scaler sh2)) (fun x => mkGs (gs_enabled x) (gs_config x) d) (t_scalers s2) (t_scalers s3).
  Proof.
    intros js jl a s sh i m b s2 sh2 d E1 E2 E3 E4 F1 F2 F3 F4 Hl. exists (ts_cfg sh, js m).
    assert (T : script_to_bytes js a s = (s, Ok (ts_cfg sh, js m))). { unfold script_to_bytes. erewrite andthen_step by (unfold shim_at; rewrite E1; reflexivity). rewrite E2. erewrite andthen_step by (unfold module_at; rewrite E3; reflexivity). reflexivity. }
    unfold script_from_bytes. destruct (default_device k s2) as [s2' r] eqn:Ed. assert (Ed' := Ed). apply on_sys_same in Ed'. destruct Ed' as [[Q1 [Q2 [Q3 Q4]]] Q5]. rewrite Q5 in F3. cbn in F3. subst r.
    erewrite andthen_step by exact Ed. erewrite andthen_step by (unfold shim_at; rewrite Q4, F1; reflexivity). erewrite andthen_step by reflexivity. cbn [fst snd]. erewrite andthen_step by (unfold lift; rewrite Hl; reflexivity).
    erewrite andthen_step by reflexivity. erewrite andthen_step by reflexivity. cbn [t_sys t_id t_modules t_scalers t_shims].
    destruct (nth_error (t_scalers s2) (ts_scaler sh2)) as [x|] eqn:Ex; [|apply nth_error_None in Ex; lia].
    match goal with |- context [andthen (move_module k ?i d) _ ?st] => destruct (move_module k i d st) as [s4 r4] eqn:Em end. assert (Em' := Em). apply move_module_cases in Em'. cbn in Em'.
    destruct Em' as [[m4 [G1 [-> [G2 [G3 [G4 [G5 [G6 [_ [G7 G8]]]]]]]]]]|[_ [e ->]]].
    - rewrite Q2, nth_error_app2, Nat.sub_diag in G1 by lia. injection G1 as <-. eexists. split; [exact T|]. erewrite andthen_step by exact Em. unfold move_scaler. rewrite F4. split; [erewrite andthen_step by (unfold scaler_at; rewrite G5, Q3, Ex; reflexivity); reflexivity|].
      cbn. split; [rewrite G6, Q4, set_at_same by (rewrite set_at_length; apply nth_error_Some; congruence); unfold with_cfg; cbn; rewrite Q2; reflexivity|]. rewrite Q2 in G8. split.
      + specialize (G8 (length (t_modules s2)) (placed match d with TMps => TCpu | _ => d end m)). rewrite nth_error_app2, Nat.sub_diag in G8 by lia. specialize (G8 eq_refl). rewrite Nat.eqb_refl in G8. rewrite G8. unfold placed. cbn. rewrite map_map. reflexivity.
      + split; [|rewrite G5, Q3; exact (set_at_changed _ _ _ (fun x => mkGs (gs_enabled x) (gs_config x) d) _ Ex)]. intros j y Hj. assert (Hlt : j < length (t_modules s2)) by (apply nth_error_Some; congruence). specialize (G8 j y). rewrite nth_error_app1 in G8 by exact Hlt. specialize (G8 Hj). destruct (Nat.eqb_spec (length (t_modules s2)) j) as [Ej|_]; [exfalso; lia | exact G8].
    - exfalso. unfold move_module in Em. erewrite andthen_step in Em. 2:{ unfold module_at. cbn. rewrite nth_error_app2, Nat.sub_diag by lia. reflexivity. }
      unfold placed in Em. cbn in Em. rewrite E4 in Em. destruct (m_params m); cbn in Em; [discriminate|]. rewrite F4 in Em. discriminate.
  Qed.
  Lemma script_empty : forall (jit_save : tmodule V -> B) a s sh, nth_error (t_shims s) a = Some sh -> ts_model sh = None -> script_to_bytes jit_save a s = (s, Err AttributeError).
  Proof. intros js a s sh E1 E2. unfold script_to_bytes. erewrite andthen_step by (unfold shim_at; rewrite E1; reflexivity). rewrite E2. reflexivity. Qed.
  Lemma script_load_fails : forall (jit_load : B -> torch_device -> result (tmodule V)) b s sh msg d e, nth_error (t_shims s) b = Some sh -> snd (get_torch_default_device k (t_sys s)) = Ok d -> (forall d', jit_load (snd msg) d' = Err e) ->
    exists s', script_from_bytes k jit_load b msg s = (s', Err e) /\ nth_error (t_shims s') b = Some (mkTs (ts_id sh) (ts_script sh) (ts_model sh) (fst msg) (ts_optimizer sh) (ts_scaler sh) (ts_mixed sh) (ts_ser sh) (ts_deser sh)).
  Proof.
    intros jl b s sh msg d e E1 E2 E3. unfold script_from_bytes. destruct (default_device k s) as [s' r] eqn:Ed. assert (Ed' := Ed). apply on_sys_same in Ed'. destruct Ed' as [[Q1 [Q2 [Q3 Q4]]] Q5]. rewrite Q5 in E2. cbn in E2. subst r.
    erewrite andthen_step by exact Ed. erewrite andthen_step by (unfold shim_at; rewrite Q4, E1; reflexivity). erewrite andthen_step by reflexivity. erewrite andthen_err by (unfold lift; rewrite E3; reflexivity). eexists. split; [reflexivity|]. cbn. rewrite Q4. apply set_at_same. apply nth_error_Some. congruence.
  Qed.

  (** ** The memory pool *)
  Lemma shim_memory : forall script model config optimizer mixed grad_scaler d ser deser s s' a n b1 b2, k_torch k = Some (n, b1, b2) -> n <> 0 -> has_cupy k = true -> x_ops (y_ctx (t_sys s)) = Some cupy_ops ->
    pytorch_shim k script model config optimizer mixed grad_scaler (Some d) ser deser s = (s', Ok a) ->
    (dmem "pytorch" (y_pools (t_sys s)) = true -> t_sys s' = t_sys s) /\
    (dmem "pytorch" (y_pools (t_sys s)) = false -> let p := mkPool (y_made (t_sys s)) "pytorch" in y_malloc (t_sys s') = Some p /\ y_pools (t_sys s') = dset "pytorch" p (y_pools (t_sys s)) /\ y_made (t_sys s') = S (y_made (t_sys s)) /\ y_ctx (t_sys s') = y_ctx (t_sys s)).
  Proof.
    intros script model config optimizer mixed grad_scaler d ser deser s s' a n b1 b2 Kt Kn Kc Ko H. unfold pytorch_shim in H. erewrite andthen_step in H by reflexivity. erewrite andthen_step in H by reflexivity.
    apply andthen_ok in H. destruct H as [s3 [u [H3 H]]]. assert (E3 : t_sys s3 = t_sys s). { destruct model as [i|]; [|injection H3 as <- _; reflexivity]. apply move_module_cases in H3. destruct H3 as [[m [_ [_ [_ [_ [_ [_ [_ [E _]]]]]]]]]|[_ [e He]]]; [exact E | discriminate He]. }
    apply andthen_ok in H. destruct H as [s4 [g [H4 H]]]. assert (E4 : t_sys s4 = t_sys s) by (destruct grad_scaler; injection H4 as <- _; exact E3).
    apply andthen_ok in H. destruct H as [s5 [u' [H5 H]]]. apply move_scaler_cases in H5. destruct H5 as [[x [_ [_ [_ ->]]]]|[_ [e He]]]; [|discriminate He].
    apply andthen_ok in H. destruct H as [s6 [u'' [H6 H]]]. injection H as <- _. cbn [t_sys].
    unfold pytorch_memory in H6. rewrite Kc in H6. unfold andthen at 1, on_sys at 1 in H6. cbn [t_sys t_id t_modules t_scalers t_shims] in H6. rewrite E4 in H6. unfold get_current_ops in H6. rewrite Ko in H6. rewrite Nat.eqb_refl in H6.
    replace (with_ctx (t_sys s) (y_ctx (t_sys s))) with (t_sys s) in H6 by (destruct (t_sys s); reflexivity). cbn [t_sys] in H6.
    split; intro Hp; rewrite Hp in H6.
    - injection H6 as <- _. reflexivity.
    - unfold on_sys in H6. cbn [t_sys t_id t_modules t_scalers t_shims] in H6. unfold set_gpu_allocator in H6. cbn [String.eqb Ascii.eqb Bool.eqb] in H6. unfold use_pytorch_for_gpu_memory, has_torch in H6. rewrite Kt in H6. cbn [negb] in H6.
      unfold get_torch_default_device in H6. rewrite Kt in H6. unfold get_current_ops in H6. rewrite Ko in H6. rewrite Nat.eqb_refl in H6. destruct (Nat.eqb_spec n 0) as [->|_]; [destruct (Kn eq_refl)|].
      unfold route in H6. rewrite Kc in H6. cbn [negb] in H6. replace (with_ctx (t_sys s) (y_ctx (t_sys s))) with (t_sys s) in H6 by (destruct (t_sys s); reflexivity). rewrite Hp in H6. cbn [with_pools y_pools y_made] in H6.
      rewrite dget_dset_same in H6. injection H6 as <-. cbn. repeat split.
  Qed.
End P.

Lemma convert_drops : exists s' sh, to_torchscript twit_machine twit_script twit_layer twit_shimmed =
    (s', Ok (mkWr "pytorch_script" [("convert_inputs", RnnInputs); ("convert_outputs", UserConv 7)] [TorchShim 1] [("nI", None); ("nO", None)])) /\
  nth_error (t_shims s') 1 = Some sh /\ ts_cfg sh = [] /\ ts_optimizer sh = None /\ ts_ser sh = DefaultFn /\ ts_deser sh = DefaultFn /\
  nth_error (t_modules twit_shimmed) 0 = Some (mkMod NnModule [(TCpu, 10); (TCuda 1, 20)]) /\ nth_error (t_modules s') 2 = Some (mkMod ScriptModule [(TCpu, 10); (TCpu, 20)]).
Proof. eexists. eexists. split; [vm_compute; reflexivity|]. repeat split; vm_compute; reflexivity. Qed.

Lemma versions : forall {V : Type} (k : machine) model ci co mixed g d (s : tst V),
  pytorch_wrapper_v1 k model ci co s = pytorch_wrapper_v2 k model ci co false None None s /\
  pytorch_wrapper_v2 k model ci co mixed g d s = pytorch_wrapper_v3 k model ci co mixed g d None None s.
Proof. split; reflexivity. Qed.
Lemma all_kept : forall {V : Type} (k : machine) (jit_script : tmodule V -> result (tmodule V)) script model config optimizer mixed g d ser deser w (s s' : tst V),
  ((exists r, pytorch_shim k script model config optimizer mixed g d ser deser s = (s', r)) \/ (exists r, torchscript_shim k model config optimizer mixed g d s = (s', r)) \/
   (exists r, to_torchscript k jit_script w s = (s', r))) ->
  kept s s' /\ (ids_ok s -> ids_ok s').
Proof.
  intros V k js script model config optimizer mixed g d ser deser w s s' [[r H]|[[r H]|[r H]]].
  - exact (constructs_shim k _ _ _ _ _ _ _ _ _ _ _ _ H).
  - exact (constructs_script k _ _ _ _ _ _ _ _ _ H).
  - exact (constructs_convert k _ _ _ _ _ H).
Qed.
