(** Devices: proofs for C69. *)
From Coq Require Import String ZArith List Bool Lia.
From Verif Require Import BaseFacts DictFacts DeviceModel DeviceSpec GraphSpec GraphProofs.
Import ListNotations.
Open Scope string_scope.
Set Default Goal Selector "!".

Lemma valid_id_iff n id : valid_id n id = true <-> (0 <= id < Z.of_nat n)%Z.
Proof. unfold valid_id. rewrite andb_true_iff, Z.leb_le, Z.ltb_lt. tauto. Qed.

Lemma set_active_gpu_cases k s id :
  match set_active_gpu k s id with
  | (s', Ok _) => usable k id /\ y_cupy s' = Z.to_nat id /\ (has_torch_cuda_gpu k = true -> y_torch s' = Z.to_nat id) /\
                  (has_torch_cuda_gpu k = false -> y_torch s' = y_torch s) /\
                  y_ctx s' = y_ctx s /\ y_pools s' = y_pools s /\ y_made s' = y_made s /\ y_malloc s' = y_malloc s
  | (s', Err e) => ~ usable k id /\ (has_cupy_gpu k = true -> e = RuntimeError) /\ (has_cupy_gpu k = false -> e = ValueError /\ s' = s) /\
                   y_torch s' = y_torch s /\ y_ctx s' = y_ctx s /\ y_pools s' = y_pools s /\ y_made s' = y_made s /\ y_malloc s' = y_malloc s
  end.
Proof.
  unfold set_active_gpu, usable, has_cupy_gpu, has_torch_cuda_gpu. destruct (k_cupy k) as [[n|]|] eqn:Ec.
  - destruct (valid_id n id) eqn:Ev; cbn [negb].
    + apply valid_id_iff in Ev. destruct (k_torch k) as [[[m b] a]|] eqn:Et.
      * destruct (Nat.eqb m 0) eqn:Em; cbn [negb].
        -- apply Nat.eqb_eq in Em. subst m. repeat split; try easy. ++ exists n. split; [reflexivity|exact Ev]. ++ intros n0 b0 a0 [= <- _ _] H. now contradict H.
        -- apply Nat.eqb_neq in Em. destruct (valid_id m id) eqn:Ev2.
           ++ apply valid_id_iff in Ev2. repeat split; try easy. ** exists n. split; [reflexivity|exact Ev]. ** intros n0 b0 a0 [= <- _ _] _. lia.
           ++ repeat split; try easy. intros [_ H]. specialize (H m b a eq_refl Em). assert (valid_id m id = true) by (apply valid_id_iff; lia). congruence.
      * repeat split; try easy. exists n. split; [reflexivity|exact Ev].
    + repeat split; try easy. intros [(n0 & [= <-] & H) _]. apply valid_id_iff in H. congruence.
  - repeat split; try easy. intros [(n0 & [=] & _) _].
  - repeat split; try easy. intros [(n0 & [=] & _) _].
Qed.

Lemma require_gpu_iff k s id :
  (exists s' b, require_gpu k s id = (s', Ok b)) <->
  (k_darwin k = true -> has_torch_mps k = true) /\ (k_darwin k = false -> has_cupy k = true) /\ has_gpu k = true /\
  (has_cupy_gpu k = true -> usable k id).
Proof.
  unfold require_gpu. destruct (k_darwin k) eqn:Ed; cbn [andb negb].
  - destruct (has_torch_mps k) eqn:Em; cbn [negb].
    2:{ split; [intros (? & ? & [=])|intros (H & _); discriminate (H eq_refl)]. }
    destruct (has_gpu k) eqn:Eg; cbn [negb].
    2:{ split; [intros (? & ? & [=])|intros (_ & _ & [=] & _)]. }
    destruct (has_cupy_gpu k) eqn:Ec.
    + pose proof (set_active_gpu_cases k (with_ctx s (set_current_ops (y_ctx s) cupy_ops)) id) as H.
      destruct (set_active_gpu k _ id) as [s' [u|e]].
      * split; [intros _|intros _; eauto]. split; [easy|split; [easy|split; [easy|intros _; apply H]]].
      * split; [intros (? & ? & [=])|]. intros (_ & _ & _ & Hu). destruct H as (H & _). contradict H. now apply Hu.
    + split; [|eauto]. repeat split; easy.
  - destruct (has_cupy k) eqn:Em; cbn [negb].
    2:{ split; [intros (? & ? & [=])|intros (_ & H & _); discriminate (H eq_refl)]. }
    destruct (has_gpu k) eqn:Eg; cbn [negb].
    2:{ split; [intros (? & ? & [=])|intros (_ & _ & [=] & _)]. }
    destruct (has_cupy_gpu k) eqn:Ec.
    + pose proof (set_active_gpu_cases k (with_ctx s (set_current_ops (y_ctx s) cupy_ops)) id) as H.
      destruct (set_active_gpu k _ id) as [s' [u|e]].
      * split; [intros _|intros _; eauto]. split; [easy|split; [easy|split; [easy|intros _; apply H]]].
      * split; [intros (? & ? & [=])|]. intros (_ & _ & _ & Hu). destruct H as (H & _). contradict H. now apply Hu.
    + split; [|eauto]. repeat split; easy.
Qed.

Lemma require_gpu_ok k s id s' b : require_gpu k s id = (s', Ok b) ->
  b = true /\ backend s' (if has_cupy_gpu k then cupy_ops else mps_ops) /\ same_but_backend s s' /\
  (if has_cupy_gpu k then y_cupy s' = Z.to_nat id /\ y_torch s' = (if has_torch_cuda_gpu k then Z.to_nat id else y_torch s)
   else y_cupy s' = y_cupy s /\ y_torch s' = y_torch s).
Proof.
  unfold require_gpu. destruct (k_darwin k && negb (has_torch_mps k)); [intros [=]|].
  destruct (negb (k_darwin k) && negb (has_cupy k)); [intros [=]|]. destruct (negb (has_gpu k)); [intros [=]|].
  destruct (has_cupy_gpu k) eqn:Ec.
  - pose proof (set_active_gpu_cases k (with_ctx s (set_current_ops (y_ctx s) cupy_ops)) id) as H.
    destruct (set_active_gpu k _ id) as [s1 [u|e]]; intros [= <- <-].
    destruct H as (_ & H1 & H2 & H3 & H4 & H5 & H6 & H7). unfold backend, same_but_backend. rewrite H4, H5, H6, H7.
    repeat split; [exact H1|]. destruct (has_torch_cuda_gpu k); [now apply H2|now apply H3].
  - intros [= <- <-]. repeat split.
Qed.

Lemma require_gpu_error k s id s' e : require_gpu k s id = (s', Err e) ->
  (e = ValueError /\ s' = s) \/
  (e = RuntimeError /\ has_cupy_gpu k = true /\ ~ usable k id /\ backend s' cupy_ops /\ same_but_backend s s' /\ y_torch s' = y_torch s).
Proof.
  unfold require_gpu. destruct (k_darwin k && negb (has_torch_mps k)); [intros [= <- <-]; now left|].
  destruct (negb (k_darwin k) && negb (has_cupy k)); [intros [= <- <-]; now left|]. destruct (negb (has_gpu k)); [intros [= <- <-]; now left|].
  destruct (has_cupy_gpu k) eqn:Ec; [|intros [=]].
  pose proof (set_active_gpu_cases k (with_ctx s (set_current_ops (y_ctx s) cupy_ops)) id) as H.
  destruct (set_active_gpu k _ id) as [s1 [u|e1]]; intros [= <- <-]. right.
  destruct H as (H1 & H2 & _ & H3 & H4 & H5 & H6 & H7). unfold backend, same_but_backend. rewrite H4, H5, H6, H7, H3.
  repeat split; [now apply H2|exact H1].
Qed.

Lemma prefer_gpu_ok k s id s' b : prefer_gpu k s id = (s', Ok b) ->
  b = has_gpu k /\ (b = true -> require_gpu k s id = (s', Ok true)) /\ (b = false -> s' = s).
Proof.
  unfold prefer_gpu. destruct (has_gpu k) eqn:Eg.
  - destruct (require_gpu k s id) as [s1 [u|e]] eqn:Er; intros [= <- <-]. repeat split; [|intros [=]]. intros _.
    apply require_gpu_ok in Er as [-> _]. reflexivity.
  - intros [= <- <-]. repeat split. intros [=].
Qed.

Lemma prefer_gpu_total k s id : ordinary k -> (has_cupy_gpu k = true -> usable k id) -> exists s' b, prefer_gpu k s id = (s', Ok b).
Proof.
  intros Ho Hu. unfold prefer_gpu. destruct (has_gpu k) eqn:Eg; [|eauto].
  destruct (proj2 (require_gpu_iff k s id)) as (s' & b & E).
  { destruct (Ho Eg) as [H1 H2]. exact (conj H1 (conj H2 (conj Eg Hu))). }
  rewrite E. eauto.
Qed.

Lemma registered_cpu k : exists o, get_ops (registered k) "cpu" = Ok o /\
  o = (if k_bigendian k then bigendian_ops else if k_darwin k then apple_ops else numpy_ops).
Proof. unfold registered. destruct (k_darwin k), (k_bigendian k); eexists; split; reflexivity. Qed.

Lemma require_cpu_ok k s : exists s', require_cpu k s = (s', Ok true) /\
  backend s' (if k_bigendian k then bigendian_ops else if k_darwin k then apple_ops else numpy_ops) /\ same_but_backend s s' /\
  y_cupy s' = y_cupy s /\ y_torch s' = y_torch s.
Proof.
  unfold require_cpu. destruct (registered_cpu k) as (o & E & Eo). rewrite E. eexists. split; [reflexivity|]. rewrite <- Eo. repeat split.
Qed.

Lemma default_device_missing k s : k_torch k = None -> get_torch_default_device k s = (s, Err ValueError).
Proof. intros E. unfold get_torch_default_device. now rewrite E. Qed.

Lemma default_device_gpu k s id s' b n c a : require_gpu k s id = (s', Ok b) -> k_torch k = Some (n, c, a) ->
  snd (get_torch_default_device k s') =
  if has_cupy_gpu k then (if Nat.eqb n 0 then Err RuntimeError else Ok (TCuda (Z.to_nat id))) else Ok TMps.
Proof.
  intros E Et. apply require_gpu_ok in E as (-> & [Hb _] & _ & Hd). unfold get_torch_default_device. rewrite Et.
  unfold get_current_ops. rewrite Hb. destruct (has_cupy_gpu k).
  - cbn [Nat.eqb cupy_ops]. destruct Hd as [_ Hd]. unfold has_torch_cuda_gpu in Hd. rewrite Et in Hd. destruct (Nat.eqb n 0); [reflexivity|].
    cbn [negb] in Hd. cbn [snd]. destruct s' as [? ? ? ? ? ?]; cbn in *. now rewrite Hd.
  - reflexivity.
Qed.

Lemma default_device_cpu k s n c a : k_torch k = Some (n, c, a) -> (x_ops (y_ctx s) = None \/ exists o, x_ops (y_ctx s) = Some o /\ o <> cupy_ops /\ o <> mps_ops) ->
  snd (get_torch_default_device k s) = Ok TCpu.
Proof.
  intros Et H. unfold get_torch_default_device. rewrite Et. unfold get_current_ops. destruct H as [-> | (o & -> & H1 & H2)].
  - destruct (registered_cpu k) as (o & -> & ->). destruct (k_bigendian k), (k_darwin k); reflexivity.
  - apply Nat.eqb_neq in H1, H2. now rewrite H1, H2.
Qed.

(** ** Allocators *)
Lemma route_ok k s name s' : route k s name = (s', Ok tt) -> pools_ok s ->
  pools_ok s' /\ (exists p, y_malloc s' = Some p /\ p_allocator p = name) /\ y_ctx s' = y_ctx s /\
  (forall n p, dget n (y_pools s) = Some p -> dget n (y_pools s') = Some p) /\
  (forall n, n <> name -> dget n (y_pools s') = dget n (y_pools s)) /\ y_cupy s' = y_cupy s /\ y_torch s' = y_torch s.
Proof.
  unfold route. destruct (has_cupy k); [|intros [=]]. cbn [negb]. unfold dmem. destruct (dget name (y_pools s)) as [p|] eqn:Ep.
  - rewrite Ep. intros [= <-] [H1 H2]. split; [|repeat split; eauto].
    + split; [exact H1|]. cbn. intros q [= <-]. destruct (H1 _ _ Ep) as [-> _]. exact Ep.
    + exists p. split; [reflexivity|]. now apply H1 in Ep.
  - cbn [y_pools with_pools]. rewrite dget_dset_same. intros [= <-] [H1 H2]. cbn.
    assert (Hk : forall n q, dget n (y_pools s) = Some q -> dget n (dset name (mkPool (y_made s) name) (y_pools s)) = Some q).
    { intros n q Hq. rewrite dget_dset. destruct (eqd n name) as [->|]; [congruence|exact Hq]. }
    split; [split|split; [|split; [reflexivity|split; [exact Hk|split; [|split; reflexivity]]]]].
    + cbn. intros n q Hq. rewrite dget_dset in Hq. destruct (eqd n name) as [->|].
      * injection Hq as <-. cbn. split; [reflexivity|lia].
      * apply H1 in Hq. split; [apply Hq|lia].
    + cbn. intros q [= <-]. cbn. apply dget_dset_same.
    + eexists. split; reflexivity.
    + intros n Hn. rewrite dget_dset. now destruct (eqd n name).
Qed.

Lemma allocator_ok k tf s name s' : set_gpu_allocator k tf s name = (s', Ok tt) -> pools_ok s ->
  pools_ok s' /\ (name = "pytorch" \/ name = "tensorflow") /\
  ((exists p, y_malloc s' = Some p /\ p_allocator p = name) \/
   (name = "pytorch" /\ y_malloc s' = y_malloc s /\ y_pools s' = y_pools s /\ exists d, snd (get_torch_default_device k s) = Ok d /\ forall i, d <> TCuda i)) /\
  (forall n p, dget n (y_pools s) = Some p -> dget n (y_pools s') = Some p).
Proof.
  unfold set_gpu_allocator. destruct (String.eqb name "pytorch") eqn:E1.
  - apply String.eqb_eq in E1. subst name. unfold use_pytorch_for_gpu_memory. destruct (has_torch k); [|intros [=]]. cbn [negb].
    destruct (get_torch_default_device k s) as [s1 [d|e]] eqn:Ed; [|intros [=]].
    assert (Hs : y_pools s1 = y_pools s /\ y_malloc s1 = y_malloc s /\ y_made s1 = y_made s).
    { unfold get_torch_default_device in Ed. destruct (k_torch k) as [[[? ?] ?]|]; [|discriminate Ed]. destruct (get_current_ops _ _) as [c [o|e]]; [|discriminate Ed].
      destruct (Nat.eqb o cupy_ops); [destruct (Nat.eqb n 0); [discriminate Ed|]|destruct (Nat.eqb o mps_ops)]; injection Ed as <- _; repeat split. }
    destruct Hs as (P1 & P2 & P3). intros E [H1 H2].
    assert (Hok : pools_ok s1). { split; [now rewrite P1, P3|now rewrite P1, P2]. }
    destruct d as [| |i]; [injection E as <-..|].
    + split; [exact Hok|]. split; [now left|]. split; [right|now rewrite P1]. repeat split; [exact P2|exact P1|]. eexists. split; [reflexivity|]. discriminate.
    + split; [exact Hok|]. split; [now left|]. split; [right|now rewrite P1]. repeat split; [exact P2|exact P1|]. eexists. split; [reflexivity|]. discriminate.
    + destruct (route_ok _ _ _ _ E Hok) as (A1 & A2 & A3 & A4 & _). split; [exact A1|]. split; [now left|]. split; [left; exact A2|].
      rewrite <- P1. exact A4.
  - destruct (String.eqb name "tensorflow") eqn:E2; [|intros [=]]. apply String.eqb_eq in E2. subst name.
    unfold use_tensorflow_for_gpu_memory. destruct tf; [|intros [=]]. cbn [negb]. intros E Hok.
    destruct (route_ok _ _ _ _ E Hok) as (A1 & A2 & A3 & A4 & _). split; [exact A1|]. split; [now right|]. split; [left; exact A2|exact A4].
Qed.

(** Setting the same allocator again, in whatever context, uses the pool already made. *)
Lemma allocator_again k tf s name s1 p c tf' s2 : pools_ok s -> set_gpu_allocator k tf s name = (s1, Ok tt) -> y_malloc s1 = Some p -> p_allocator p = name ->
  set_gpu_allocator k tf' (with_ctx s1 c) name = (s2, Ok tt) -> y_malloc s2 = Some p.
Proof.
  intros Hok E Hm Hp E2. destruct (allocator_ok _ _ _ _ _ E Hok) as (Hok1 & _).
  assert (Hok1c : pools_ok (with_ctx s1 c)) by exact Hok1.
  destruct (allocator_ok _ _ _ _ _ E2 Hok1c) as (Hok2 & _ & [(q & Hq & Hqn)|(_ & H & _)] & H4).
  - rewrite Hq. f_equal. pose proof (proj2 Hok1 _ Hm) as G1. pose proof (proj2 Hok2 _ Hq) as G2. rewrite Hp in G1. rewrite Hqn in G2.
    specialize (H4 name p G1). congruence.
  - rewrite H. exact Hm.
Qed.

Lemma allocator_error k tf s name s' e : set_gpu_allocator k tf s name = (s', Err e) ->
  y_pools s' = y_pools s /\ y_malloc s' = y_malloc s /\
  ((e = ValueError /\ name <> "pytorch" /\ name <> "tensorflow") \/
   (e = ImportError /\ (name = "pytorch" /\ has_torch k = false \/ name = "tensorflow" /\ tf = false)) \/
   (e = AttributeError /\ has_cupy k = false) \/
   (e = RuntimeError /\ name = "pytorch" /\ has_torch_cuda_gpu k = false)).
Proof.
  assert (Hr : forall s0 nm s1 e0, route k s0 nm = (s1, Err e0) -> s1 = s0 /\ e0 = AttributeError /\ has_cupy k = false).
  { intros s0 nm s1 e0. unfold route. destruct (has_cupy k); cbn [negb]; [|intros [= <- <-]; repeat split].
    unfold dmem. destruct (dget nm (y_pools s0)) as [q|] eqn:Eq; [now rewrite Eq|]. cbn [y_pools with_pools]. now rewrite dget_dset_same. }
  unfold set_gpu_allocator. destruct (String.eqb name "pytorch") eqn:E1.
  - apply String.eqb_eq in E1. subst name. unfold use_pytorch_for_gpu_memory. destruct (has_torch k) eqn:Et; cbn [negb].
    2:{ intros [= <- <-]. repeat split. right. left. split; [reflexivity|]. left. now split. }
    destruct (get_torch_default_device k s) as [s1 [d|e1]] eqn:Ed; unfold get_torch_default_device in Ed; unfold has_torch in Et;
      destruct (k_torch k) as [[[n b] a]|] eqn:Ek; try discriminate Et.
    + assert (Hs : y_pools s1 = y_pools s /\ y_malloc s1 = y_malloc s).
      { destruct (get_current_ops _ _) as [c [o|e2]]; [|discriminate Ed].
        destruct (Nat.eqb o cupy_ops); [destruct (Nat.eqb n 0); [discriminate Ed|]|destruct (Nat.eqb o mps_ops)]; injection Ed as <- _; repeat split. }
      destruct Hs as [P1 P2]. destruct d; [intros [=]..|]. intros E. apply Hr in E as (-> & -> & Hc). rewrite P1, P2. repeat split.
      right. right. left. now split.
    + intros [= <- <-]. unfold get_current_ops in Ed. destruct (registered_cpu k) as (o & Eo & _).
      assert (Hc : exists c o, (match x_ops (y_ctx s) with
                  | Some o => (y_ctx s, Ok o)
                  | None => match get_ops (registered k) "cpu" with Err e => (y_ctx s, Err e) | Ok o => (set_current_ops (y_ctx s) o, Ok o) end end) = (c, Ok o)).
      { destruct (x_ops (y_ctx s)); [eauto|]. rewrite Eo. eauto. }
      destruct Hc as (c & o' & Hc). rewrite Hc in Ed. destruct (Nat.eqb o' cupy_ops).
      * destruct (Nat.eqb n 0) eqn:En; [|discriminate Ed]. injection Ed as <- <-. repeat split. right. right. right. repeat split.
        unfold has_torch_cuda_gpu. now rewrite Ek, En.
      * destruct (Nat.eqb o' mps_ops); discriminate Ed.
  - destruct (String.eqb name "tensorflow") eqn:E2.
    + apply String.eqb_eq in E2. subst name. unfold use_tensorflow_for_gpu_memory. destruct tf; cbn [negb].
      * intros E. apply Hr in E as (-> & -> & Hc). repeat split. right. right. left. now split.
      * intros [= <- <-]. repeat split. right. left. split; [reflexivity|]. right. now split.
    + intros [= <- <-]. repeat split. left. apply String.eqb_neq in E1, E2. repeat split; assumption.
Qed.

(** ** Names copied on import *)
Lemma mod_run_snoc ops o : mod_run (ops ++ [o]) = mod_step (mod_run ops) o.
Proof. unfold mod_run. now rewrite fold_left_app. Qed.

Lemma mod_run_util ops : forall m, match m_util m with
  | Some c => m_util (fold_left mod_step ops m) = Some c
  | None => True
  end.
Proof.
  induction ops as [|o ops IH]; intros m; destruct (m_util m) as [c|] eqn:E; try exact I; cbn [fold_left]; [exact E|].
  specialize (IH (mod_step m o)). assert (Hm : m_util (mod_step m o) = Some c). { destruct o; cbn; rewrite ?E; try exact E; reflexivity. } now rewrite Hm in IH.
Qed.

Lemma mod_run_flags ops : forall m, ~ In ImportUtil ops -> m_util m = None ->
  m_util (fold_left mod_step ops m) = None /\
  (m_tf (fold_left mod_step ops m) = true <-> m_tf m = true \/ In EnableTensorflow ops) /\
  (m_mx (fold_left mod_step ops m) = true <-> m_mx m = true \/ In EnableMxnet ops).
Proof.
  induction ops as [|o ops IH]; intros m Hn Hm; cbn [fold_left].
  - cbn. tauto.
  - assert (Hn' : ~ In ImportUtil ops) by (intros H; apply Hn; now right).
    assert (Hm' : m_util (mod_step m o) = None). { destruct o; cbn; try exact Hm. contradict Hn. now left. }
    destruct (IH (mod_step m o) Hn' Hm') as (I1 & I2 & I3). split; [exact I1|]. rewrite I2, I3. cbn [In].
    destruct o; cbn; rewrite ?Hm; split; intuition congruence.
Qed.

Lemma assert_frameworks pre post : ~ In ImportUtil pre ->
  (In EnableTensorflow pre -> assert_tensorflow_installed (mod_run (pre ++ ImportUtil :: post)) = Ok tt) /\
  (~ In EnableTensorflow pre -> assert_tensorflow_installed (mod_run (pre ++ ImportUtil :: post)) = Err ImportError) /\
  (In EnableMxnet pre -> assert_mxnet_installed (mod_run (pre ++ ImportUtil :: post)) = Ok tt) /\
  (~ In EnableMxnet pre -> assert_mxnet_installed (mod_run (pre ++ ImportUtil :: post)) = Err ImportError).
Proof.
  intros Hn. unfold assert_tensorflow_installed, assert_mxnet_installed, mod_run. rewrite fold_left_app. cbn [fold_left].
  destruct (mod_run_flags pre modules0 Hn eq_refl) as (H1 & H2 & H3). set (m := fold_left mod_step pre modules0) in *.
  pose proof (mod_run_util post (mod_step m ImportUtil)) as H. cbn [mod_step] in H |- *. rewrite H1 in H |- *. cbn [m_util] in H. rewrite H.
  cbn in H2, H3. repeat split; intros Hi; destruct (m_tf m), (m_mx m); try reflexivity; exfalso; intuition congruence.
Qed.
