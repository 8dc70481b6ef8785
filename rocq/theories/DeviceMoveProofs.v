(** Moving a model to a device: proofs for C69. *)
From Coq Require Import String ZArith List Bool Lia.
From Verif Require Import BaseFacts DictFacts DeviceModel DeviceSpec GraphSpec GraphProofs DeviceProofs.
Import ListNotations.
Open Scope string_scope.
Set Default Goal Selector "!".

Lemma dset_same {K W} `{EqD K} (k : K) (v : W) d : dget k d = Some v -> dset k v d = d.
Proof.
  induction d as [|[k' v'] d IH]; cbn [dget dset]; [discriminate|]. destruct (eqd k k') as [->|]; [now intros [= ->]|]. intros E. now rewrite IH.
Qed.
Lemma dget_keys {K W} `{EqD K} (k : K) (v : W) d : dget k d = Some v -> In k (dkeys d).
Proof. intros E. apply (in_map fst _ (k, v)). now apply dget_in. Qed.
Lemma dget_not_key {K W} `{EqD K} (k : K) (d : dict K W) : dget k d = None -> ~ In k (dkeys d).
Proof.
  induction d as [|[k' v'] d IH]; cbn [dget dkeys map In fst]; [tauto|]. destruct (eqd k k') as [->|Hn]; [discriminate|]. intros E [->|Hi]; [congruence|now apply IH].
Qed.

Section Move.
  Context {X A : Type}.
  Variables (k : machine) (cupy_asarray : nat -> nat -> nat) (o current : nat).
  Notation node := (node (arr X) A).
  Notation world := (@world X A).
  Notation F := (asarray_f (X := X) cupy_asarray o current).

  Definition rest_same (n n' : node) : Prop :=
    n_id n' = n_id n /\ n_name n' = n_name n /\ n_func n' = n_func n /\ n_layers n' = n_layers n /\ n_shims n' = n_shims n /\
    n_dims n' = n_dims n /\ n_has n' = n_has n /\ n_refs n' = n_refs n /\ n_attrs n' = n_attrs n /\
    dkeys (n_params n') = dkeys (n_params n) /\ dkeys (n_grads n') = dkeys (n_grads n).
  Lemma rest_same_refl n : rest_same n n. Proof. repeat split. Qed.
  Lemma rest_same_trans a b c : rest_same a b -> rest_same b c -> rest_same a c.
  Proof. unfold rest_same. intuition congruence. Qed.

  Definition on_names (S : list string) (n n' : node) : Prop :=
    rest_same n n' /\
    (forall nm, dget nm (n_params n') = if in_dec string_dec nm S
                then match dget nm (n_has n) with Some true => option_map F (dget nm (n_params n)) | _ => dget nm (n_params n) end
                else dget nm (n_params n)) /\
    (forall nm, dget nm (n_grads n') = if in_dec string_dec nm S then option_map F (dget nm (n_grads n)) else dget nm (n_grads n)).

  Lemma move_param_spec n name n' : move_param cupy_asarray o current n name = Ok n' -> on_names [name] n n'.
  Proof.
    unfold move_param. intros E.
    assert (Hp : exists n1, (match has_param n name with
                | Some true => let* v := get_param n name in Ok (set_param n name (Some (F v)))
                | _ => Ok n end) = Ok n1 /\ (if has_grad n1 name then let* g := get_grad n1 name in Ok (set_grad n1 name (F g)) else Ok n1) = Ok n').
    { destruct (match has_param n name with Some true => _ | _ => _ end) as [n1|e]; [|discriminate E]. now exists n1. }
    clear E. destruct Hp as (n1 & E1 & E2).
    assert (H1 : rest_same n n1 /\ n_grads n1 = n_grads n /\ (forall nm, dget nm (n_params n1) = if string_dec nm name
                then match dget nm (n_has n) with Some true => option_map F (dget nm (n_params n)) | _ => dget nm (n_params n) end else dget nm (n_params n))).
    { unfold has_param in E1. destruct (dget name (n_has n)) as [[|]|] eqn:Eh.
      - unfold get_param in E1. rewrite Eh in E1. destruct (dget name (n_params n)) as [v|] eqn:Ev; [|discriminate E1]. cbn [bind] in E1. injection E1 as <-.
        cbn [set_param with_params n_params n_grads]. split; [|split; [reflexivity|]].
        + unfold rest_same. cbn [set_param with_params n_id n_name n_func n_layers n_shims n_dims n_has n_params n_grads n_refs n_attrs]. rewrite (dset_same name true (n_has n) Eh).
          rewrite dkeys_dset_mem by exact (dget_keys _ _ _ Ev). repeat split.
        + intros nm. rewrite dget_dset. change (@eqd string eqd_string nm name) with (string_dec nm name). destruct (string_dec nm name) as [->|]; [|reflexivity]. now rewrite Eh, Ev.
      - injection E1 as <-. split; [apply rest_same_refl|split; [reflexivity|]]. intros nm. destruct (string_dec nm name) as [->|]; [now rewrite Eh|reflexivity].
      - injection E1 as <-. split; [apply rest_same_refl|split; [reflexivity|]]. intros nm. destruct (string_dec nm name) as [->|]; [now rewrite Eh|reflexivity]. }
    clear E1. destruct H1 as (R1 & G1 & P1). unfold has_grad, dmem in E2. destruct (dget name (n_grads n1)) as [g|] eqn:Eg.
    - unfold get_grad in E2. rewrite Eg in E2. cbn [bind] in E2. injection E2 as <-. split; [|split].
      + refine (rest_same_trans _ _ _ R1 _). unfold rest_same. cbn [set_grad with_grads n_id n_name n_func n_layers n_shims n_dims n_has n_params n_grads n_refs n_attrs].
        rewrite dkeys_dset_mem by exact (dget_keys _ _ _ Eg). repeat split.
      + intros nm. cbn [set_grad with_grads n_params]. rewrite P1. destruct (in_dec string_dec nm [name]) as [[->|[]]|Hni]; [destruct (string_dec nm nm); [reflexivity|congruence]|].
        destruct (string_dec nm name) as [->|]; [contradict Hni; now left|reflexivity].
      + intros nm. cbn [set_grad with_grads n_grads]. rewrite dget_dset, G1. change (@eqd string eqd_string nm name) with (string_dec nm name). rewrite G1 in Eg.
        destruct (string_dec nm name) as [->|Hne]; [destruct (in_dec string_dec name [name]) as [|Hni]; [now rewrite Eg|contradict Hni; now left]|].
        destruct (in_dec string_dec nm [name]) as [[->|[]]|]; [congruence|reflexivity].
    - injection E2 as <-. split; [exact R1|split].
      + intros nm. rewrite P1. destruct (in_dec string_dec nm [name]) as [[->|[]]|Hni]; [destruct (string_dec nm nm); [reflexivity|congruence]|].
        destruct (string_dec nm name) as [->|]; [contradict Hni; now left|reflexivity].
      + intros nm. rewrite G1 in Eg |- *. destruct (in_dec string_dec nm [name]) as [[->|[]]|]; [now rewrite Eg|reflexivity].
  Qed.

  Lemma move_params_spec names : forall n n', NoDup names -> move_params cupy_asarray o current n names = Ok n' -> on_names names n n'.
  Proof.
    induction names as [|name names IH]; intros n n' Hnd E; cbn [move_params] in E.
    - injection E as <-. split; [apply rest_same_refl|split; intros nm; reflexivity].
    - apply NoDup_cons_iff in Hnd as [Hni Hnd].
      destruct (move_param cupy_asarray o current n name) as [n1|e] eqn:E1; [|discriminate E]. cbn [bind] in E.
      apply move_param_spec in E1 as (R1 & P1 & G1). destruct (IH _ _ Hnd E) as (R2 & P2 & G2).
      split; [exact (rest_same_trans _ _ _ R1 R2)|]. assert (Hh : n_has n1 = n_has n) by apply R1. split; intros nm.
      + rewrite P2, P1, Hh. destruct (in_dec string_dec nm (name :: names)) as [[->|Hi]|Hn].
        * destruct (in_dec string_dec nm names) as [Hc|_]; [contradiction|]. destruct (in_dec string_dec nm [nm]) as [_|Hc]; [reflexivity|contradict Hc; now left].
        * destruct (in_dec string_dec nm names) as [_|Hc]; [|contradiction]. destruct (in_dec string_dec nm [name]) as [[->|[]]|_]; [contradiction|reflexivity].
        * destruct (in_dec string_dec nm names) as [Hc|_]; [contradict Hn; now right|]. destruct (in_dec string_dec nm [name]) as [[->|[]]|_]; [contradict Hn; now left|reflexivity].
      + rewrite G2, G1. destruct (in_dec string_dec nm (name :: names)) as [[->|Hi]|Hn].
        * destruct (in_dec string_dec nm names) as [Hc|_]; [contradiction|]. destruct (in_dec string_dec nm [nm]) as [_|Hc]; [reflexivity|contradict Hc; now left].
        * destruct (in_dec string_dec nm names) as [_|Hc]; [|contradiction]. destruct (in_dec string_dec nm [name]) as [[->|[]]|_]; [contradiction|reflexivity].
        * destruct (in_dec string_dec nm names) as [Hc|_]; [contradict Hn; now right|]. destruct (in_dec string_dec nm [name]) as [[->|[]]|_]; [contradict Hn; now left|reflexivity].
  Qed.

  Lemma move_params_total names : forall n : node, NoDup names -> (forall name, dget name (n_has n) = Some true -> dget name (n_params n) <> None) ->
    exists n', move_params cupy_asarray o current n names = Ok n'.
  Proof.
    induction names as [|name names IH]; intros n Hnd Hw; cbn [move_params]; [eauto|]. apply NoDup_cons_iff in Hnd as [Hni Hnd].
    assert (E1 : exists n1, move_param cupy_asarray o current n name = Ok n1).
    { unfold move_param, has_param, get_param. destruct (dget name (n_has n)) as [[|]|] eqn:Eh.
      - destruct (dget name (n_params n)) as [v|] eqn:Ev; [|now apply Hw in Eh]. cbn [bind]. unfold has_grad, dmem, get_grad.
        cbn [set_param with_params n_grads]. destruct (dget name (n_grads n)); cbn [bind]; eauto.
      - cbn [bind]. unfold has_grad, dmem, get_grad. destruct (dget name (n_grads n)); cbn [bind]; eauto.
      - cbn [bind]. unfold has_grad, dmem, get_grad. destruct (dget name (n_grads n)); cbn [bind]; eauto. }
    destruct E1 as [n1 E1]. rewrite E1. cbn [bind]. apply IH; [exact Hnd|]. apply move_param_spec in E1 as (R1 & P1 & _).
    assert (Hh : n_has n1 = n_has n) by apply R1. rewrite Hh. intros nm Hnm. rewrite P1, Hnm. specialize (Hw nm Hnm).
    destruct (in_dec string_dec nm [name]); [|exact Hw]. destruct (dget nm (n_params n)); [discriminate|contradiction].
  Qed.

  Lemma on_names_moved n n' : on_names (dkeys (n_has n)) n n' -> node_moved (fun v v' => v' = F v) n n'.
  Proof.
    intros ((R1 & R2 & R3 & R4 & R5 & R6 & R7 & R8 & R9 & R10 & R11) & P & G). unfold node_moved. repeat (split; [assumption|]). split; intros nm.
    - rewrite P. destruct (in_dec string_dec nm (dkeys (n_has n))) as [Hi|Hn].
      + destruct (dget nm (n_has n)) as [[|]|]; [|reflexivity..]. destruct (dget nm (n_params n)); reflexivity.
      + destruct (dget nm (n_has n)) as [b|] eqn:Eh; [|reflexivity]. contradict Hn. exact (dget_keys _ _ _ Eh).
    - rewrite G. destruct (in_dec string_dec nm (dkeys (n_has n))) as [Hi|Hn].
      + destruct (dget nm (n_has n)) as [b|] eqn:Eh; [destruct (dget nm (n_grads n)); reflexivity|]. now apply dget_not_key in Eh.
      + destruct (dget nm (n_has n)) as [b|] eqn:Eh; [|reflexivity]. contradict Hn. exact (dget_keys _ _ _ Eh).
  Qed.

  (** Shims. [arrived]: what [to_device] makes of any shim that has it. *)
  Definition arrived (sh' : shim_obj) : Prop :=
    sh_torch sh' = true /\ sh_place sh' = (if Nat.eqb o cupy_ops then Gpu 0 else Host).
  Definition movable : Prop := o <> cupy_ops \/ exists n b a, k_torch k = Some (n, b, a) /\ n <> 0.

  Lemma shim_to_device_ok sh sh' : shim_to_device k sh (device_type o) (device_id o) = Ok sh' -> arrived sh'.
  Proof.
    unfold shim_to_device, device_type, device_id, arrived. destruct (sh_torch sh); cbn [negb]; [|discriminate]. destruct (Nat.eqb o cupy_ops); cbn -[valid_id].
    - destruct (k_torch k) as [[[n b] a]|]; [|discriminate]. destruct (valid_id n 0); [|discriminate]. now intros [= <-].
    - now intros [= <-].
  Qed.
  Lemma shim_to_device_total sh : sh_torch sh = true -> movable -> exists sh', shim_to_device k sh (device_type o) (device_id o) = Ok sh'.
  Proof.
    intros Hs Hm. unfold shim_to_device, device_type, device_id. rewrite Hs. cbn [negb]. destruct (Nat.eqb o cupy_ops) eqn:Eo; cbn -[valid_id]; [|eauto].
    destruct Hm as [Hm|(n & b & a & Et & Hn)]; [apply Nat.eqb_eq in Eo; contradiction|]. rewrite Et.
    destruct (valid_id n 0) eqn:Ev; [eauto|]. assert (valid_id n 0 = true) by (apply valid_id_iff; lia). congruence.
  Qed.

  Lemma move_shims_spec l : forall shims shims', move_shims k o shims l = (shims', Ok tt) ->
    length shims' = length shims /\
    (forall a, In a l -> exists sh, nth_error shims' a = Some sh /\ arrived sh) /\
    (forall a, ~ In a l -> nth_error shims' a = nth_error shims a) /\
    (forall a sh, nth_error shims a = Some sh -> arrived sh -> exists sh', nth_error shims' a = Some sh' /\ arrived sh').
  Proof.
    induction l as [|a l IH]; intros shims shims' E; cbn [move_shims] in E.
    - injection E as <-. split; [reflexivity|]. split; [intros a []|]. split; [reflexivity|]. intros a sh H1 H2. eauto.
    - destruct (nth_error shims a) as [sh|] eqn:Ea; [|discriminate E]. destruct (shim_to_device k sh _ _) as [sh1|e] eqn:Es; [|discriminate E].
      apply shim_to_device_ok in Es. assert (La : a < length shims) by (apply nth_error_Some; congruence).
      destruct (IH _ _ E) as (I1 & I2 & I3 & I4). rewrite set_nth_length in I1. split; [exact I1|].
      assert (Hk : forall b sh, nth_error shims b = Some sh -> arrived sh -> exists sh', nth_error shims' b = Some sh' /\ arrived sh').
      { intros b shb Hb Hr. destruct (Nat.eq_dec a b) as [->|Hne].
        - apply (I4 b sh1); [now apply nth_error_set_nth_eq|exact Es].
        - apply (I4 b shb); [now rewrite nth_error_set_nth_neq|exact Hr]. }
      split; [|split; [|exact Hk]].
      + intros b [<-|Hb]; [|now apply I2]. apply (I4 a sh1); [now apply nth_error_set_nth_eq|exact Es].
      + intros b Hb. rewrite I3 by (intros Hc; apply Hb; now right). apply nth_error_set_nth_neq. intros ->. apply Hb. now left.
  Qed.
  Lemma move_shims_total l : movable -> forall shims, (forall a, In a l -> a < length shims) ->
    (forall a sh, In a l -> nth_error shims a = Some sh -> sh_torch sh = true) -> exists shims', move_shims k o shims l = (shims', Ok tt).
  Proof.
    intros Hm. induction l as [|a l IH]; intros shims Hl Ht; cbn [move_shims]; [eauto|].
    destruct (nth_error shims a) as [sh|] eqn:Ea.
    2:{ apply nth_error_None in Ea. specialize (Hl a (or_introl eq_refl)). lia. }
    destruct (shim_to_device_total sh (Ht a sh (or_introl eq_refl) Ea) Hm) as [sh1 Es]. rewrite Es. apply shim_to_device_ok in Es. apply IH.
    - intros b Hb. rewrite set_nth_length. apply Hl. now right.
    - intros b shb Hb. destruct (Nat.eq_dec a b) as [->|Hne].
      + rewrite nth_error_set_nth_eq; [|apply nth_error_Some; congruence]. intros [= <-]. apply Es.
      + rewrite nth_error_set_nth_neq by exact Hne. intros H. apply (Ht b shb); [now right|exact H].
  Qed.

  (** The loop over the nodes. *)
  Lemma loop_spec l : forall (w w' : world), NoDup l -> length (w_ops w) = length (w_nodes w) ->
    (forall a n, In a l -> nth_error (w_nodes w) a = Some n -> NoDup (dkeys (n_has n))) ->
    to_ops_loop k cupy_asarray o current w l = (w', Ok tt) ->
    length (w_nodes w') = length (w_nodes w) /\ length (w_ops w') = length (w_ops w) /\ length (w_shims w') = length (w_shims w) /\
    (forall a, In a l -> nth_error (w_ops w') a = Some o /\ exists n n', nth_error (w_nodes w) a = Some n /\ nth_error (w_nodes w') a = Some n' /\
       node_moved (fun v v' => v' = F v) n n' /\ forall s, In s (n_shims n) -> exists sh, nth_error (w_shims w') s = Some sh /\ arrived sh) /\
    (forall a, ~ In a l -> nth_error (w_ops w') a = nth_error (w_ops w) a /\ nth_error (w_nodes w') a = nth_error (w_nodes w) a) /\
    (forall s, (forall a n, In a l -> nth_error (w_nodes w) a = Some n -> ~ In s (n_shims n)) -> nth_error (w_shims w') s = nth_error (w_shims w) s) /\
    (forall s sh, nth_error (w_shims w) s = Some sh -> arrived sh -> exists sh', nth_error (w_shims w') s = Some sh' /\ arrived sh').
  Proof.
    induction l as [|a l IH]; intros w w' Hnd Hlen Hk E; cbn [to_ops_loop] in E.
    - injection E as <-. repeat (split; [reflexivity|]). split; [intros a []|]. split; [now split|]. split; [reflexivity|]. intros s sh H1 H2. eauto.
    - apply NoDup_cons_iff in Hnd as [Hni Hnd]. destruct (nth_error (w_nodes w) a) as [n|] eqn:Ea; [|discriminate E]. cbn [w_ops w_nodes w_shims] in E.
      destruct (move_params cupy_asarray o current n (param_names n)) as [n1|e] eqn:Em; [|discriminate E].
      destruct (move_shims k o (w_shims w) (n_shims n1)) as [shims r] eqn:Es. destruct r as [[]|e]; [|discriminate E].
      apply move_params_spec in Em; [|apply (Hk a n); [now left|exact Ea]]. pose proof (on_names_moved _ _ Em) as Hmv.
      assert (Hsh : n_shims n1 = n_shims n) by apply Em. rewrite Hsh in Es. destruct (move_shims_spec _ _ _ Es) as (S1 & S2 & S3 & S4).
      assert (La : a < length (w_nodes w)) by (apply nth_error_Some; congruence).
      assert (Hlen' : length (set_nth a o (w_ops w)) = length (set_nth a n1 (w_nodes w))) by (now rewrite !set_nth_length).
      assert (Hin : forall b, In b l -> nth_error (set_nth a n1 (w_nodes w)) b = nth_error (w_nodes w) b).
      { intros b Hb. apply nth_error_set_nth_neq. intros ->. contradiction. }
      assert (Hk' : forall b m, In b l -> nth_error (set_nth a n1 (w_nodes w)) b = Some m -> NoDup (dkeys (n_has m))).
      { intros b m Hb Hm. rewrite Hin in Hm by exact Hb. apply (Hk b m); [now right|exact Hm]. }
      destruct (IH (mkWorld (set_nth a n1 (w_nodes w)) (set_nth a o (w_ops w)) shims) _ Hnd Hlen' Hk' E) as (I1 & I2 & I3 & I4 & I5 & I6 & I7). cbn [w_ops w_nodes w_shims] in I1, I2, I3, I4, I5, I6, I7.
      rewrite set_nth_length in I1. rewrite set_nth_length in I2. rewrite S1 in I3. split; [exact I1|]. split; [exact I2|]. split; [exact I3|]. split; [|split; [|split]].
      + intros b [<-|Hb].
        * destruct (I5 a Hni) as [J1 J2]. split; [rewrite J1; apply nth_error_set_nth_eq; lia|]. exists n, n1. split; [exact Ea|].
          split; [rewrite J2; now apply nth_error_set_nth_eq|]. split; [exact Hmv|]. intros s Hs. destruct (S2 s Hs) as (sh & Hsh1 & Hsh2). exact (I7 s sh Hsh1 Hsh2).
        * destruct (I4 b Hb) as (J1 & m & m' & J2 & J3 & J4 & J5). split; [exact J1|]. exists m, m'. rewrite Hin in J2 by exact Hb. repeat split; try assumption; apply J4.
      + intros b Hb. destruct (I5 b) as [J1 J2]; [intros Hc; apply Hb; now right|]. assert (Hne : a <> b) by (intros ->; apply Hb; now left).
        rewrite J1, J2. split; now apply nth_error_set_nth_neq.
      + intros s Hs. rewrite I6.
        * apply S3. apply (Hs a n); [now left|exact Ea].
        * intros b m Hb Hm. rewrite Hin in Hm by exact Hb. apply (Hs b m); [now right|exact Hm].
      + intros s sh Hs1 Hs2. destruct (S4 s sh Hs1 Hs2) as (sh1 & J1 & J2). exact (I7 s sh1 J1 J2).
  Qed.

  Lemma loop_total l : movable -> forall (w : world), NoDup l ->
    (forall a, In a l -> exists n, nth_error (w_nodes w) a = Some n /\ NoDup (dkeys (n_has n)) /\
       (forall name, dget name (n_has n) = Some true -> dget name (n_params n) <> None) /\
       (forall s, In s (n_shims n) -> exists sh, nth_error (w_shims w) s = Some sh /\ sh_torch sh = true)) ->
    exists w', to_ops_loop k cupy_asarray o current w l = (w', Ok tt).
  Proof.
    intros Hm. induction l as [|a l IH]; intros w Hnd Hw; cbn [to_ops_loop]; [eauto|]. apply NoDup_cons_iff in Hnd as [Hni Hnd].
    destruct (Hw a (or_introl eq_refl)) as (n & Ea & Hk & Hp & Hs). rewrite Ea. cbn [w_ops w_nodes w_shims].
    destruct (move_params_total (param_names n) n Hk Hp) as [n1 Em]. rewrite Em. apply move_params_spec in Em; [|exact Hk].
    assert (Hsh : n_shims n1 = n_shims n) by apply Em. rewrite Hsh.
    destruct (move_shims_total (n_shims n) Hm (w_shims w)) as [shims Es].
    { intros s Hs1. destruct (Hs s Hs1) as (sh & H1 & _). apply nth_error_Some. congruence. }
    { intros s sh Hs1 Hs2. destruct (Hs s Hs1) as (sh1 & H1 & H2). congruence. }
    rewrite Es. apply IH; [exact Hnd|]. intros b Hb. destruct (Hw b (or_intror Hb)) as (m & Eb & Hkb & Hpb & Hsb). exists m. cbn [w_nodes w_shims].
    rewrite nth_error_set_nth_neq by (intros ->; contradiction). repeat split; try assumption. intros s Hs1.
    destruct (Hsb s Hs1) as (sh & H1 & H2). destruct (move_shims_spec _ _ _ Es) as (_ & S2 & S3 & _).
    destruct (in_dec Nat.eq_dec s (n_shims n)) as [Hi|Hn].
    - destruct (S2 s Hi) as (sh' & J1 & J2). exists sh'. split; [exact J1|apply J2].
    - exists sh. rewrite S3 by exact Hn. now split.
  Qed.

  Lemma reach_range (w : world) root a : coherent w -> root < length (w_nodes w) -> reach (graph_of (w_nodes w)) root a -> a < length (w_nodes w).
  Proof.
    intros [_ Hc] Hr [d Hd]. induction Hd as [|d a b c Hp IH Hi]; [exact Hr|]. specialize (IH Hr). unfold layers, graph_of in Hi.
    destruct (nth_error (w_nodes w) b) as [n|] eqn:Eb; [|apply nth_error_None in Eb; lia].
    erewrite nth_error_nth in Hi; [|rewrite nth_error_map, Eb; reflexivity]. now apply (Hc b n Eb).
  Qed.

  Lemma to_ops_spec (w w' : world) root : coherent w -> to_ops k cupy_asarray o current w root = (w', Ok tt) ->
    (forall a, reach (graph_of (w_nodes w)) root a -> nth_error (w_ops w') a = Some o /\ exists n n', nth_error (w_nodes w) a = Some n /\ nth_error (w_nodes w') a = Some n' /\
       node_moved (fun v v' => v' = F v) n n') /\
    (forall a, ~ reach (graph_of (w_nodes w)) root a -> nth_error (w_ops w') a = nth_error (w_ops w) a /\ nth_error (w_nodes w') a = nth_error (w_nodes w) a) /\
    (forall s, shim_below w root s -> exists sh, nth_error (w_shims w') s = Some sh /\ arrived sh) /\
    (forall s, ~ shim_below w root s -> nth_error (w_shims w') s = nth_error (w_shims w) s).
  Proof.
    intros [Hc1 Hc2] E. unfold to_ops in E. destruct (walk_exact (graph_of (w_nodes w)) Bfs root) as [Hnd Hin].
    destruct (loop_spec _ _ _ Hnd Hc1 (fun a n _ Ha => proj1 (Hc2 a n Ha)) E) as (_ & _ & _ & I4 & I5 & I6 & _).
    split; [|split; [|split]].
    - intros a Ha. apply Hin in Ha. destruct (I4 a Ha) as (J1 & n & n' & J2 & J3 & J4 & _). split; [exact J1|]. now exists n, n'.
    - intros a Ha. apply I5. intros Hc. apply Ha. now apply Hin.
    - intros s (a & n & Ha & Hn & Hs). apply Hin in Ha. destruct (I4 a Ha) as (_ & m & m' & J2 & _ & _ & J5). apply J5. congruence.
    - intros s Hs. apply I6. intros a n Ha Hn Hi. apply Hs. exists a, n. split; [now apply Hin|now split].
  Qed.

  Lemma to_ops_total (w : world) root : movable -> coherent w -> root < length (w_nodes w) ->
    (forall s sh, shim_below w root s -> nth_error (w_shims w) s = Some sh -> sh_torch sh = true) ->
    exists w', to_ops k cupy_asarray o current w root = (w', Ok tt).
  Proof.
    intros Hm Hc Hr Ht. unfold to_ops. destruct (walk_exact (graph_of (w_nodes w)) Bfs root) as [Hnd Hin]. apply loop_total; [exact Hm|exact Hnd|].
    intros a Ha. apply Hin in Ha. pose proof (reach_range w root a Hc Hr Ha) as La. destruct (nth_error (w_nodes w) a) as [n|] eqn:Ea; [|apply nth_error_None in Ea; lia].
    exists n. split; [reflexivity|]. destruct Hc as [_ Hc]. destruct (Hc a n Ea) as (H1 & H2 & H3 & H4). repeat split; [exact H1|exact H2|].
    intros s Hs. specialize (H4 s Hs). destruct (nth_error (w_shims w) s) as [sh|] eqn:Esh; [|apply nth_error_None in Esh; lia].
    exists sh. split; [reflexivity|]. apply (Ht s sh); [|exact Esh]. now exists a, n.
  Qed.
End Move.

Lemma node_moved_impl {X A} (f g : arr X -> arr X -> Prop) (n n' : node (arr X) A) : (forall v v', f v v' -> g v v') -> node_moved f n n' -> node_moved g n n'.
Proof.
  intros Hfg (R1 & R2 & R3 & R4 & R5 & R6 & R7 & R8 & R9 & R10 & R11 & P & G). unfold node_moved. repeat (split; [assumption|]). split; intros nm.
  - specialize (P nm). destruct (dget nm (n_has n)) as [[|]|]; try exact P. destruct (dget nm (n_params n)); [|exact P]. destruct (dget nm (n_params n')); [now apply Hfg|exact P].
  - specialize (G nm). destruct (dget nm (n_has n)) as [b|]; try exact G. destruct (dget nm (n_grads n)); [|exact G]. destruct (dget nm (n_grads n')); [now apply Hfg|exact G].
Qed.

Section Ends.
  Context {X A : Type}.
  Variables (k : machine) (cupy_asarray : nat -> nat -> nat).
  Implicit Types w : @world X A.

  Lemma to_cpu_moves w w' root : coherent w -> to_cpu k cupy_asarray w root = (w', Ok tt) ->
    (forall a, reach (graph_of (w_nodes w)) root a -> nth_error (w_ops w') a = Some numpy_ops /\ exists n n', nth_error (w_nodes w) a = Some n /\ nth_error (w_nodes w') a = Some n' /\
       node_moved (fun v v' => v' = (Host, snd v)) n n') /\
    (forall a, ~ reach (graph_of (w_nodes w)) root a -> nth_error (w_ops w') a = nth_error (w_ops w) a /\ nth_error (w_nodes w') a = nth_error (w_nodes w) a) /\
    (forall s, shim_below w root s -> exists sh, nth_error (w_shims w') s = Some sh /\ sh_place sh = Host) /\
    (forall s, ~ shim_below w root s -> nth_error (w_shims w') s = nth_error (w_shims w) s).
  Proof.
    intros Hc E. destruct (to_ops_spec _ _ _ _ _ _ _ Hc E) as (H1 & H2 & H3 & H4). split; [|split; [exact H2|split; [|exact H4]]].
    - intros a Ha. destruct (H1 a Ha) as (J1 & n & n' & J2 & J3 & J4). split; [exact J1|]. exists n, n'. repeat split; try assumption; apply J4.
    - intros s Hs. destruct (H3 s Hs) as (sh & J1 & _ & J2). now exists sh.
  Qed.
  Lemma to_cpu_total w root : coherent w -> root < length (w_nodes w) ->
    (forall s sh, shim_below w root s -> nth_error (w_shims w) s = Some sh -> sh_torch sh = true) ->
    exists w', to_cpu k cupy_asarray w root = (w', Ok tt).
  Proof. intros. apply to_ops_total; [left; discriminate|assumption..]. Qed.

  Lemma to_gpu_moves w w' root id : coherent w -> to_gpu k cupy_asarray w root id = (w', Ok tt) ->
    (exists n, k_cupy k = Some (Some n) /\ (0 <= id < Z.of_nat n)%Z) /\
    (forall a, reach (graph_of (w_nodes w)) root a -> nth_error (w_ops w') a = Some cupy_ops /\ exists n n', nth_error (w_nodes w) a = Some n /\ nth_error (w_nodes w') a = Some n' /\
       node_moved (fun v v' => snd v' = snd v /\ exists d, fst v' = Gpu d /\ (fst v = Host -> d = Z.to_nat id)) n n') /\
    (forall a, ~ reach (graph_of (w_nodes w)) root a -> nth_error (w_ops w') a = nth_error (w_ops w) a /\ nth_error (w_nodes w') a = nth_error (w_nodes w) a) /\
    (forall s, shim_below w root s -> exists sh, nth_error (w_shims w') s = Some sh /\ sh_place sh = Gpu 0) /\
    (forall s, ~ shim_below w root s -> nth_error (w_shims w') s = nth_error (w_shims w) s).
  Proof.
    intros Hc E. unfold to_gpu in E. destruct (k_cupy k) as [nd|] eqn:Ek; [|discriminate E]. destruct (valid_id _ id) eqn:Ev; [|discriminate E].
    apply valid_id_iff in Ev. destruct (to_ops_spec _ _ _ _ _ _ _ Hc E) as (H1 & H2 & H3 & H4). split; [|split; [|split; [exact H2|split; [|exact H4]]]].
    - destruct nd as [n|]; [now exists n|lia].
    - intros a Ha. destruct (H1 a Ha) as (J1 & n & n' & J2 & J3 & J4). split; [exact J1|]. exists n, n'. split; [exact J2|]. split; [exact J3|].
      refine (node_moved_impl _ _ _ _ _ J4). intros [p x] v' ->. cbn. destruct p as [|d]; cbn; (split; [reflexivity|]); eexists; (split; [reflexivity|]); easy.
    - intros s Hs. destruct (H3 s Hs) as (sh & J1 & _ & J2). now exists sh.
  Qed.
  Lemma to_gpu_total w root id : coherent w -> root < length (w_nodes w) -> usable k id ->
    (forall s sh, shim_below w root s -> nth_error (w_shims w) s = Some sh -> sh_torch sh = true) -> has_torch_cuda_gpu k = true ->
    exists w', to_gpu k cupy_asarray w root id = (w', Ok tt).
  Proof.
    intros Hc Hr [(n & Ek & Hid) _] Ht Hg. unfold to_gpu. rewrite Ek. rewrite (proj2 (valid_id_iff n id) Hid).
    apply to_ops_total; [|assumption..]. right. unfold has_torch_cuda_gpu in Hg. destruct (k_torch k) as [[[m b] a]|]; [|discriminate Hg].
    exists m, b, a. split; [reflexivity|]. now destruct m.
  Qed.
End Ends.

(** ** Kinds of arrays *)
Lemma kinds_exclusive tf mx x :
  length (filter (fun b : bool => b) [is_numpy_array x; is_cupy_array x; is_torch_array x; is_tensorflow_array tf x; is_mxnet_array mx x]) =
  match x with PyObject => 0 | TfTensor _ => if tf then 1 else 0 | MxArray _ => if mx then 1 else 0 | _ => 1 end.
Proof. destruct x, tf, mx; reflexivity. Qed.
Lemma kinds_gpu tf mx x :
  (is_torch_gpu_array x = true <-> exists d, x = TorchTensor d /\ d <> TCpu) /\
  (is_tensorflow_gpu_array tf x = true <-> tf = true /\ x = TfTensor true) /\ (is_mxnet_gpu_array mx x = true <-> mx = true /\ x = MxArray true).
Proof.
  split; [|split; destruct x as [| |d|[|]|[|]|]; destruct tf, mx; cbn; intuition congruence].
  split.
  - destruct x as [| |d|g|g|]; try discriminate. intros H. exists d. split; [reflexivity|]. intros ->. discriminate H.
  - intros (d & -> & H). destruct d; [congruence|reflexivity..].
Qed.
Lemma array_module_ok x : get_array_module x = (if is_xp_array x then Ok (if is_cupy_array x then "cupy" else "numpy") else Err ValueError) /\
  get_array_ops x = (if is_cupy_array x then cupy_ops else numpy_ops).
Proof. destruct x; split; reflexivity. Qed.
Lemma thread_ops_ok s o : contextvars_eq_thread_ops (with_ctx s (set_current_ops (y_ctx s) o)) = true.
Proof. cbn. apply Nat.eqb_refl. Qed.

Lemma thread_ops_iff s : contextvars_eq_thread_ops s = true <-> x_ops (y_ctx s) = x_thread (y_ctx s).
Proof.
  unfold contextvars_eq_thread_ops. destruct (x_ops (y_ctx s)) as [a|], (x_thread (y_ctx s)) as [b|]; split; intros E; try reflexivity; try discriminate.
  - apply Nat.eqb_eq in E. now subst.
  - injection E as ->. apply Nat.eqb_refl.
Qed.

(** ** Witnesses *)
Lemma require_gpu_witness : exists k id s s' e, require_gpu k s id = (s', Err e) /\ backend s numpy_ops /\ ~ backend s' numpy_ops.
Proof.
  exists (mkMachine false false (Some (Some 1)) None), 5%Z, wit_sys. eexists. exists RuntimeError. split; [reflexivity|]. split; [now split|].
  intros [[=] _].
Qed.
Lemma prefer_gpu_witness : exists k s s' e, prefer_gpu k s 0 = (s', Err e).
Proof. exists (mkMachine true false (Some (Some 1)) None), wit_sys. eexists. exists ValueError. reflexivity. Qed.
Lemma default_device_witness : exists k s s' id s2 e, k_torch k <> None /\ require_gpu k s id = (s', Ok true) /\ get_torch_default_device k s' = (s2, Err e).
Proof.
  exists (mkMachine false false (Some (Some 1)) (Some (0, false, false))), wit_sys. eexists. exists 0%Z. eexists. eexists.
  split; [discriminate|]. split; reflexivity.
Qed.
Lemma allocator_witness : exists k s s', set_gpu_allocator k true s "pytorch" = (s', Ok tt) /\ has_cupy_gpu k = true /\ has_torch_cuda_gpu k = true /\ y_malloc s' = None.
Proof. exists (mkMachine false false (Some (Some 1)) (Some (1, false, false))), wit_sys. eexists. repeat split. Qed.
Lemma enable_witness : assert_tensorflow_installed (mod_run [ImportUtil; EnableTensorflow; CallUtil]) = Err ImportError /\
  assert_mxnet_installed (mod_run [ImportUtil; EnableMxnet; CallUtil]) = Err ImportError.
Proof. split; reflexivity. Qed.

Lemma wit_coherent torch : coherent (wit_world torch).
Proof.
  split; [reflexivity|]. assert (Hn : forall name, dget name [("W", true); ("b", false)] = Some true -> dget name [("W", (Host, 7))] <> None).
  { intros name. cbn. destruct (eqd name "W"); [discriminate|]. destruct (eqd name "b"); discriminate. }
  assert (Hd : NoDup (dkeys [("W", true); ("b", false)])). { repeat constructor; cbn; intuition discriminate. }
  intros [|[|a]] n Ha; [injection Ha as <-..|destruct a; discriminate Ha]; cbn [n_has n_params n_layers n_shims wit_node w_nodes w_shims wit_world length In].
  - repeat split; [exact Hd|exact Hn|lia|lia].
  - repeat split; [exact Hd|exact Hn|lia|lia].
Qed.
Lemma to_gpu_witness : exists w', to_gpu wit_machine (fun c _ => c) (wit_world true) 0 1 = (w', Ok tt) /\
  exists n, nth_error (w_nodes w') 1 = Some n /\ dget "W" (n_params n) = Some (Gpu 1, 7) /\ nth_error (w_shims w') 0 = Some (mkShim true (Gpu 0)).
Proof. eexists. split; [reflexivity|]. eexists. repeat split. Qed.
Lemma to_cpu_witness : exists (w w' : @world nat nat) e, coherent w /\ to_gpu wit_machine (fun c _ => c) w 0 1 = (w', Err e) /\
  (exists n, nth_error (w_nodes w') 0 = Some n /\ dget "W" (n_params n) = Some (Gpu 1, 7)) /\ nth_error (w_shims w') 0 = Some (mkShim false Host).
Proof.
  exists (wit_world false). eexists. exists NotImplementedError. split; [apply wit_coherent|]. split; [reflexivity|]. split; [eexists; split; reflexivity|reflexivity].
Qed.
